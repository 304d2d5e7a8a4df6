(** The terms that formulas make, against the errors of the weight functions. *)
Require Import Reals ZArith Ascii String List Bool Arith Lra Lia.
Require Import Verif.Base Verif.NumPy Verif.M_Error Verif.M_Weights Verif.M_DmsText Verif.M_Text Verif.M_Rewrite.
Require Import Verif.P_Trig Verif.P_Error2 Verif.M_Interpreter Verif.M_FormulaData Verif.M_Formulas Verif.Spec_Formulas Verif.P_Formulas.
Import ListNotations.
Local Open Scope R_scope.

Lemma seq_opt_map_some {A B} (f : A -> B) l : seq_opt (map (fun x => Some (f x)) l) = Some (map f l).
Proof. induction l as [|a l IH]; [reflexivity|]. simpl. rewrite IH. reflexivity. Qed.
Lemma seq_opt_none {A} (l : list (option A)) : In None l -> seq_opt l = None.
Proof.
  induction l as [|o l IH]; [contradiction|]. intros [->|I]; [reflexivity|]. simpl. rewrite (IH I). destruct o; reflexivity.
Qed.
Lemma seq_opt_some {A} (l : list (option A)) : ~ In None l -> exists m, seq_opt l = Some m /\ length m = length l.
Proof.
  induction l as [|[a|] l IH]; intros N.
  - exists []. auto.
  - destruct (IH (fun I => N (or_intror I))) as [m [E L]]. exists (a :: m). simpl. rewrite E. split; [reflexivity|]. simpl. congruence.
  - destruct N. left. reflexivity.
Qed.

(** no vertical station: the function makes its weights only *)
Lemma no_sing h l : Forall (fun s => h_limit h <= w_inc s) l -> existsb (is_sing h) l = false.
Proof.
  induction 1 as [|s l F _ IH]; [reflexivity|]. simpl. rewrite IH. unfold is_sing.
  destruct (Rlt_dec (w_inc s) (h_limit h)); [lra|reflexivity].
Qed.
Lemma row_weight f : In (f_function f) same_functions -> exists w, M_Weights.lookup (f_function f) row_weights = Some w.
Proof.
  intros IN. remember (f_function f) as g. clear Heqg. unfold same_functions in IN. simpl in IN.
  repeat (destruct IN as [<-|IN]; [eexists; reflexivity|]). contradiction.
Qed.
Lemma call_weight azi tort rev4 h l code g w mag p : M_Weights.lookup g row_weights = Some w ->
  (In g vertical_functions -> existsb (is_sing h) l = false) -> (g = "XYM2"%string -> p = "systematic"%string) ->
  call_func azi tort rev4 h l code (underscored g) mag p = simple_error w rev4 h l code mag p.
Proof.
  intros W V X.
  assert (IN : In g (map fst row_weights)).
  { clear -W. induction row_weights as [|[k v] r IH]; [discriminate|]. simpl in W |- *.
    destruct (String.eqb_spec g k) as [->|N]; auto. }
  simpl in IN.
  repeat (destruct IN as [<-|IN];
    [cbv [M_Weights.lookup row_weights String.eqb Ascii.eqb Bool.eqb] in W; injection W as <-;
     first [reflexivity
           |rewrite (X eq_refl); reflexivity
           |specialize (V ltac:(simpl; tauto)); cbv [call_func underscored M_Weights.lookup simple_weights String.eqb Ascii.eqb Bool.eqb];
            cbv [ABXY_TI2 ab_error XYM3 XYM4 CNA sing_error]; rewrite V; unfold simple_error; destruct (seq_opt _); reflexivity]|]).
  contradiction.
Qed.
Lemma interpreted_same azi tort rev4 h lat l f code mag p : In f json_formulas -> In (f_function f) same_functions -> sound_header h ->
  (In (f_function f) vertical_functions -> Forall (fun s => sin (w_inc s) <> 0 /\ h_limit h <= w_inc s) l) ->
  (f_function f = "XYM2"%string -> p = "systematic"%string) ->
  interpreted rev4 h lat l f code mag p = call_func azi tort rev4 h l code (underscored (f_function f)) mag p.
Proof.
  intros IN SM SH V X. destruct (row_weight f SM) as [w W].
  rewrite (call_weight azi tort rev4 h l code _ w mag p W).
  - unfold interpreted, simple_error.
    assert (E : map (term_row h lat f) l = map (fun s => Some (w h s)) l).
    { apply map_ext_in. intros s S1. apply row_same; auto. intros S2.
      apply V in S2. rewrite Forall_forall in S2. apply S2. exact S1. }
    rewrite E, (seq_opt_map_some (w h)). reflexivity.
  - intros S2. apply no_sing. apply V in S2. clear -S2. induction S2; constructor; tauto.
  - exact X.
Qed.

(** the formulas with a name that has no value *)
Lemma unknown_row f h lat s : In f json_formulas -> (In (f_function f) unknown_functions <-> term_row h lat f s = None).
Proof.
  intros IN. split.
  - intros U. each IN; name_in U; simpl in U;
    first [exfalso; repeat (destruct U as [U|U]; [discriminate U|]); contradiction | clear U; reflexivity].
  - intros N.
    each IN; name_of;
    first [simpl; tauto | exfalso; revert N; ev; discriminate].
Qed.
