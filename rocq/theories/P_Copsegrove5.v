(** The differences reported with the verdicts. *)
Require Import Reals ZArith Ascii String List Bool Lra Lia.
Require Import Verif.Base Verif.NumPy Verif.M_Utils Verif.M_DmsText Verif.M_Text Verif.Spec_Text Verif.M_Ingest Verif.Spec_Ingest Verif.P_Ingest Verif.P_Ingest2.
Require Import Verif.M_Validate Verif.Spec_Validate Verif.P_Validate5 Verif.M_Copsegrove Verif.Spec_Copsegrove Verif.P_Copsegrove Verif.P_Copsegrove2 Verif.P_Copsegrove3 Verif.P_Copsegrove4.
Import ListNotations.
Open Scope list_scope.
Local Open Scope nat_scope.

Lemma fold_greater : forall l x, Forall (fun v => exists r, v = Fin r) l -> exists e, fold_left (fun m y => if greater y m then y else m) l (Fin x) = Fin e /\
  In (Fin e) (Fin x :: l) /\ forall y, In (Fin y) (Fin x :: l) -> (y <= e)%R.
Proof.
  induction l as [|v l IH]; intros x F; cbn [fold_left].
  - exists x. split; [reflexivity|]. split; [left; reflexivity|]. intros y [E|[]]. injection E as <-. lra.
  - inversion F as [|? ? (y & ->) F']; subst. cbn [greater]. destruct (Rlt_dec x y) as [L|L].
    + destruct (IH y F') as (e & E & I & M). exists e. split; [exact E|]. split; [right; exact I|]. pose proof (M y (or_introl eq_refl)). intros z [Z|Z]; [injection Z as <-; lra|apply M; exact Z].
    + destruct (IH x F') as (e & E & I & M). exists e. split; [exact E|]. split; [destruct I as [I|I]; [left; exact I|right; right; exact I]|]. pose proof (M x (or_introl eq_refl)).
      intros z [Z|[Z|Z]]; [injection Z as <-; lra|injection Z as <-; lra|]. apply M. right. exact Z.
Qed.
Lemma verdict_difference : forall eval lines terms tol k t r d i a,
  (forall f l, eval (parse_copsegrove lines) f = Some l -> one_each (parse_copsegrove lines) l) ->
  nth_error terms k = Some t -> nth_error (validate_random_terms eval lines terms tol) k = Some r ->
  let stations := parse_copsegrove lines in
  compared (eval stations) stations t d i a -> finite d -> finite i -> finite a ->
  exists e, vr_max_abs r = Fin e /\ greatest e (difference (jt_name t) (jt_value t) stations d i a).
Proof.
  intros eval lines terms tol k t r d i a OE T V stations (M & (E1 & E2 & E3) & (st & w & IS & W)) FD FI FA. unfold validate_random_terms in V. rewrite nth_error_map, T in V. cbn in V. fold stations in V. injection V as V.
  unfold validate_term in V. rewrite (random_mode _ M) in V. rewrite (proj2 (text_eqb_spec _ _) M) in V. cbn [negb] in V. rewrite E1, E2, E3 in V.
  pose proof (OE _ _ E1) as L1. pose proof (OE _ _ E2) as L2. pose proof (OE _ _ E3) as L3. fold stations in L1, L2, L3.
  pose proof (diffs_head (jt_name t) (jt_value t) stations d i a L1 L2 L3) as H. pose proof (fun y => diffs_in (jt_name t) (jt_value t) stations d i a y L1 L2 L3) as IN.
  destruct (term_diffs (jt_name t) (jt_value t) stations d i a) as [l n]. cbn [fst] in H, IN. destruct l as [|y l]; [elim H; exists st, w; auto|].
  assert (RF : forall v s, reading (jt_name t) stations d i a v s -> exists x, v = Fin x).
  { intros v s (j & q & hs & lat & ah & _ & _ & [[N _]|[[N _]|[N _]]]); apply nth_error_In in N; [apply (proj1 (Forall_forall _ _) FI v N)|apply (proj1 (Forall_forall _ _) FA v N)|apply (proj1 (Forall_forall _ _) FD v N)]. }
  assert (FF : Forall (fun v => exists r, v = Fin r) (y :: l)).
  { apply Forall_forall. intros z Z. apply IN in Z. destruct Z as (v & s & R & ->). destruct (RF v s R) as (x & ->). cbn. eexists. reflexivity. }
  inversion FF as [|? ? (x & ->) FL]; subst. cbn [py_max]. destruct (fold_greater l x FL) as (e & E & I & G). rewrite E. cbn [vr_max_abs]. exists e. split; [reflexivity|]. split.
  - apply IN in I. destruct I as (v & s & R & EV). destruct (RF v s R) as (z & ->). cbn in EV. injection EV as ->. exists z, s. auto.
  - intros y (z & s & R & ->). apply G. apply IN. exists (Fin z), s. split; [exact R|]. reflexivity.
Qed.
Lemma compare_difference : forall eval legacy t r n d i a l mag fn mode, (forall f v, eval f = Some v -> length v = n) -> compare_term eval legacy t = Some r ->
  values_of eval t d i a -> in_radians (jt_unit t) (jt_value t) mag -> function_name t fn -> mode_name (jt_mode t) mode -> legacy (jt_name t) fn mag mode = Some l ->
  finite d -> finite i -> finite a -> finite l -> exists e, tr_max_abs r = Fin e /\ greatest e (row_difference mag d i a l).
Proof.
  intros eval legacy t r n d i a l mag fn mode OE C (E1 & E2 & E3) U FN MN L FD FI FA FL. apply function_name_spec in FN. apply mode_spec in MN. subst fn mode.
  assert (mag = (jt_value t * unit_factor (jt_unit t))%R) as ->.
  { pose proof (unit_spec (jt_unit t) (jt_value t)) as U'. destruct U as [[A ->]|[A ->]], U' as [[B E]|[B E]]; try contradiction; congruence. }
  set (mag := (jt_value t * unit_factor (jt_unit t))%R) in *. unfold compare_term in C. rewrite E1, E2, E3 in C. fold mag in C. rewrite L in C.
  assert (LI : length i = length d) by (rewrite (OE _ _ E1), (OE _ _ E2); reflexivity). assert (LA : length a = length d) by (rewrite (OE _ _ E1), (OE _ _ E3); reflexivity).
  assert (FR : finite (flat_rows d i a)).
  { apply Forall_forall. intros v V. apply In_nth_error in V. destruct V as (k & K). apply flat_entry in K; [|exact LI|exact LA]. destruct K as (j & [[_ N]|[[_ N]|[_ N]]]); apply nth_error_In in N;
      [apply (proj1 (Forall_forall _ _) FD v N)|apply (proj1 (Forall_forall _ _) FI v N)|apply (proj1 (Forall_forall _ _) FA v N)]. }
  assert (X : exists ds, map (fun xy => eabs (esub (fst xy) (snd xy))) (combine l (map (scaled_by mag) (flat_rows d i a))) = map Fin ds /\
    forall y, In y ds <-> exists k x w, nth_error (flat_rows d i a) k = Some (Fin x) /\ nth_error l k = Some (Fin w) /\ y = Rabs (w - x * mag)).
  { clear C L. revert FL FR. generalize (flat_rows d i a). clear. intros fr FL. revert fr. induction FL as [|v l (w & ->) FL IH]; intros fr FR.
    - exists []. split; [reflexivity|]. intro y. split; [intros []|]. intros (k & x & w & _ & H & _). destruct k; discriminate.
    - destruct FR as [|v fr (x & ->) FR]; [exists []; split; [reflexivity|]; intro y; split; [intros []|]; intros (k & x & w' & H & _); destruct k; discriminate|].
      destruct (IH fr FR) as (ds & E & G). exists (Rabs (w - x * mag) :: ds). split; [cbn [map combine fst snd scaled_by esub eabs]; rewrite E; reflexivity|]. intro y. cbn [In]. rewrite G. split.
      + intros [<-|(k & x' & w' & K)]; [exists 0, x, w; auto|exists (S k), x', w'; exact K].
      + intros ([|k] & x' & w' & K1 & K2 & ->); [left; cbn in K1, K2; congruence|right; exists k, x', w'; auto]. }
  destruct X as (ds & E & G). rewrite E in C. destruct ds as [|y ds]; [discriminate|]. destruct (np_max_greatest (y :: ds)) as (e & EM & I & M); [discriminate|]. rewrite EM in C. injection C as <-. cbn [tr_max_abs].
  exists e. split; [reflexivity|]. split.
  - apply G in I. destruct I as (k & x & w & K & W & Y). exists k, x, w. split; [apply flat_entry; assumption|auto].
  - intros z (k & x & w & K & W & ->). apply M. apply G. exists k, x, w. split; [apply flat_entry; assumption|auto].
Qed.
