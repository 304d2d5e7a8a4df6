(** Totals of a tool model; which calls succeed. *)
Require Import Reals ZArith Lra Psatz Lia Bool String List.
Require Import Verif.Base Verif.NumPy Verif.M_Utils Verif.M_Error Verif.Spec Verif.Spec_Error Verif.M_Weights Verif.Spec_Weights.
Require Import Verif.P_Error Verif.P_Error2 Verif.P_Weights Verif.P_Weights2 Verif.P_Weights3 Verif.P_Weights4
  Verif.P_Weights5 Verif.P_Weights6 Verif.P_Weights7 Verif.P_Weights8 Verif.P_Weights9 Verif.P_Weights10 Verif.P_Weights11
  Verif.P_Weights12.
Import ListNotations.
Local Open Scope R_scope.

Lemma generated_from : forall rev4 l code p e, generated rev4 l code p e ->
  from_generate (drdp rev4 (map survey_rad l)) (length l) (Some e).
Proof.
  intros rev4 l code p e (ed & g & G & Q). exists code, ed, p, g. split; auto.
  destruct g as [[a b]|]; tauto.
Qed.
Lemma generated_first : forall rev4 l code p e, (0 < length l)%nat -> generated rev4 l code p e ->
  nth_error (er_cov_NEV e) 0 = Some mzero.
Proof.
  intros rev4 l code p e L (ed & g & G & Q). destruct g as [[a b]|].
  - destruct Q as (L1 & L2 & Z1 & Z2). eapply source_first_given; [|exact Z1|exact Z2|exact G]. congruence.
  - eapply (source_first rev4 (map survey_rad l)); [| |exact G]; rewrite map_length; auto.
Qed.
Lemma yaml_totals : forall az tort mi rev4 h l codes t, (0 < length l)%nat ->
  yaml_tool_error az tort mi rev4 h l codes = Totals t ->
  (forall m, mi = Some m -> forall s, In s l -> w_inc s < m) /\
  exists errs,
  Forall2 (fun c e => call_func az tort rev4 h l (c_name c) (c_function c) (c_magnitude c) (c_propagation c) = Made e)
    codes errs /\
  forall k, (k < length l)%nat ->
  exists a r s g w,
      nth_error (t_all t) k = Some a /\ nth_error (t_random t) k = Some r /\
      nth_error (t_systematic t) k = Some s /\ nth_error (t_global t) k = Some g /\
      nth_error (t_within_pad t) k = Some w /\
      a = msum (map (fun e => nth k (er_cov_NEV e) mzero) errs) /\
      a = madd (madd r s) (madd g w) /\
      (symmetric a /\ psd a) /\ (symmetric r /\ psd r) /\ (symmetric s /\ psd s) /\
      (symmetric g /\ psd g) /\ (symmetric w /\ psd w) /\
      (k = 0%nat -> a = mzero).
Proof.
  intros az tort mi rev4 h l codes t L H. unfold yaml_tool_error in H.
  match type of H with (if ?b then _ else _) = _ => destruct b eqn:IC; [|discriminate] end.
  split.
  { intros m -> s Hs. rewrite forallb_forall in IC. specialize (IC s Hs). destruct (Rlt_dec (w_inc s) m); [auto|discriminate]. }
  set (os := map (fun c => call_func az tort rev4 h l (c_name c) (c_function c) (c_magnitude c) (c_propagation c)) codes) in *.
  cbv zeta in H. fold os in H.
  destruct (existsb fails os) eqn:EF; [discriminate|]. destruct (existsb not_finite os) eqn:EN; [discriminate|].
  destruct (tool_totals (length l) (map made os)) as [t'|] eqn:T; [|discriminate]. injection H as ->.
  assert (OK : forall o, In o os -> exists e, o = Made e).
  { intros o Ho. destruct o as [e| | |]; eauto; exfalso.
    - assert (existsb fails os = true) by (apply existsb_exists; exists ReturnsNone; auto). congruence.
    - assert (existsb fails os = true) by (apply existsb_exists; exists Raises; auto). congruence.
    - assert (existsb not_finite os = true) by (apply existsb_exists; exists NotFinite; auto). congruence. }
  assert (GEN : forall c, In c codes -> exists e, call_func az tort rev4 h l (c_name c) (c_function c) (c_magnitude c) (c_propagation c) = Made e
            /\ generated rev4 l (c_name c) (propagated (c_function c) (c_propagation c)) e).
  { intros c Hc. destruct (OK (call_func az tort rev4 h l (c_name c) (c_function c) (c_magnitude c) (c_propagation c))) as [e E].
    { unfold os. apply in_map_iff. exists c. auto. }
    exists e. split; auto. eapply call_generated; eauto. }
  assert (HF : Forall (from_generate (drdp rev4 (map survey_rad l)) (length (map survey_rad l))) (map made os)).
  { apply Forall_forall. intros x Hx. unfold os in Hx. rewrite map_map in Hx. apply in_map_iff in Hx. destruct Hx as (c & <- & Hc).
    destruct (GEN c Hc) as (e & E & G). rewrite E. cbn [made]. rewrite map_length. eapply generated_from; eauto. }
  rewrite <- (map_length survey_rad l) in T.
  destruct (totals_valid rev4 (map survey_rad l) (map made os) t) as (errs & EM & _ & _ & _ & _ & _ & K); auto.
  { rewrite map_length. auto. }
  assert (F2 : Forall2 (fun c e => call_func az tort rev4 h l (c_name c) (c_function c) (c_magnitude c) (c_propagation c) = Made e) codes errs).
  { unfold os in EM. rewrite map_map in EM. clear -EM GEN. revert errs EM.
    induction codes as [|c codes IH]; intros [|e errs] EM; try discriminate; constructor.
    - destruct (GEN c) as (x & X & _); [left; auto|]. cbn [map] in EM. rewrite X in EM. cbn [made] in EM. congruence.
    - apply IH; [intros; apply GEN; right; auto|]. cbn [map] in EM. congruence. }
  exists errs. split; [exact F2|]. intros k Hk. destruct (K k) as (a & r & s & g & w & A & B & C & D & E & S1 & S2 & V).
  { rewrite map_length. auto. }
  exists a, r, s, g, w. do 7 (split; [assumption|]).
  destruct V as (V1 & V2 & V3 & V4 & V5). do 5 (split; [assumption|]).
  intros ->. rewrite S1.
  assert (Z : forall e, In e errs -> nth 0 (er_cov_NEV e) mzero = mzero).
  { intros e He. assert (I : exists c, In c codes /\ call_func az tort rev4 h l (c_name c) (c_function c) (c_magnitude c) (c_propagation c) = Made e).
    { clear -F2 He. induction F2; [destruct He|]. destruct He as [<-|He]; [exists x; split; [left|]; auto|].
      destruct (IHF2 He) as (c & I & E). exists c. split; [right|]; auto. }
    destruct I as (c & I & E'). destruct (GEN c I) as (e' & E2 & G). rewrite E' in E2. injection E2 as <-.
    apply nth_error_nth. eapply generated_first; eauto. }
  clear -Z. induction errs; simpl; auto. unfold msum. simpl. fold (msum (map (fun e => nth 0 (er_cov_NEV e) mzero) errs)).
  rewrite IHerrs by (intros; apply Z; simpl; auto). rewrite (Z a) by (simpl; auto). vring.
Qed.

(** ** Which calls succeed *)
Lemma generate_known : forall d code e p g, In p propagation_modes -> exists er, of_generate (generate_error d code e p g) = Made er.
Proof.
  intros d code e p g I. unfold generate_error. destruct (match g with Some q => q | None => _ end).
  destruct I as [<-|[<-|[<-|[<-|[]]]]]; cbn; eauto.
Qed.
Lemma simple_ok : forall (w : weight) r h l c mag p, In p propagation_modes -> (forall t, In t l -> exists y, w h t = Some y) ->
  exists e, simple_error w r h l c mag p = Made e.
Proof.
  intros w r h l c mag p P T. unfold simple_error.
  destruct (seq_opt_some _ _ (w h) l) as [m ->]; auto. apply generate_known; auto.
Qed.
Lemma simple_nonfinite : forall (w : weight) r h l c mag p s, In s l -> w h s = None ->
  simple_error w r h l c mag p = NotFinite.
Proof.
  intros w r h l c mag p s I E. unfold simple_error.
  assert (N : seq_opt (map (w h) l) = None). { apply seq_opt_none. rewrite <- E. apply in_map. auto. }
  rewrite N. reflexivity.
Qed.
Lemma sing_ok : forall (w : weight) sg st r h l c mag p, In p propagation_modes -> (forall t, exists y, w h t = Some y) ->
  exists e, sing_error w sg st r h l c mag p = Made e.
Proof.
  intros w sg st r h l c mag p P T. unfold sing_error.
  destruct (seq_opt_some _ _ (w h) l) as [m Em]; [intros; apply T|]. rewrite Em.
  destruct (existsb (is_sing h) l); [apply generate_known; auto|apply simple_ok; auto].
Qed.

Lemma plain_ok : forall az t rev4 h l code func mag p, sensible h -> In p propagation_modes -> In func plain_functions ->
  (3 <= length l)%nat -> (forall s, In s l -> 0 <= sin (w_inc s)) -> (az = "true" \/ az = "grid")%string ->
  exists e, call_func az t rev4 h l code func mag p = Made e.
Proof.
  intros az t rev4 h l code func mag p (HG & HB & HD) P I L Hs Haz.
  assert (HBD : 0 < h_btotal h * cos (h_dip h)) by (apply Rmult_lt_0_compat; auto).
  unfold plain_functions in I. cbn [In] in I.
  assert (AB : forall (w : weight) sp, (forall t, exists y, w h t = Some y) -> exists e, ab_error w sp rev4 h l code mag p = Made e).
  { intros w sp T. unfold ab_error. destruct (existsb (is_sing h) l); [|apply simple_ok; auto].
    destruct (Nat.ltb_spec (length l) 3); [lia|]. rewrite andb_false_r.
    destruct (Req_EM_T (h_G h) 0); [lra|]. apply sing_ok; auto. }
  repeat (destruct I as [I|I]; [subst func|]); try contradiction;
  try (match goal with |- exists e, call_func _ _ _ _ _ _ ?f _ _ = _ =>
     let w := eval cbv in (lookup f (map (fun q => (fst q, fst q)) simple_weights)) in
     match w with
     | Some _ => unfold call_func; cbn [lookup simple_weights String.eqb Ascii.eqb Bool.eqb]; apply simple_ok; [exact P|];
        intros s I; specialize (Hs s I)
     end end).
  all: try solve [ unfold w_ABXY_TI1, w_ABZ, w_AMIL, w_ASXY_TI1, w_ASXY_TI2, w_ASXY_TI3, w_ASZ, w_DBH, w_AZ, w_DREF, w_DSF, w_DST,
     w_MBXY_TI1, w_MBXY_TI2, w_MBZ, w_MSXY_TI1, w_MSXY_TI2, w_MSXY_TI3, w_MSZ, w_SAG, w_XYM1, w_AMID, w_CNI, tan_;
     repeat (rewrite !fdiv_ne by lra; cbn [bind]); eauto ].
  - apply (AB w_ABXY_TI2 (negb rev4)). intro; eexists; reflexivity.
  - unfold w_SAGE. cbv zeta. destruct (Rlt_dec (sin (w_inc s)) 0); [lra|eauto].
  - apply (simple_ok w_XYM2 rev4 h l code mag "systematic"); [right; left; auto|]. intros; eexists; reflexivity.
  - apply (sing_ok w_XYM3); auto. intro; eexists; reflexivity.
  - apply (sing_ok w_XYM4); auto. intro; eexists; reflexivity.
  - change (exists e, XCL t rev4 h l code mag p = Made e). unfold XCL. destruct (String.eqb code "XCLA"); apply generate_known; auto.
  - apply generate_known; auto.
  - apply generate_known; auto.
  - change (exists e, CNA az rev4 h l code mag p = Made e). unfold CNA.
    destruct (existsb (is_sing h) l); [|apply simple_ok; auto; intros; eexists; reflexivity].
    destruct Haz; subst az; cbn [String.eqb Ascii.eqb Bool.eqb]; apply sing_ok; auto; intro; eexists; reflexivity.
  - unfold w_ABIZ, tan_. rewrite !fdiv_ne by lra. cbn [bind].
    destruct (Rlt_dec accuracy (funky s / h_G h)) as [Q|Q].
    + rewrite fdiv_ne; [cbn [bind]; eauto|]. unfold accuracy in Q. lra.
    + rewrite fdiv_ne; [cbn [bind]; eauto|]. unfold accuracy. lra.
  - apply (AB w_ABIXY_TI2 true). intro; eexists; reflexivity.
Qed.
