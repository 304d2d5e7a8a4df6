(** Terms that formulas lose, and where formulas and functions differ. *)
Require Import Reals ZArith Ascii String List Bool Arith Lra Lia.
Require Import Verif.Base Verif.NumPy Verif.M_Error Verif.M_Weights Verif.M_DmsText Verif.M_Text Verif.M_Rewrite.
Require Import Verif.P_Trig Verif.P_Error Verif.P_Error2 Verif.M_Interpreter Verif.M_FormulaData Verif.M_Formulas Verif.Spec_Formulas.
Require Import Verif.P_Formulas Verif.P_Formulas2.
Import ListNotations.
Local Open Scope R_scope.

Lemma generated d code e p given : known_propagation p -> exists er, generate_error d code e p given = Some er.
Proof.
  intros K. unfold generate_error. destruct given as [[a b]|];
  unfold known_propagation in K; simpl in K; repeat (destruct K as [<-|K]; [eexists; reflexivity|]); contradiction.
Qed.
Lemma e_NEV_length d e : length d = length e -> length (e_NEV d e) = length e /\ length (e_NEV_star d e) = length e.
Proof.
  intros L. unfold e_NEV, e_NEV_star, map2.
  assert (Z : forall l : list V3, length (zero_first l) = length l) by (intros [|? ?]; reflexivity).
  rewrite !Z, !map_length, combine_length. lia.
Qed.
Lemma generated_length d code e p er : length d = length e -> generate_error d code e p None = Some er -> length (er_cov_NEV er) = length e.
Proof.
  intros L G. destruct (e_NEV_length d e L) as [A B]. unfold generate_error in G.
  destruct ((p =? "systematic")%string || (p =? "global")%string || (p =? "within_pad")%string)%bool.
  - injection G as <-. cbn [er_cov_NEV]. rewrite map_length, sigma_length; congruence.
  - destruct (p =? "random")%string; [|discriminate]. injection G as <-. cbn [er_cov_NEV].
    destruct e as [|e0 e]; [destruct d; [reflexivity|discriminate]|]. rewrite random_length; [exact B|congruence|rewrite B; simpl; lia].
Qed.
Lemma map_const_repeat {A B} (b : B) (l : list A) : map (fun _ => b) l = repeat b (length l).
Proof. induction l; simpl; congruence. Qed.
Lemma drdp_length_wst rev4 (l : list wstation) : l <> [] -> length (drdp rev4 (map survey_rad l)) = length l.
Proof. intros N. rewrite drdp_length, map_length; [reflexivity|]. destruct l; [congruence|simpl; lia]. Qed.

(** errors of zero give covariances of zero *)
Lemma zero_error d code p n mag er : length d = n -> generate_error d code (map (vscale mag) (repeat vzero n)) p None = Some er ->
  er_cov_NEV er = repeat mzero n.
Proof.
  intros L G.
  assert (Z : map (vscale mag) (repeat vzero n) = map (vscale 0) (repeat vzero n)).
  { apply map_ext_in. intros v I. apply repeat_spec in I. subst v. unfold vscale, vzero; simpl. f_equal; ring. }
  rewrite Z in G.
  assert (K : exists e0, generate_error d code (repeat vzero n) p None = Some e0).
  { unfold generate_error in G |- *. destruct (_ || _ || _)%bool; [eexists; reflexivity|]. destruct (p =? "random")%string; [eexists; reflexivity|discriminate]. }
  destruct K as [e0 K]. destruct (magnitude_scale _ _ _ _ 0 _ K) as [er' [G' C]].
  assert (er' = er) by congruence. subst er'. rewrite C.
  assert (LL : length (er_cov_NEV e0) = n).
  { apply generated_length in K; rewrite repeat_length in *; assumption. }
  rewrite <- LL, <- map_const_repeat. apply map_ext. intros [[a b c] [a' b' c'] [a'' b'' c'']].
  unfold mscale, vscale, mzero, vzero; simpl. f_equal; f_equal; ring.
Qed.
Lemma unknown_silent rev4 h lat l f code mag p : In f json_formulas -> In (f_function f) unknown_functions -> known_propagation p -> l <> [] ->
  exists e, interpreted rev4 h lat l f code mag p = Made e /\ er_cov_NEV e = repeat mzero (length l).
Proof.
  intros IN U K N.
  destruct (generated (drdp rev4 (map survey_rad l)) code (map (vscale mag) (repeat vzero (length l))) p None K) as [er G].
  exists er. split; [|apply (zero_error _ _ _ _ _ _ (drdp_length_wst rev4 l N) G)].
  unfold interpreted. destruct l as [|s l].
  - congruence.
  - rewrite seq_opt_none; [rewrite G; reflexivity|]. left. apply (unknown_row f h lat s IN). exact U.
Qed.

(** at a vertical station the formulas divide by zero *)
Lemma vertical_row f h lat s : In f json_formulas -> In (f_function f) vertical_functions -> sin (w_inc s) = 0 ->
  term_row h lat f s = Some None.
Proof.
  intros IN V E. each IN; name_in V; simpl in V;
  first [exfalso; repeat (destruct V as [V|V]; [discriminate V|]); contradiction |
    ev; rewrite ?(fdiv_ok _ 2 ltac:(lra)); cbv iota beta; rewrite ?tan_co, E, fdiv_bad; destruct (tan_ (h_dip h)); reflexivity].
Qed.
Lemma vertical_known g : In g vertical_functions -> ~ In g unknown_functions.
Proof.
  intros V U. unfold vertical_functions in V. simpl in V.
  repeat (destruct V as [<-|V]; [simpl in U; repeat (destruct U as [U|U]; [discriminate U|]); contradiction|]). contradiction.
Qed.
Lemma vertical_formulas rev4 h lat l f code mag p : In f json_formulas -> In (f_function f) vertical_functions ->
  (exists s, In s l /\ sin (w_inc s) = 0) -> interpreted rev4 h lat l f code mag p = NotFinite.
Proof.
  intros IN V [s [I E]]. unfold interpreted.
  assert (N : ~ In None (map (term_row h lat f) l)).
  { intros M. apply in_map_iff in M. destruct M as [t [M _]]. apply (unknown_row f h lat t IN) in M.
    exact (vertical_known _ V M). }
  destruct (seq_opt_some _ N) as [rows [R1 R2]]. rewrite R1.
  rewrite seq_opt_none; [reflexivity|].
  assert (Q : forall (m : list (option (option V3))) r, seq_opt m = Some r -> In (Some None) m -> In None r).
  { clear. induction m as [|[a|] m IH]; intros r; simpl; try discriminate; [intros _ []|].
    destruct (seq_opt m) as [q|]; [|discriminate]. intros H. injection H as <-.
    intros [H|H]; [injection H as ->; left; reflexivity|right; auto]. }
  apply (Q _ _ R1). rewrite <- (vertical_row f h lat s IN V E). apply in_map. exact I.
Qed.
Lemma vertical_total h l w : M_Weights.lookup w [("ABXY-TI2", w_ABXY_TI2); ("CNA", w_CNA); ("XYM3", w_XYM3); ("XYM4", w_XYM4)]%string <> None ->
  forall v, M_Weights.lookup w [("ABXY-TI2", w_ABXY_TI2); ("CNA", w_CNA); ("XYM3", w_XYM3); ("XYM4", w_XYM4)]%string = Some v ->
  exists d, seq_opt (map (v h) l) = Some d.
Proof.
  intros _ v E.
  assert (F : forall s, exists r, v h s = Some r).
  { cbv [M_Weights.lookup] in E.
    repeat match type of E with (if ?b then _ else _) = _ => destruct b; [injection E as <-; intros s; eexists; reflexivity|] end. discriminate. }
  clear E. induction l as [|s l [d IH]]; [exists []; reflexivity|]. destruct (F s) as [r E]. exists (r :: d). simpl. rewrite E, IH. reflexivity.
Qed.
Lemma sing_made w sing star rev4 h l code mag p d : seq_opt (map (w h) l) = Some d -> known_propagation p ->
  exists e, sing_error w sing star rev4 h l code mag p = Made e.
Proof.
  intros D K. unfold sing_error, simple_error, given_error. rewrite D. cbv zeta.
  destruct (existsb (is_sing h) l);
  match goal with |- context [generate_error ?a ?b ?c ?e ?g] => destruct (generated a b c e g K) as [er E]; rewrite E end; exists er; reflexivity.
Qed.
Lemma vertical_functions_made azi tort rev4 h l code g mag p : In g vertical_functions -> known_propagation p ->
  (3 <= length l)%nat -> h_G h <> 0 -> azi = "true"%string \/ azi = "grid"%string ->
  exists e, call_func azi tort rev4 h l code (underscored g) mag p = Made e.
Proof.
  intros V K L G A.
  assert (T : exists w d, M_Weights.lookup g [("ABXY-TI2", w_ABXY_TI2); ("CNA", w_CNA); ("XYM3", w_XYM3); ("XYM4", w_XYM4)]%string = Some w /\
    seq_opt (map (w h) l) = Some d).
  { assert (E : exists w, M_Weights.lookup g [("ABXY-TI2", w_ABXY_TI2); ("CNA", w_CNA); ("XYM3", w_XYM3); ("XYM4", w_XYM4)]%string = Some w).
    { unfold vertical_functions in V; simpl in V. repeat (destruct V as [<-|V]; [eexists; reflexivity|]). contradiction. }
    destruct E as [w E]. destruct (vertical_total h l g ltac:(congruence) w E) as [d D]. eauto. }
  destruct T as [w [d [E D]]]. unfold vertical_functions in V; simpl in V.
  destruct V as [<-|[<-|[<-|[<-|[]]]]]; cbv [M_Weights.lookup String.eqb Ascii.eqb Bool.eqb] in E; injection E as <-;
  cbv [call_func underscored M_Weights.lookup simple_weights String.eqb Ascii.eqb Bool.eqb].
  - unfold ABXY_TI2, ab_error. destruct (existsb (is_sing h) l) eqn:S1.
    + replace (Nat.ltb (length l) 3) with false by (symmetry; apply Nat.ltb_ge; exact L). rewrite andb_false_r.
      destruct (Req_EM_T (h_G h) 0); [contradiction|]. eapply sing_made; eauto.
    + unfold simple_error. rewrite D. destruct (generated (drdp rev4 (map survey_rad l)) code (map (vscale mag) d) p None K) as [er Q].
      rewrite Q. exists er. reflexivity.
  - unfold CNA. destruct (existsb (is_sing h) l) eqn:S1.
    + destruct A as [->| ->]; cbv [String.eqb Ascii.eqb Bool.eqb]; eapply sing_made; eauto.
    + unfold simple_error. rewrite D. destruct (generated (drdp rev4 (map survey_rad l)) code (map (vscale mag) d) p None K) as [er Q].
      rewrite Q. exists er. reflexivity.
  - eapply sing_made; eauto.
  - eapply sing_made; eauto.
Qed.

(** ABIZ: divided by gravity, where the function multiplies *)
Lemma abiz_row h lat s f : In f json_formulas -> f_function f = "ABIZ"%string -> sound_header h -> accuracy < funky s / h_G h ->
  exists r w, term_row h lat f s = Some (Some r) /\ w_ABIZ h s = Some w /\ vx r = 0 /\ vx w = 0 /\ vy r = vy w /\ vz w = h_G h ^ 2 * vz r.
Proof.
  intros IN F [G [B D]] A.
  assert (T : tan_ (h_dip h) = Some (sin (h_dip h) / cos (h_dip h))) by (apply fdiv_ok; auto).
  assert (Q : funky s <> 0).
  { intros Z. rewrite Z in A. unfold accuracy in A. replace (0 / h_G h) with 0 in A by (field; auto). lra. }
  each IN; name_in F; try discriminate F.
  assert (Q' : 1 - sin (w_inc s) * sin (w_inc s) * sin (w_azm s) * sin (w_azm s) <> 0).
  { intros Z. apply Q. unfold funky. rewrite <- Z. ring. }
  eexists. eexists. split; [|split].
  - ev. rewrite T. cbv iota beta. rewrite (fdiv_ok _ _ G). cbv iota beta. rewrite (fdiv_ok _ _ Q'). cbv iota beta. rewrite (fdiv_ok _ _ G). reflexivity.
  - unfold w_ABIZ. rewrite (fdiv_ok _ _ G). cbv [M_Weights.bind]. rewrite T, (fdiv_ok _ _ G).
    destruct (Rlt_dec accuracy (funky s / h_G h)); [|contradiction].
    rewrite fdiv_ok; [reflexivity|]. unfold accuracy in *. lra.
  - simpl. repeat split; auto. unfold dipterm.
    replace (1 - sin (w_inc s) * sin (w_inc s) * sin (w_azm s) * sin (w_azm s)) with (funky s) by (unfold funky; ring).
    field. auto.
Qed.
(** AMIL: the opposite sign *)
Lemma amil_row h lat s f : In f json_formulas -> f_function f = "AMIL"%string -> sound_header h ->
  exists w, w_AMIL h s = Some w /\ term_row h lat f s = Some (Some (vscale (-1) w)).
Proof.
  intros IN F [G [B D]]. each IN; name_in F; try discriminate F.
  assert (Q : h_btotal h * cos (h_dip h) <> 0) by (apply Rmult_integral_contrapositive; auto).
  eexists. split.
  - unfold w_AMIL. rewrite (fdiv_ok _ _ Q). reflexivity.
  - ev. destruct (Req_EM_T (h_btotal h) 0); [contradiction|]. rewrite (fdiv_ok _ _ Q).
    apply vrow; field; auto.
Qed.
Lemma amil_same azi tort rev4 h lat l f code mag p : In f json_formulas -> f_function f = "AMIL"%string -> sound_header h -> known_propagation p ->
  exists e e', interpreted rev4 h lat l f code mag p = Made e /\ call_func azi tort rev4 h l code "AMIL" mag p = Made e' /\
    er_e_DIA e = map (vscale (-1)) (er_e_DIA e') /\ er_cov_NEV e = er_cov_NEV e'.
Proof.
  intros IN F SH K.
  set (v := fun s => match w_AMIL h s with Some w => w | None => vzero end).
  assert (W : map (w_AMIL h) l = map (fun s => Some (v s)) l).
  { apply map_ext. intros s. unfold v. destruct (amil_row h lat s f IN F SH) as [w [-> _]]. reflexivity. }
  assert (T : map (term_row h lat f) l = map (fun s => Some (Some (vscale (-1) (v s)))) l).
  { apply map_ext. intros s. unfold v. destruct (amil_row h lat s f IN F SH) as [w [-> ->]]. reflexivity. }
  destruct (generated (drdp rev4 (map survey_rad l)) code (map (vscale mag) (map v l)) p None K) as [e' G].
  destruct (magnitude_scale _ _ _ _ (-1) _ G) as [e [G' C]].
  exists e, e'. split; [|split; [|split]].
  - unfold interpreted. rewrite T, (seq_opt_map_some (fun s => Some (vscale (-1) (v s)))), (seq_opt_map_some (fun s => vscale (-1) (v s))).
    replace (map (vscale mag) (map (fun s => vscale (-1) (v s)) l)) with (map (vscale (-1)) (map (vscale mag) (map v l))).
    + rewrite G'. reflexivity.
    + rewrite !map_map. apply map_ext. intros s. destruct (v s). unfold vscale; simpl. f_equal; ring.
  - change (call_func azi tort rev4 h l code "AMIL" mag p) with (simple_error w_AMIL rev4 h l code mag p).
    unfold simple_error. rewrite W, (seq_opt_map_some v), G. reflexivity.
  - assert (E : forall d c x q g r, generate_error d c x q g = Some r -> er_e_DIA r = x).
    { clear. intros d c x q g r. unfold generate_error. destruct g as [[a b]|]; destruct (_ || _ || _)%bool;
      try (intros H; injection H as <-; reflexivity); destruct (q =? "random")%string; intros H; try discriminate; injection H as <-; reflexivity. }
    rewrite (E _ _ _ _ _ _ G), (E _ _ _ _ _ _ G'). reflexivity.
  - rewrite C. rewrite <- (map_id (er_cov_NEV e')) at 2. apply map_ext. intros [[a b c] [a' b' c'] [a'' b'' c'']].
    unfold mscale, vscale; simpl. f_equal; f_equal; ring.
Qed.

(** gyro functions: computed from formulas only *)
Lemma json_only_raises azi tort rev4 h l code mag p g : In g (json_only_functions ++ json_only_unknown) ->
  call_func azi tort rev4 h l code (underscored g) mag p = Raises.
Proof.
  intros IN. unfold json_only_functions, json_only_unknown in IN. simpl in IN.
  repeat (destruct IN as [<-|IN]; [reflexivity|]). contradiction.
Qed.
Lemma every_function f : In f json_formulas ->
  In (f_function f) (same_functions ++ unknown_functions ++ json_only_functions ++ ["ABIZ"; "AMIL"]%string).
Proof.
  intros IN.
  assert (Q : forallb (fun f => existsb (String.eqb (f_function f)) (same_functions ++ unknown_functions ++ json_only_functions ++ ["ABIZ"; "AMIL"]%string)) json_formulas = true)
    by (vm_compute; reflexivity).
  rewrite forallb_forall in Q. specialize (Q _ IN). apply existsb_exists in Q. destruct Q as [x [I E]].
  apply String.eqb_eq in E. rewrite E. exact I.
Qed.
