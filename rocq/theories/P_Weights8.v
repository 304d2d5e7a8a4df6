(** What the weight functions give, stated for the functions called by name. *)
Require Import Reals Lra Psatz Lia Bool String List.
Require Import Verif.Base Verif.NumPy Verif.M_Utils Verif.M_Error Verif.M_Weights Verif.Spec_Weights.
Require Import Verif.P_Error Verif.P_Error2 Verif.P_Weights Verif.P_Weights2 Verif.P_Weights3 Verif.P_Weights4
  Verif.P_Weights5 Verif.P_Weights6 Verif.P_Weights7.
Import ListNotations.
Local Open Scope R_scope.

Lemma generate_dia : forall d code e p g er, generate_error d code e p g = Some er -> er_e_DIA er = e.
Proof.
  intros d code e p g er H. unfold generate_error in H.
  destruct (match g with Some q => q | None => _ end).
  repeat match type of H with context [if ?b then _ else _] => destruct b end; try discriminate; injection H as <-; auto.
Qed.
Lemma made_generate : forall d code e g, exists er, of_generate (generate_error d code e "random" g) = Made er.
Proof. intros. unfold generate_error. destruct (match g with Some q => q | None => _ end). cbn. eexists. reflexivity. Qed.
Lemma seq_opt_some : forall A B (f : A -> option B) l, (forall x, In x l -> exists y, f x = Some y) ->
  exists m, seq_opt (map f l) = Some m.
Proof.
  intros A B f l H. induction l as [|a l IH]; cbn; eauto.
  destruct (H a) as [y ->]; [left; auto|]. destruct IH as [m ->]; [intros; apply H; right; auto|]. cbn. eauto.
Qed.
Lemma simple_dia : forall w rev4 h l code mag p e, simple_error w rev4 h l code mag p = Made e ->
  exists dpde, seq_opt (map (w h) l) = Some dpde /\ er_e_DIA e = map (vscale mag) dpde.
Proof.
  intros w rev4 h l code mag p e H. unfold simple_error in H.
  destruct (seq_opt (map (w h) l)) as [dpde|] eqn:E; [|discriminate]. exists dpde. split; auto.
  apply of_generate_made in H. eapply generate_dia; eauto.
Qed.

(** every simple function *)
Lemma gives_simple : forall func (w : weight) h s v, lookup func simple_weights = Some w -> w h s = Some v ->
  gives func h s v.
Proof.
  intros func w h s v L W. split.
  - destruct (made_generate (drdp true (map survey_rad [s])) "x" (map (vscale 1) [v]) None) as [er E].
    exists [s], er. split; [|left; auto]. exists "true"%string, 0, true, "x"%string, "random"%string.
    unfold call_func. rewrite L. unfold simple_error. cbn [map seq_opt]. rewrite W. cbn [bind]. exact E.
  - intros l mag e k (az & t & r & c & p & H) N. unfold call_func in H. rewrite L in H.
    destruct (simple_dia _ _ _ _ _ _ _ _ H) as [dpde [Ed ->]].
    apply scaled_nth. rewrite (weights_nth _ _ _ _ _ _ Ed N). exact W.
Qed.
Lemma gives_xym2 : forall h s, gives "XYM2" h s (mkV 0 0 (-1)).
Proof.
  intros h s. split.
  - exists [s]. eexists. split; [|left; auto]. exists "true"%string, 0, true, "x"%string, "random"%string. reflexivity.
  - intros l mag e k (az & t & r & c & p & H) N.
    change (simple_error w_XYM2 r h l c mag "systematic" = Made e) in H.
    destruct (simple_dia _ _ _ _ _ _ _ _ H) as [dpde [Ed ->]].
    apply scaled_nth. rewrite (weights_nth _ _ _ _ _ _ Ed N). reflexivity.
Qed.
Lemma gives_sing : forall (func : string) (w : weight) h s v, (forall t, exists y, w h t = Some y) -> w h s = Some v ->
  (exists l e, made_by func h l 1 e /\ In s l) ->
  (forall az t r l c mag p e, call_func az t r h l c func mag p = Made e ->
     exists sing star, sing_error w sing star r h l c mag p = Made e \/ simple_error w r h l c mag p = Made e) ->
  gives func h s v.
Proof.
  intros func w h s v T W M S. split; auto.
  intros l mag e k (az & t & r & c & p & H) N.
  destruct (S _ _ _ _ _ _ _ _ H) as (sg & st & [Q|Q]).
  - destruct (sing_error_rows _ _ _ _ _ _ _ _ _ _ Q) as [dpde [Ed [-> _]]].
    apply scaled_nth. rewrite (weights_nth _ _ _ _ _ _ Ed N). exact W.
  - destruct (simple_dia _ _ _ _ _ _ _ _ Q) as [dpde [Ed ->]].
    apply scaled_nth. rewrite (weights_nth _ _ _ _ _ _ Ed N). exact W.
Qed.
Lemma simple_made : forall (w : weight) r h l c mag, (forall t, exists y, w h t = Some y) ->
  exists e, simple_error w r h l c mag "random" = Made e.
Proof.
  intros w r h l c mag T. unfold simple_error.
  destruct (seq_opt_some _ _ (w h) l) as [m ->]; [intros; apply T|]. apply made_generate.
Qed.
Lemma sing_made : forall (w : weight) sg st r h l c mag, (forall t, exists y, w h t = Some y) ->
  exists e, sing_error w sg st r h l c mag "random" = Made e.
Proof.
  intros w sg st r h l c mag T. unfold sing_error.
  destruct (existsb (is_sing h) l) eqn:X.
  - destruct (seq_opt_some _ _ (w h) l) as [m ->]; [intros; apply T|]. apply made_generate.
  - destruct (seq_opt_some _ _ (w h) l) as [m Em]; [intros; apply T|]. rewrite Em. apply simple_made; auto.
Qed.
Lemma gives_xym3 : forall h s v, w_XYM3 h s = Some v -> gives "XYM3" h s v.
Proof.
  intros h s v W. apply (gives_sing "XYM3" w_XYM3); auto.
  - intro t. eexists. reflexivity.
  - edestruct (sing_made w_XYM3) as [e E]; [intro t; eexists; reflexivity|].
    exists [s], e. split; [|left; auto]. exists "true"%string, 0, true, "x"%string, "random"%string. exact E.
  - intros az t r l c mag p e H. do 2 eexists. left. exact H.
Qed.
Lemma gives_xym4 : forall h s v, w_XYM4 h s = Some v -> gives "XYM4" h s v.
Proof.
  intros h s v W. apply (gives_sing "XYM4" w_XYM4); auto.
  - intro t. eexists. reflexivity.
  - edestruct (sing_made w_XYM4) as [e E]; [intro t; eexists; reflexivity|].
    exists [s], e. split; [|left; auto]. exists "true"%string, 0, true, "x"%string, "random"%string. exact E.
  - intros az t r l c mag p e H. do 2 eexists. left. exact H.
Qed.
Lemma ab_case : forall w special r h l c mag p e, ab_error w special r h l c mag p = Made e ->
  exists sing star, sing_error w sing star r h l c mag p = Made e \/ simple_error w r h l c mag p = Made e.
Proof.
  intros w special r h l c mag p e H. unfold ab_error in H.
  destruct (existsb (is_sing h) l); [|exists [], []; right; exact H].
  destruct (special && Nat.ltb (length l) 3)%bool; [discriminate|]. destruct (Req_EM_T (h_G h) 0); [discriminate|].
  do 2 eexists. left. exact H.
Qed.
Lemma ab_made : forall w special r h s c mag, h_G h <> 0 -> (forall t, exists y, w h t = Some y) ->
  exists e, ab_error w special r h [s; s; s] c mag "random" = Made e.
Proof.
  intros w special r h s c mag G T. unfold ab_error.
  destruct (existsb (is_sing h) [s; s; s]); [|apply simple_made; auto].
  cbn [length Nat.ltb Nat.leb andb]. rewrite andb_false_r. destruct (Req_EM_T (h_G h) 0); [contradiction|].
  apply sing_made; auto.
Qed.
Lemma gives_abxy_ti2 : forall h s v, h_G h <> 0 -> w_ABXY_TI2 h s = Some v -> gives "ABXY_TI2" h s v.
Proof.
  intros h s v G W. apply (gives_sing "ABXY_TI2" w_ABXY_TI2); auto.
  - intro t. eexists. reflexivity.
  - destruct (ab_made w_ABXY_TI2 (negb true) true h s "x" 1 G) as [e E]; [intro t; eexists; reflexivity|].
    exists [s; s; s], e. split; [|left; auto]. exists "true"%string, 0, true, "x"%string, "random"%string. exact E.
  - intros az t r l c mag p e H. eapply ab_case. exact H.
Qed.
Lemma gives_abixy_ti2 : forall h s v, h_G h <> 0 -> w_ABIXY_TI2 h s = Some v -> gives "ABIXY_TI2" h s v.
Proof.
  intros h s v G W. apply (gives_sing "ABIXY_TI2" w_ABIXY_TI2); auto.
  - intro t. eexists. reflexivity.
  - destruct (ab_made w_ABIXY_TI2 true true h s "x" 1 G) as [e E]; [intro t; eexists; reflexivity|].
    exists [s; s; s], e. split; [|left; auto]. exists "true"%string, 0, true, "x"%string, "random"%string. exact E.
  - intros az t r l c mag p e H. eapply ab_case. exact H.
Qed.

(** functions with a factor for the interval *)
Lemma pairwise_nth' : forall A B (f : A -> A -> B) l k a b, nth_error l k = Some a -> nth_error l (S k) = Some b ->
  nth_error (pairwise f l) k = Some (f a b).
Proof.
  intros A B f l. induction l as [|x l IH]; intros k a b H1 H2; [destruct k; discriminate|].
  destruct l as [|y l]; [destruct k as [|[|k]]; discriminate|].
  destruct k.
  - cbn in *. injection H1 as ->. injection H2 as ->. reflexivity.
  - change (nth_error (pairwise f (y :: l)) k = Some (f a b)). apply IH; auto.
Qed.
Lemma coeffs_nth : forall l cs k a b, coeffs l = Some cs -> nth_error l k = Some a -> nth_error l (S k) = Some b ->
  0 < w_md b - w_md a /\ nth_error cs k = Some (Rmax 1 (sqrt (10 / (w_md b - w_md a)))).
Proof.
  intros l cs k a b H Ha Hb. unfold coeffs in H. destruct (seq_opt_nth _ _ _ H) as [L N].
  assert (Q := pairwise_nth' _ _ (fun a b => interval_coeff (w_md b - w_md a)) l k a b Ha Hb).
  assert (X := N _ _ Q). unfold interval_coeff in X. destruct (Rlt_dec 0 (w_md b - w_md a)); auto.
  assert (k < length cs)%nat. { rewrite L. apply nth_error_Some. congruence. }
  apply nth_error_None in X. lia.
Qed.
Lemma pairwise_length : forall A B (f : A -> A -> B) l, length (pairwise f l) = (length l - 1)%nat.
Proof.
  intros A B f l. induction l as [|x l IH]; auto. destruct l as [|y l]; auto.
  cbn [pairwise length] in *. rewrite IH. lia.
Qed.
Lemma coeffs_length : forall l cs, coeffs l = Some cs -> length cs = (length l - 1)%nat.
Proof. intros l cs H. destruct (seq_opt_nth _ _ _ H) as [L _]. rewrite L. apply pairwise_length. Qed.
Lemma coeffs_pair : forall d a s, 0 < d -> w_md s - w_md a = d ->
  coeffs [a; s] = Some [Rmax 1 (sqrt (10 / d))].
Proof.
  intros d a s Hd E. unfold coeffs. cbn [pairwise seq_opt]. unfold interval_coeff. rewrite E.
  destruct (Rlt_dec 0 d); [reflexivity|contradiction].
Qed.
Definition back (d : R) (s : wstation) : wstation :=
  mkWS (w_md s - d) (w_inc s) (w_azm s) (w_azt s) (w_azg s) (w_tvd s).
Lemma seq_opt_map2_nth : forall A B C (f : A -> B -> option C) l m r k a b, seq_opt (map2 f l m) = Some r ->
  nth_error l k = Some a -> nth_error m k = Some b -> nth_error r k = f a b.
Proof.
  intros A B C f l m r k a b H Ha Hb. destruct (seq_opt_nth _ _ _ H) as [_ N]. apply N.
  rewrite map2_nth, Ha, Hb. reflexivity.
Qed.

Lemma gives_xym3l : forall h d s v, 0 < d -> ~ vertical h s -> w_XYM3L s (Rmax 1 (sqrt (10 / d))) = Some v ->
  gives_after "XYM3L" h d s v.
Proof.
  intros h d s v Hd V W. split.
  - assert (X : existsb (is_sing h) [back d s; s] = false).
    { cbn. destruct (is_sing h s) eqn:E; [apply is_sing_iff in E; contradiction|].
      destruct (is_sing h (back d s)) eqn:E'; [apply is_sing_iff in E'; contradiction|]. reflexivity. }
    destruct (made_generate (drdp true (map survey_rad [back d s; s])) "x" (map (vscale 1) [v; v]) None) as [e E].
    exists [back d s; s], e, (back d s). split; [|repeat split; cbn; ring].
    exists "true"%string, 0, true, "x"%string, "random"%string.
    change (XYM3L true h [back d s; s] "x" 1 "random" = Made e). unfold XYM3L.
    rewrite (coeffs_pair d) by (cbn; auto; ring). rewrite X. cbn [length Nat.ltb Nat.leb tl map2 map combine fst snd seq_opt].
    cbn [seq_opt bind map2 map combine tl fst snd]. rewrite W. cbn [bind nth]. exact E.
  - intros l mag e k a (az & t & r & c & p & H) Na Nb Ed.
    change (XYM3L r h l c mag p = Made e) in H. unfold XYM3L in H.
    destruct (Nat.ltb (length l) 2); [discriminate|].
    destruct (coeffs l) as [cs|] eqn:C; [|discriminate].
    destruct (seq_opt (map2 w_XYM3L (tl l) cs)) as [rows|] eqn:Q; [|discriminate].
    assert (D : er_e_DIA e = map (vscale mag) (nth 0 rows vzero :: rows)).
    { destruct (existsb (is_sing h) l); [destruct (Nat.ltb (length l) 3); [discriminate|]|];
        apply of_generate_made in H; eapply generate_dia; eauto. }
    rewrite D. apply scaled_nth. cbn [nth_error].
    destruct (coeffs_nth _ _ _ _ _ C Na Nb) as [_ K]. rewrite Ed in K.
    rewrite (seq_opt_map2_nth _ _ _ _ _ _ _ k s _ Q) with (2 := K); auto.
    destruct l; [destruct k; discriminate|exact Nb].
Qed.
Lemma gives_xym4l : forall h d s v, 0 < d -> ~ vertical h s -> w_XYM4L s (Rmax 1 (sqrt (10 / d))) = Some v ->
  gives_after "XYM4L" h d s v.
Proof.
  intros h d s v Hd V W. split.
  - assert (X : existsb (is_sing h) [back d s; s] = false).
    { cbn. destruct (is_sing h s) eqn:E; [apply is_sing_iff in E; contradiction|].
      destruct (is_sing h (back d s)) eqn:E'; [apply is_sing_iff in E'; contradiction|]. reflexivity. }
    assert (W0 : exists v0, w_XYM4L (back d s) 1 = Some v0) by (eexists; reflexivity). destruct W0 as [v0 W0].
    destruct (made_generate (drdp true (map survey_rad [back d s; s])) "x" (map (vscale 1) [v0; v]) None) as [e E].
    exists [back d s; s], e, (back d s). split; [|repeat split; cbn; ring].
    exists "true"%string, 0, true, "x"%string, "random"%string.
    change (XYM4L true h [back d s; s] "x" 1 "random" = Made e). unfold XYM4L.
    rewrite (coeffs_pair d) by (cbn; auto; ring). rewrite X. cbn [seq_opt bind map2 map combine tl fst snd]. rewrite W0.
    cbn [bind]. rewrite W. cbn [bind]. exact E.
  - intros l mag e k a (az & t & r & c & p & H) Na Nb Ed.
    change (XYM4L r h l c mag p = Made e) in H. unfold XYM4L in H.
    destruct (coeffs l) as [cs|] eqn:C; [|discriminate].
    destruct (seq_opt (map2 w_XYM4L l (1 :: cs))) as [rows|] eqn:Q; [|discriminate].
    assert (D : er_e_DIA e = map (vscale mag) rows).
    { destruct (existsb (is_sing h) l); [destruct (Nat.ltb (length l) 3); [discriminate|]|];
        apply of_generate_made in H; eapply generate_dia; eauto. }
    rewrite D. apply scaled_nth.
    destruct (coeffs_nth _ _ _ _ _ C Na Nb) as [_ K]. rewrite Ed in K.
    rewrite (seq_opt_map2_nth _ _ _ _ _ _ _ (S k) s _ Q) with (2 := K); auto.
Qed.
Lemma gives_xym3e : forall h d s v, 0 < d -> ~ vertical h s -> w_XYM3E h s (Rmax 1 (sqrt (10 / d))) = Some v ->
  gives_after "XYM3E" h d s v.
Proof.
  intros h d s v Hd V W. split.
  - assert (X : existsb (is_sing h) [back d s; s] = false).
    { cbn. destruct (is_sing h s) eqn:E; [apply is_sing_iff in E; contradiction|].
      destruct (is_sing h (back d s)) eqn:E'; [apply is_sing_iff in E'; contradiction|]. reflexivity. }
    destruct (made_generate (drdp true (map survey_rad [back d s; s])) "x" (map (vscale 1) [vzero; v]) None) as [e E].
    exists [back d s; s], e, (back d s). split; [|repeat split; cbn; ring].
    exists "true"%string, 0, true, "x"%string, "random"%string.
    change (XYM3E true h [back d s; s] "x" 1 "random" = Made e). unfold XYM3E.
    rewrite (coeffs_pair d) by (cbn; auto; ring). rewrite X. cbn [length Nat.ltb Nat.leb].
    cbn [seq_opt bind map2 map combine tl fst snd]. rewrite W. cbn [bind]. exact E.
  - intros l mag e k a (az & t & r & c & p & H) Na Nb Ed.
    change (XYM3E r h l c mag p = Made e) in H. unfold XYM3E in H.
    destruct (Nat.ltb (length l) 2); [discriminate|].
    destruct (coeffs l) as [cs|] eqn:C; [|discriminate]. cbn [bind] in H.
    destruct (seq_opt (map2 (w_XYM3E h) (tl l) cs)) as [rows|] eqn:Q; [|discriminate].
    assert (D : er_e_DIA e = map (vscale mag) (vzero :: rows)).
    { destruct (existsb (is_sing h) l);
        apply of_generate_made in H; eapply generate_dia; eauto. }
    rewrite D. apply scaled_nth. cbn [nth_error].
    destruct (coeffs_nth _ _ _ _ _ C Na Nb) as [_ K]. rewrite Ed in K.
    rewrite (seq_opt_map2_nth _ _ _ _ _ _ _ k s _ Q) with (2 := K); auto.
    destruct l; [destruct k; discriminate|exact Nb].
Qed.
Lemma gives_xym4e : forall h d s v, 0 < d -> ~ vertical h s -> w_XYM4E h s (Rmax 1 (sqrt (10 / d))) = Some v ->
  gives_after "XYM4E" h d s v.
Proof.
  intros h d s v Hd V W. split.
  - assert (X : existsb (is_sing h) [back d s; s] = false).
    { cbn. destruct (is_sing h s) eqn:E; [apply is_sing_iff in E; contradiction|].
      destruct (is_sing h (back d s)) eqn:E'; [apply is_sing_iff in E'; contradiction|]. reflexivity. }
    destruct (made_generate (drdp true (map survey_rad [back d s; s])) "x" (map (vscale 1) [vzero; v]) None) as [e E].
    exists [back d s; s], e, (back d s). split; [|repeat split; cbn; ring].
    exists "true"%string, 0, true, "x"%string, "random"%string.
    change (XYM4E true h [back d s; s] "x" 1 "random" = Made e). unfold XYM4E.
    rewrite (coeffs_pair d) by (cbn; auto; ring). rewrite X. cbn [length Nat.ltb Nat.leb].
    cbn [seq_opt bind map2 map combine tl fst snd]. rewrite W. cbn [bind]. exact E.
  - intros l mag e k a (az & t & r & c & p & H) Na Nb Ed.
    change (XYM4E r h l c mag p = Made e) in H. unfold XYM4E in H.
    destruct (Nat.ltb (length l) 2); [discriminate|].
    destruct (coeffs l) as [cs|] eqn:C; [|discriminate]. cbn [bind] in H.
    destruct (seq_opt (map2 (w_XYM4E h) (tl l) cs)) as [rows|] eqn:Q; [|discriminate].
    assert (D : er_e_DIA e = map (vscale mag) (vzero :: rows)).
    { destruct (existsb (is_sing h) l).
      - destruct (XYM3E r h l c mag p); try discriminate. apply of_generate_made in H; eapply generate_dia; eauto.
      - apply of_generate_made in H; eapply generate_dia; eauto. }
    rewrite D. apply scaled_nth. cbn [nth_error].
    destruct (coeffs_nth _ _ _ _ _ C Na Nb) as [_ K]. rewrite Ed in K.
    rewrite (seq_opt_map2_nth _ _ _ _ _ _ _ k s _ Q) with (2 := K); auto.
    destruct l; [destruct k; discriminate|exact Nb].
Qed.

Lemma not_level : forall s, ~ level_east_west s -> 0 < funky s.
Proof.
  intros s H. destruct (Rle_lt_or_eq_dec _ _ (proj1 (funky_nonneg s))) as [L|E]; auto.
  exfalso. apply H. apply funky_zero. auto.
Qed.
Ltac by_name := eapply gives_simple; [reflexivity|eassumption].
(** ** Without axial correction *)
Lemma fn_abz : forall h s tf, sensible h -> 0 < sin (w_inc s) ->
  exists w, gives "ABZ" h s w /\ response (tool_at h s tf) ez_ vzero w.
Proof. intros h s tf S I. destruct (abz_rate h s tf S I) as (w & W & R). exists w. split; [by_name|auto]. Qed.
Lemma fn_asz : forall h s tf, sensible h -> 0 < sin (w_inc s) ->
  exists w, gives "ASZ" h s w /\
    response (tool_at h s tf) (only_z (acc_reading (tool_at h s tf))) vzero w.
Proof. intros h s tf S I. destruct (asz_rate h s tf S I) as (w & W & R). exists w. split; [by_name|auto]. Qed.
Lemma fn_mbz : forall h s tf, sensible h -> 0 < sin (w_inc s) ->
  exists w, gives "MBZ" h s w /\ gives "AMIL" h s w /\ response (tool_at h s tf) vzero ez_ w.
Proof. intros h s tf S I. destruct (mbz_rate h s tf S I) as (w & W & W' & R). exists w. split; [by_name|split; [by_name|auto]]. Qed.
Lemma fn_msz : forall h s tf, sensible h -> 0 < sin (w_inc s) ->
  exists w, gives "MSZ" h s w /\
    response (tool_at h s tf) vzero (only_z (mag_reading (tool_at h s tf))) w.
Proof. intros h s tf S I. destruct (msz_rate h s tf S I) as (w & W & R). exists w. split; [by_name|auto]. Qed.
Lemma fn_abxy : forall h s tf, sensible h -> 0 < sin (w_inc s) ->
  exists w1 w2, gives "ABXY_TI1" h s w1 /\ gives "ABXY_TI2" h s w2 /\
    response (tool_at h s tf) ex_ vzero (vadd (vscale (sin tf) w1) (vscale (cos tf) w2)) /\
    response (tool_at h s tf) ey_ vzero (vsub (vscale (cos tf) w1) (vscale (sin tf) w2)).
Proof.
  intros h s tf S I. destruct (abxy_rate h s tf S I) as (w & w' & W & W' & R). exists w, w'.
  split; [by_name|split; [apply gives_abxy_ti2; auto; destruct S; lra|auto]].
Qed.
Lemma fn_mbxy : forall h s tf, sensible h -> 0 < sin (w_inc s) ->
  exists w1 w2, gives "MBXY_TI1" h s w1 /\ gives "MBXY_TI2" h s w2 /\
    response (tool_at h s tf) vzero ex_ (vadd (vscale (sin tf) w1) (vscale (cos tf) w2)) /\
    response (tool_at h s tf) vzero ey_ (vsub (vscale (cos tf) w1) (vscale (sin tf) w2)).
Proof.
  intros h s tf S I. destruct (mbxy_rate h s tf S I) as (w & w' & W & W' & R). exists w, w'.
  split; [by_name|split; [by_name|auto]].
Qed.
(** ** Toolface *)
Lemma fn_abxy_cov : forall h s tf wx wy, sensible h -> 0 < sin (w_inc s) ->
  response (tool_at h s tf) ex_ vzero wx -> response (tool_at h s tf) ey_ vzero wy ->
  exists w1 w2, gives "ABXY_TI1" h s w1 /\ gives "ABXY_TI2" h s w2 /\
    madd (cov_from_vec wx) (cov_from_vec wy) = madd (cov_from_vec w1) (cov_from_vec w2).
Proof.
  intros h s tf wx wy S I A B. destruct (abxy_cov h s tf wx wy S I A B) as (w & w' & W & W' & R). exists w, w'.
  split; [by_name|split; [apply gives_abxy_ti2; auto; destruct S; lra|auto]].
Qed.
Lemma fn_mbxy_cov : forall h s tf wx wy, sensible h -> 0 < sin (w_inc s) ->
  response (tool_at h s tf) vzero ex_ wx -> response (tool_at h s tf) vzero ey_ wy ->
  exists w1 w2, gives "MBXY_TI1" h s w1 /\ gives "MBXY_TI2" h s w2 /\
    madd (cov_from_vec wx) (cov_from_vec wy) = madd (cov_from_vec w1) (cov_from_vec w2).
Proof.
  intros h s tf wx wy S I A B. destruct (mbxy_cov h s tf wx wy S I A B) as (w & w' & W & W' & R). exists w, w'.
  split; [by_name|split; [by_name|auto]].
Qed.
Lemma fn_abixy_cov : forall h s tf wx wy, sensible h -> 0 < sin (w_inc s) -> ~ level_east_west s ->
  corrected_response (tool_at h s tf) (h_btotal h) (h_dip h) ex_ 0 0 0 0 wx ->
  corrected_response (tool_at h s tf) (h_btotal h) (h_dip h) ey_ 0 0 0 0 wy ->
  exists w1 w2, gives "ABIXY_TI1" h s w1 /\ gives "ABIXY_TI2" h s w2 /\
    madd (cov_from_vec wx) (cov_from_vec wy) = madd (cov_from_vec w1) (cov_from_vec w2).
Proof.
  intros h s tf wx wy S I F A B. destruct (abixy_cov h s tf wx wy S I (not_level s F) A B) as (w & w' & W & W' & R). exists w, w'.
  split; [by_name|split; [apply gives_abixy_ti2; auto; destruct S; lra|auto]].
Qed.
Lemma fn_mbixy_cov : forall h s tf wx wy, sensible h -> 0 < sin (w_inc s) -> ~ level_east_west s ->
  corrected_response (tool_at h s tf) (h_btotal h) (h_dip h) vzero 1 0 0 0 wx ->
  corrected_response (tool_at h s tf) (h_btotal h) (h_dip h) vzero 0 1 0 0 wy ->
  exists w1 w2, gives "MBIXY_TI1" h s w1 /\ gives "MBIXY_TI2" h s w2 /\
    madd (cov_from_vec wx) (cov_from_vec wy) = madd (cov_from_vec w1) (cov_from_vec w2).
Proof.
  intros h s tf wx wy S I F A B. destruct (mbixy_cov h s tf wx wy S I (not_level s F) A B) as (w & w' & W & W' & R). exists w, w'.
  split; [by_name|split; [by_name|auto]].
Qed.
Lemma fn_asxy_mean : forall h s wx wy c, sensible h -> 0 < sin (w_inc s) ->
  (forall tf, response (tool_at h s tf) (only_x (acc_reading (tool_at h s tf))) vzero (wx tf)) ->
  (forall tf, response (tool_at h s tf) (only_y (acc_reading (tool_at h s tf))) vzero (wy tf)) ->
  exists w1 w2 w3, gives "ASXY_TI1" h s w1 /\ gives "ASXY_TI2" h s w2 /\ gives "ASXY_TI3" h s w3 /\
    turn_mean (fun tf => (dot c (wx tf)) ^ 2 + (dot c (wy tf)) ^ 2)
      ((dot c w1) ^ 2 + (dot c w2) ^ 2 + (dot c w3) ^ 2).
Proof.
  intros h s wx wy c S I A B. destruct (asxy_mean h s wx wy c S I A B) as (w & w' & w'' & W & W' & W'' & R).
  exists w, w', w''. split; [by_name|split; [by_name|split; [by_name|auto]]].
Qed.
Lemma fn_msxy_mean : forall h s wx wy c, sensible h -> 0 < sin (w_inc s) ->
  (forall tf, response (tool_at h s tf) vzero (only_x (mag_reading (tool_at h s tf))) (wx tf)) ->
  (forall tf, response (tool_at h s tf) vzero (only_y (mag_reading (tool_at h s tf))) (wy tf)) ->
  exists w1 w2 w3, gives "MSXY_TI1" h s w1 /\ gives "MSXY_TI2" h s w2 /\ gives "MSXY_TI3" h s w3 /\
    turn_mean (fun tf => (dot c (wx tf)) ^ 2 + (dot c (wy tf)) ^ 2)
      ((dot c w1) ^ 2 + (dot c w2) ^ 2 + (dot c w3) ^ 2).
Proof.
  intros h s wx wy c S I A B. destruct (msxy_mean h s wx wy c S I A B) as (w & w' & w'' & W & W' & W'' & R).
  exists w, w', w''. split; [by_name|split; [by_name|split; [by_name|auto]]].
Qed.
Lemma fn_asixy_mean : forall h s wx wy c, sensible h -> 0 < sin (w_inc s) -> ~ level_east_west s ->
  (forall tf, corrected_response (tool_at h s tf) (h_btotal h) (h_dip h)
     (only_x (acc_reading (tool_at h s tf))) 0 0 0 0 (wx tf)) ->
  (forall tf, corrected_response (tool_at h s tf) (h_btotal h) (h_dip h)
     (only_y (acc_reading (tool_at h s tf))) 0 0 0 0 (wy tf)) ->
  exists w1 w2 w3, gives "ASIXY_TI1" h s w1 /\ gives "ASIXY_TI2" h s w2 /\ gives "ASIXY_TI3" h s w3 /\
    turn_mean (fun tf => (dot c (wx tf)) ^ 2 + (dot c (wy tf)) ^ 2)
      ((dot c w1) ^ 2 + (dot c w2) ^ 2 + (dot c w3) ^ 2).
Proof.
  intros h s wx wy c S I F A B. destruct (asixy_mean h s wx wy c S I (not_level s F) A B) as (w & w' & w'' & W & W' & W'' & R).
  exists w, w', w''. split; [by_name|split; [by_name|split; [by_name|auto]]].
Qed.
Lemma fn_msixy_mean : forall h s wx wy c, sensible h -> 0 < sin (w_inc s) -> ~ level_east_west s ->
  (forall tf, corrected_response (tool_at h s tf) (h_btotal h) (h_dip h) vzero
     (vx (mag_reading (tool_at h s tf))) 0 0 0 (wx tf)) ->
  (forall tf, corrected_response (tool_at h s tf) (h_btotal h) (h_dip h) vzero
     0 (vy (mag_reading (tool_at h s tf))) 0 0 (wy tf)) ->
  exists w1 w2 w3, gives "MSIXY_TI1" h s w1 /\ gives "MSIXY_TI2" h s w2 /\ gives "MSIXY_TI3" h s w3 /\
    turn_mean (fun tf => (dot c (wx tf)) ^ 2 + (dot c (wy tf)) ^ 2)
      ((dot c w1) ^ 2 + (dot c w2) ^ 2 + (dot c w3) ^ 2).
Proof.
  intros h s wx wy c S I F A B. destruct (msixy_mean h s wx wy c S I (not_level s F) A B) as (w & w' & w'' & W & W' & W'' & R).
  exists w, w', w''. split; [by_name|split; [by_name|split; [by_name|auto]]].
Qed.
(** ** With axial correction *)
Lemma fn_mbixy : forall h s tf, sensible h -> 0 < sin (w_inc s) -> ~ level_east_west s ->
  exists w1 w2, gives "MBIXY_TI1" h s w1 /\ gives "MBIXY_TI2" h s w2 /\
    corrected_response (tool_at h s tf) (h_btotal h) (h_dip h) vzero 1 0 0 0
      (vadd (vscale (sin tf) w1) (vscale (cos tf) w2)) /\
    corrected_response (tool_at h s tf) (h_btotal h) (h_dip h) vzero 0 1 0 0
      (vsub (vscale (cos tf) w1) (vscale (sin tf) w2)).
Proof.
  intros h s tf S I F. destruct (mbixy_rate h s tf S I (not_level s F)) as (w & w' & W & W' & R). exists w, w'.
  split; [by_name|split; [by_name|auto]].
Qed.
Lemma fn_abixy : forall h s tf, sensible h -> 0 < sin (w_inc s) -> ~ level_east_west s ->
  exists w1 w2, gives "ABIXY_TI1" h s w1 /\ gives "ABIXY_TI2" h s w2 /\
    corrected_response (tool_at h s tf) (h_btotal h) (h_dip h) ex_ 0 0 0 0
      (vadd (vscale (sin tf) w1) (vscale (cos tf) w2)) /\
    corrected_response (tool_at h s tf) (h_btotal h) (h_dip h) ey_ 0 0 0 0
      (vsub (vscale (cos tf) w1) (vscale (sin tf) w2)).
Proof.
  intros h s tf S I F. destruct (abixy_rate h s tf S I (not_level s F)) as (w & w' & W & W' & R). exists w, w'.
  split; [by_name|split; [apply gives_abixy_ti2; auto; destruct S; lra|auto]].
Qed.
Lemma fn_asiz : forall h s tf, sensible h -> 0 < sin (w_inc s) -> ~ level_east_west s ->
  exists w, gives "ASIZ" h s w /\
    corrected_response (tool_at h s tf) (h_btotal h) (h_dip h) (only_z (acc_reading (tool_at h s tf))) 0 0 0 0 w.
Proof. intros h s tf S I F. destruct (asiz_rate h s tf S I (not_level s F)) as (w & W & R). exists w. split; [by_name|auto]. Qed.
Lemma fn_mfi : forall h s tf, sensible h -> 0 < sin (w_inc s) -> ~ level_east_west s ->
  exists w, gives "MFI" h s w /\
    corrected_response (tool_at h s tf) (h_btotal h) (h_dip h) vzero 0 0 1 0 w.
Proof. intros h s tf S I F. destruct (mfi_rate h s tf S I (not_level s F)) as (w & W & R). exists w. split; [by_name|auto]. Qed.
Lemma fn_mdi : forall h s tf, sensible h -> 0 < sin (w_inc s) -> ~ level_east_west s ->
  exists w, gives "MDI" h s w /\
    corrected_response (tool_at h s tf) (h_btotal h) (h_dip h) vzero 0 0 0 1 w.
Proof. intros h s tf S I F. destruct (mdi_rate h s tf S I (not_level s F)) as (w & W & R). exists w. split; [by_name|auto]. Qed.
Lemma fn_abiz : forall h s tf, sensible h -> 0 < sin (w_inc s) ->
  1 / 1000000 * h_G h < 1 - sin (w_inc s) ^ 2 * sin (w_azm s) ^ 2 ->
  exists w r, gives "ABIZ" h s w /\
    corrected_response (tool_at h s tf) (h_btotal h) (h_dip h) ez_ 0 0 0 0 r /\
    vy w = vy r /\ vz w = h_G h ^ 2 * vz r.
Proof. intros h s tf S I F. destruct (abiz_excess h s tf S I F) as (w & r & W & R). exists w, r. split; [by_name|auto]. Qed.

Lemma gives_unique : forall func h s w w', gives func h s w -> gives func h s w' -> w = w'.
Proof.
  intros func h s w w' [(l & e & M & I) G] [_ G'].
  apply In_nth_error in I. destruct I as [k N].
  assert (A := G l 1 e k M N). assert (B := G' l 1 e k M N). rewrite A in B. injection B.
  destruct w, w'; cbn. intros. f_equal; lra.
Qed.
Lemma fn_axial_exists : forall h s tf ea ex ey eB eD, sensible h -> 0 < sin (w_inc s) -> ~ level_east_west s ->
  exists w, corrected_response (tool_at h s tf) (h_btotal h) (h_dip h) ea ex ey eB eD w.
Proof. intros. apply corrected_rate_exists; auto. apply not_level; auto. Qed.
(** the azimuth weight of ABIZ is right only where it does not matter, or for G = 1 *)
Lemma fn_abiz_iff : forall h s tf w, sensible h -> 0 < sin (w_inc s) ->
  1 / 1000000 * h_G h < 1 - sin (w_inc s) ^ 2 * sin (w_azm s) ^ 2 ->
  gives "ABIZ" h s w ->
  (corrected_response (tool_at h s tf) (h_btotal h) (h_dip h) ez_ 0 0 0 0 w <->
   h_G h = 1 \/ cos (w_inc s) * sin (w_azm s) * (tan (h_dip h) * cos (w_inc s) + sin (w_inc s) * cos (w_azm s)) = 0).
Proof.
  intros h s tf w S I F G. destruct (abiz_excess h s tf S I F) as (w0 & r & W & R & Ey & Ez).
  assert (w = w0). { eapply gives_unique; [exact G|by_name]. } subst w0. clear G.
  assert (FP : 0 < funky s). { unfold funky. destruct S. nra. }
  destruct S as (HG & HB & HD).
  assert (Q : vz w = h_G h * (sin (w_inc s) * cos (w_inc s) * sin (w_azm s) * (tan (h_dip h) * cos (w_inc s) + sin (w_inc s) * cos (w_azm s))) / funky s
     /\ vx w = 0).
  { unfold w_ABIZ, tan_ in W. rewrite !fdiv_ne in W by lra. cbn [bind] in W.
    unfold accuracy in W. destruct (Rlt_dec (1 / 1000000) (funky s / h_G h)) as [L|L].
    - rewrite fdiv_ne in W. 2:{ apply Rgt_not_eq. unfold Rdiv. apply Rmult_lt_0_compat; auto. apply Rinv_0_lt_compat; auto. }
      cbn [bind] in W. injection W as <-. cbn [vz vx]. split; auto. unfold dipterm, tan. field. lra.
    - exfalso. apply L. apply (Rmult_lt_reg_r (h_G h)); auto. unfold Rdiv at 2. rewrite Rmult_assoc, Rinv_l by lra.
      unfold funky. lra. }
  destruct Q as [Q Qx]. split.
  - intro C. assert (r = w) by (eapply corrected_unique; eauto). subst r.
    assert (Z : (h_G h - 1) * vz w = 0).
    { assert ((h_G h ^ 2 - 1) * vz w = 0) by lra.
      apply (Rmult_eq_reg_l (h_G h + 1)); [|lra]. rewrite Rmult_0_r. rewrite <- H. ring. }
    apply Rmult_integral in Z. destruct Z as [Z|Z]; [left; lra|right].
    rewrite Q in Z. unfold Rdiv in Z. apply Rmult_integral in Z.
    destruct Z as [Z|Z]; [|exfalso; assert (0 < / funky s) by (apply Rinv_0_lt_compat; auto); lra].
    apply Rmult_integral in Z. destruct Z as [Z|Z]; [lra|].
    apply (Rmult_eq_reg_l (sin (w_inc s))); [|lra]. rewrite Rmult_0_r, <- Z. ring.
  - intro C. replace w with r; auto. destruct R as [R1 [R2 R3]].
    assert (vz r = vz w).
    { destruct C as [C|C].
      - rewrite Ez, C. ring.
      - assert (vz w = 0).
        { rewrite Q. match goal with |- ?a * ?b / _ = 0 => replace b with (sin (w_inc s) * 0) by (rewrite <- C; ring) end.
          unfold Rdiv. ring. }
        rewrite H. rewrite Ez in H. apply Rmult_integral in H. destruct H; auto. exfalso. assert (0 < h_G h ^ 2) by (apply pow_lt; auto). lra. }
    destruct r, w; cbn in *. f_equal; lra.
Qed.
(** ** Misalignment *)
Lemma Rmax_sqrt_sq : forall d, 0 < d -> Rmax 1 (sqrt (10 / d)) ^ 2 = Rmax 1 (10 / d).
Proof.
  intros d D. assert (P : 0 < 10 / d) by (apply Rdiv_lt_0_compat; lra).
  assert (Q := sqrt_pos (10 / d)). assert (S := sqrt_sqrt (10 / d) (Rlt_le _ _ P)).
  unfold Rmax. destruct (Rle_dec 1 (sqrt (10 / d))), (Rle_dec 1 (10 / d)); nra.
Qed.
Lemma fn_xym_isotropic : forall h s a b c v1 v2 v3 v4 w1 w2 w3 w4, 0 < sin (w_inc s) ->
  gives "XYM1" h s w1 -> gives "XYM2" h s w2 -> gives "XYM3" h s w3 -> gives "XYM4" h s w4 ->
  tilts s (vscale a w1) v1 -> tilts s (vscale a w2) v2 ->
  tilts s (vscale b w3) v3 -> tilts s (vscale b w4) v4 ->
  across s c ->
  dot c v1 ^ 2 + dot c v2 ^ 2 + dot c v3 ^ 2 + dot c v4 ^ 2
  = (a ^ 2 * sin (w_inc s) ^ 2 + b ^ 2 * cos (w_inc s) ^ 2) * dot c c.
Proof.
  intros h s a b c v1 v2 v3 v4 w1 w2 w3 w4 I G1 G2 G3 G4.
  apply (xym_isotropic h); auto.
  - rewrite (gives_unique "XYM1" h s w1 (mkV 0 (Rabs (sin (w_inc s))) 0)); auto.
    eapply gives_simple; reflexivity.
  - rewrite (gives_unique "XYM2" h s w2 (mkV 0 0 (-1))); auto. apply gives_xym2.
  - unfold w_XYM3. f_equal. eapply gives_unique; [|exact G3]. apply gives_xym3. reflexivity.
  - unfold w_XYM4. f_equal. eapply gives_unique; [|exact G4]. apply gives_xym4. reflexivity.
Qed.
Lemma gives_after_unique : forall func h d s w w', gives_after func h d s w -> gives_after func h d s w' -> w = w'.
Proof.
  intros func h d s w w' [(l & e & a & M & N1 & N2 & D) G] [_ G'].
  assert (A := G l 1 e _ a M N1 N2 D). assert (B := G' l 1 e _ a M N1 N2 D). rewrite A in B. injection B.
  destruct w, w'; cbn. intros. f_equal; lra.
Qed.
Lemma fn_xyml_isotropic : forall h s d c v3 v4 w3 w4, 0 < sin (w_inc s) -> ~ vertical h s -> 0 < d ->
  gives_after "XYM3L" h d s w3 -> gives_after "XYM4L" h d s w4 -> tilts s w3 v3 -> tilts s w4 v4 -> across s c ->
  dot c v3 ^ 2 + dot c v4 ^ 2 = Rmax 1 (10 / d) * cos (w_inc s) ^ 2 * dot c c.
Proof.
  intros h s d c v3 v4 w3 w4 I V D G3 G4 T3 T4 C.
  rewrite (xyml_isotropic s (Rmax 1 (sqrt (10 / d))) c v3 v4 w3 w4); auto.
  - f_equal. f_equal. apply Rmax_sqrt_sq. auto.
  - unfold w_XYM3L. f_equal. eapply gives_after_unique; [|exact G3]. apply gives_xym3l; auto.
  - unfold w_XYM4L. f_equal. eapply gives_after_unique; [|exact G4]. apply gives_xym4l; auto.
Qed.
Lemma fn_xyme_isotropic : forall h s d v3 v4 w3 w4, 0 < sin (w_inc s) -> 0 < cos (w_inc s) ->
  ~ vertical h s -> 0 < d ->
  gives_after "XYM3E" h d s w3 -> gives_after "XYM4E" h d s w4 -> tilts s w3 v3 -> tilts s w4 v4 ->
  ((forall c, across s c -> dot c v3 ^ 2 + dot c v4 ^ 2 = Rmax 1 (10 / d) * cos (w_inc s) ^ 2 * dot c c)
   <-> 0 <= cos (w_azt s) \/ sin (w_azt s) = 0).
Proof.
  intros h s d v3 v4 w3 w4 I Ci V D G3 G4 T3 T4.
  rewrite <- (Rmax_sqrt_sq d D).
  assert (K : 0 < Rmax 1 (sqrt (10 / d))). { eapply Rlt_le_trans; [|apply Rmax_l]. lra. }
  apply (xyme_isotropic_iff h s (Rmax 1 (sqrt (10 / d))) v3 v4 w3 w4); auto.
  - assert (W : exists w, w_XYM3E h s (Rmax 1 (sqrt (10 / d))) = Some w).
    { unfold w_XYM3E. destruct (is_sing h s) eqn:E; [eauto|]. rewrite fdiv_ne by lra. cbn [bind]. eauto. }
    destruct W as [w W]. rewrite W. f_equal. eapply gives_after_unique; [|exact G3]. apply gives_xym3e; auto.
  - unfold w_XYM4E. f_equal. eapply gives_after_unique; [|exact G4]. apply gives_xym4e; auto.
Qed.
