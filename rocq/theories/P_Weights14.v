(** Which calls succeed, continued; the axes of XYM3L and XYM4L. *)
Require Import Reals ZArith Lra Psatz Lia Bool String List.
Require Import Verif.Base Verif.NumPy Verif.M_Utils Verif.M_Error Verif.Spec Verif.Spec_Error Verif.M_Weights Verif.Spec_Weights.
Require Import Verif.P_Error Verif.P_Error2 Verif.P_Weights Verif.P_Weights2 Verif.P_Weights3 Verif.P_Weights4
  Verif.P_Weights5 Verif.P_Weights6 Verif.P_Weights7 Verif.P_Weights8 Verif.P_Weights9 Verif.P_Weights10 Verif.P_Weights11
  Verif.P_Weights12 Verif.P_Weights13.
Import ListNotations.
Local Open Scope R_scope.

Lemma fdiv_z : forall a b, b = 0 -> fdiv a b = None.
Proof. intros a b ->. apply fdiv_0. Qed.
Lemma bind_none : forall A B (o : option A), bind o (fun _ => None : option B) = None.
Proof. intros A B [a|]; reflexivity. Qed.
Lemma axial_weight : forall func h, sensible h -> In func axial_functions ->
  exists w, lookup func simple_weights = Some w /\
  forall s, (level_east_west s -> w h s = None) /\ (~ level_east_west s -> exists y, w h s = Some y).
Proof.
  intros func h (HG & HB & HD) I. assert (HBD : 0 < h_btotal h * cos (h_dip h)) by (apply Rmult_lt_0_compat; auto).
  unfold axial_functions in I. cbn [In] in I.
  repeat (destruct I as [I|I]; [subst func; eexists; split; [reflexivity|]; intro s; split; intro E;
    [apply funky_zero in E; unfold w_ABIXY_TI1, w_ASIXY_TI1, w_ASIXY_TI2, w_ASIXY_TI3, w_ASIZ, w_MBIXY_TI1, w_MBIXY_TI2, w_MDI, w_MFI,
      w_MSIXY_TI1, w_MSIXY_TI2, w_MSIXY_TI3, tan_; rewrite E, ?Rmult_0_r;
      repeat (first [rewrite fdiv_0; cbn [bind] | rewrite fdiv_ne by lra; cbn [bind] | reflexivity])
    |apply not_level in E;
      assert (0 < h_btotal h * cos (h_dip h) * funky s) by (apply Rmult_lt_0_compat; auto);
      assert (0 < h_G h * funky s) by (apply Rmult_lt_0_compat; auto);
      assert (0 < sqrt 2 * funky s) by (apply Rmult_lt_0_compat; auto; apply sqrt_lt_R0; lra);
      unfold w_ABIXY_TI1, w_ASIXY_TI1, w_ASIXY_TI2, w_ASIXY_TI3, w_ASIZ, w_MBIXY_TI1, w_MBIXY_TI2, w_MDI, w_MFI,
      w_MSIXY_TI1, w_MSIXY_TI2, w_MSIXY_TI3, tan_; repeat (rewrite !fdiv_ne by lra; cbn [bind]); eauto]|]).
  contradiction.
Qed.
Lemma axial_iff : forall az t rev4 h l code func mag p, sensible h -> In p propagation_modes -> In func axial_functions ->
  ((exists e, call_func az t rev4 h l code func mag p = Made e) <-> forall s, In s l -> ~ level_east_west s) /\
  (call_func az t rev4 h l code func mag p = NotFinite <-> exists s, In s l /\ level_east_west s).
Proof.
  intros az t rev4 h l code func mag p S P I. destruct (axial_weight func h S I) as (w & LK & W).
  unfold call_func. rewrite LK.
  assert (D : (forall s, In s l -> ~ level_east_west s) \/ exists s, In s l /\ level_east_west s).
  { clear. induction l as [|s l [IH|(x & H & Q)]].
    - left. intros s [].
    - destruct (Req_EM_T (cos (w_inc s)) 0); [destruct (Req_EM_T (cos (w_azm s)) 0)|].
      + right. exists s. split; [left; auto|split; auto].
      + left. intros x [<-|H]; auto. intros []. contradiction.
      + left. intros x [<-|H]; auto. intros []. contradiction.
    - right. exists x. split; [right|]; auto. }
  destruct D as [D|(s & Hs & E)].
  - destruct (simple_ok w rev4 h l code mag p P) as [e E]. { intros s Hs. apply W. auto. }
    rewrite E. split; split; intro H; eauto; try discriminate. destruct H as (s & Hs & Q). exfalso. exact (D s Hs Q).
  - rewrite (simple_nonfinite w rev4 h l code mag p s Hs) by (apply W; auto).
    split; split; intro H; eauto; try reflexivity. { destruct H; discriminate. } { exfalso. exact (H s Hs E). }
Qed.

Lemma coeffs_iff : forall l, (exists cs, coeffs l = Some cs) <-> advancing l.
Proof.
  intro l. split.
  - intros [cs C] k a b Ha Hb. destruct (coeffs_nth _ _ _ _ _ C Ha Hb) as [P _]. lra.
  - intro A. unfold coeffs. destruct (seq_opt (pairwise (fun a b => interval_coeff (w_md b - w_md a)) l)) eqn:E; eauto.
    apply seq_opt_none in E. apply In_nth_error in E. destruct E as [k E].
    assert (Q : (k < length l - 1)%nat). { rewrite <- (pairwise_length _ _ (fun a b => interval_coeff (w_md b - w_md a))). apply nth_error_Some. congruence. }
    destruct (nth_error l k) as [a|] eqn:Ea; [|apply nth_error_None in Ea; lia].
    destruct (nth_error l (S k)) as [b|] eqn:Eb; [|apply nth_error_None in Eb; lia].
    rewrite (pairwise_nth' _ _ _ _ _ _ _ Ea Eb) in E. unfold interval_coeff in E.
    assert (AB := A k a b Ea Eb). destruct (Rlt_dec 0 (w_md b - w_md a)); [discriminate|lra].
Qed.
Lemma seq_map2_some : forall A B C (f : A -> B -> option C) l m, (forall a b, In a l -> exists c, f a b = Some c) ->
  exists r, seq_opt (map2 f l m) = Some r.
Proof.
  intros A B C f l m H. destruct (seq_opt (map2 f l m)) eqn:E; eauto. exfalso.
  apply seq_opt_none in E. unfold map2 in E. apply in_map_iff in E. destruct E as ([a b] & E & I).
  apply in_combine_l in I. destruct (H a b I) as [c Q]. cbn in E. congruence.
Qed.
Lemma xym3e_ok : forall rev4 h l code mag p, In p propagation_modes -> (2 <= length l)%nat -> advancing l ->
  (forall s, In s l -> ~ vertical h s -> sin (w_inc s) <> 0) -> exists e, XYM3E rev4 h l code mag p = Made e.
Proof.
  intros rev4 h l code mag p P L A N. unfold XYM3E. destruct (Nat.ltb_spec (length l) 2); [lia|].
  apply coeffs_iff in A. destruct A as [cs ->]. cbn [bind].
  destruct (seq_map2_some _ _ _ (w_XYM3E h) (tl l) cs) as [r ->].
  { intros a b I. unfold w_XYM3E. destruct (is_sing h a) eqn:E; [eauto|]. rewrite fdiv_ne; [cbn; eauto|].
    apply N; [destruct l; [destruct I|right; auto]|]. intro V. apply is_sing_iff in V. congruence. }
  destruct (existsb (is_sing h) l); apply generate_known; auto.
Qed.
Lemma interval_ok : forall az t rev4 h l code func mag p, In p propagation_modes -> In func interval_functions ->
  (3 <= length l)%nat -> (forall s, In s l -> ~ vertical h s -> sin (w_inc s) <> 0) ->
  ((exists e, call_func az t rev4 h l code func mag p = Made e) <-> advancing l) /\
  (call_func az t rev4 h l code func mag p = NotFinite <-> ~ advancing l).
Proof.
  intros az t rev4 h l code func mag p P I L N.
  assert (YES : advancing l -> exists e, call_func az t rev4 h l code func mag p = Made e).
  { intro A. destruct (xym3e_ok rev4 h l code mag p P) as [e3 E3]; auto; try lia.
    apply coeffs_iff in A. destruct A as [cs C].
    destruct I as [<-|[<-|[<-|[<-|[]]]]].
    - exists e3. exact E3.
    - change (exists e, XYM4E rev4 h l code mag p = Made e). unfold XYM4E. destruct (Nat.ltb_spec (length l) 2); [lia|].
      rewrite C. cbn [bind]. destruct (seq_map2_some _ _ _ (w_XYM4E h) (tl l) cs) as [r ->]; [intros; eexists; reflexivity|].
      rewrite E3. destruct (existsb (is_sing h) l); apply generate_known; auto.
    - change (exists e, XYM3L rev4 h l code mag p = Made e). unfold XYM3L. destruct (Nat.ltb_spec (length l) 2); [lia|].
      rewrite C. destruct (seq_map2_some _ _ _ w_XYM3L (tl l) cs) as [r ->]; [intros; eexists; reflexivity|].
      destruct (Nat.ltb_spec (length l) 3); [lia|]. destruct (existsb (is_sing h) l); apply generate_known; auto.
    - change (exists e, XYM4L rev4 h l code mag p = Made e). unfold XYM4L.
      rewrite C. destruct (seq_map2_some _ _ _ w_XYM4L l (1 :: cs)) as [r ->]; [intros; eexists; reflexivity|].
      destruct (Nat.ltb_spec (length l) 3); [lia|]. destruct (existsb (is_sing h) l); apply generate_known; left; auto. }
  assert (NO : ~ advancing l -> call_func az t rev4 h l code func mag p = NotFinite).
  { intro A. assert (C : coeffs l = None). { destruct (coeffs l) eqn:E; auto. exfalso. apply A. apply coeffs_iff. eauto. }
    destruct I as [<-|[<-|[<-|[<-|[]]]]].
    - change (XYM3E rev4 h l code mag p = NotFinite). unfold XYM3E. destruct (Nat.ltb_spec (length l) 2); [lia|]. rewrite C. reflexivity.
    - change (XYM4E rev4 h l code mag p = NotFinite). unfold XYM4E. destruct (Nat.ltb_spec (length l) 2); [lia|]. rewrite C. reflexivity.
    - change (XYM3L rev4 h l code mag p = NotFinite). unfold XYM3L. destruct (Nat.ltb_spec (length l) 2); [lia|]. rewrite C. reflexivity.
    - change (XYM4L rev4 h l code mag p = NotFinite). unfold XYM4L. rewrite C. reflexivity. }
  assert (D : advancing l \/ ~ advancing l).
  { destruct (coeffs l) eqn:E; [left|right]; [apply coeffs_iff; eauto|]. intro A. apply coeffs_iff in A. destruct A. congruence. }
  destruct D as [D|D]; split; split; intro H; auto.
  - exfalso. destruct (YES D). congruence.
  - rewrite NO in H by auto. destruct H. discriminate.
Qed.
Lemma unknown_raises : forall az t rev4 h l code func mag p, ~ In func functions ->
  call_func az t rev4 h l code func mag p = Raises.
Proof.
  intros az t rev4 h l code func mag p N. unfold call_func.
  assert (LK : lookup func simple_weights = None).
  { destruct (lookup func simple_weights) eqn:E; auto. exfalso. apply N. clear N.
    unfold simple_weights, lookup in E.
    repeat match type of E with context [String.eqb func ?s] => destruct (String.eqb_spec func s) as [->|];
      [clear; unfold functions, plain_functions, axial_functions, interval_functions; cbn [app In]; tauto|] end.
    discriminate. }
  rewrite LK.
  repeat match goal with |- (if String.eqb func ?s then _ else _) = _ => destruct (String.eqb_spec func s) as [->|];
    [exfalso; apply N; clear; unfold functions, plain_functions, axial_functions, interval_functions; cbn [app In]; tauto|] end.
  reflexivity.
Qed.
Lemma cna_raises : forall az t rev4 h l code mag p, az <> "true"%string -> az <> "grid"%string ->
  (exists s, In s l /\ vertical h s) -> call_func az t rev4 h l code "CNA" mag p = Raises.
Proof.
  intros az t rev4 h l code mag p A B (s & I & V). change (CNA az rev4 h l code mag p = Raises). unfold CNA.
  assert (X : existsb (is_sing h) l = true). { apply existsb_exists. exists s. split; auto. apply is_sing_iff. auto. }
  rewrite X. apply String.eqb_neq in A, B. rewrite A, B. reflexivity.
Qed.
(** short surveys *)
Lemma short_raises : forall az t rev4 h l code func mag p, (length l < 3)%nat -> advancing l ->
  (exists s, In s l /\ vertical h s) -> 
  In func ["ABIXY_TI2"; "XYM3L"; "XYM4L"]%string \/ (func = "ABXY_TI2"%string /\ rev4 = false) ->
  call_func az t rev4 h l code func mag p = Raises.
Proof.
  intros az t rev4 h l code func mag p L A (s & I & V) F.
  assert (X : existsb (is_sing h) l = true). { apply existsb_exists. exists s. split; auto. apply is_sing_iff. auto. }
  apply coeffs_iff in A. destruct A as [cs C].
  assert (AB : forall w, ab_error w true rev4 h l code mag p = Raises).
  { intro w. unfold ab_error. rewrite X. destruct (Nat.ltb_spec (length l) 3); [reflexivity|lia]. }
  destruct F as [[<-|[<-|[<-|[]]]]|[-> ->]].
  - apply AB.
  - change (XYM3L rev4 h l code mag p = Raises). unfold XYM3L. destruct (Nat.ltb_spec (length l) 2); [reflexivity|].
    rewrite C. destruct (seq_map2_some _ _ _ w_XYM3L (tl l) cs) as [r ->]; [intros; eexists; reflexivity|].
    rewrite X. destruct (Nat.ltb_spec (length l) 3); [reflexivity|lia].
  - change (XYM4L rev4 h l code mag p = Raises). unfold XYM4L.
    rewrite C. destruct (seq_map2_some _ _ _ w_XYM4L l (1 :: cs)) as [r ->]; [intros; eexists; reflexivity|].
    rewrite X. destruct (Nat.ltb_spec (length l) 3); [reflexivity|lia].
  - apply AB.
Qed.

(** ** XYM3L and XYM4L treat north and east differently *)
Lemma long_axes_refuted : exists l e e' c c',
  (forall s, In s l -> vertical plumb s) /\ advancing l /\
  call_func "true" 0 true plumb l "XYM3L" "XYM3L" 1 "random" = Made e /\
  call_func "true" 0 true plumb l "XYM4L" "XYM4L" 1 "random" = Made e' /\
  nth_error (er_cov_NEV e) 2 = Some c /\ nth_error (er_cov_NEV e') 2 = Some c' /\
  vx (r1 c) <> vy (r2 c').
Proof.
  set (l := [hanging 0; hanging 10; hanging 12.5]).
  assert (V : forall d, vertical plumb (hanging d)) by (intro; apply is_sing_iff, down_vertical).
  assert (AV : advancing l).
  { intros [|[|k]] a b Ha Hb; cbn in Ha, Hb; try (injection Ha as <-; injection Hb as <-; cbn; lra).
    destruct k; discriminate. }
  assert (VL : forall s, In s l -> vertical plumb s) by (intros s [<-|[<-|[<-|[]]]]; apply V).
  destruct (interval_ok "true" 0 true plumb l "XYM3L" "XYM3L" 1 "random") as [[_ M3] _]; try (cbn; tauto); try (cbn; lia).
  { intros s I N. exfalso. apply N. auto. }
  destruct (interval_ok "true" 0 true plumb l "XYM4L" "XYM4L" 1 "random") as [[_ M4] _]; try (cbn; tauto); try (cbn; lia).
  { intros s I N. exfalso. apply N. auto. }
  assert (L0 : (0 < length l)%nat) by (cbn; lia).
  destruct (M3 AV) as [e E]. destruct (M4 AV) as [e' E'].
  assert (R3 := xym3l_rows _ _ _ _ _ _ _ E). assert (R4 := xym4l_rows _ _ _ _ _ _ _ E').
  destruct (generated_rows _ _ _ _ _ L0 (call_generated "true" 0 true plumb l "XYM3L" "XYM3L" 1 "random" e L0 E)) as (L1 & L2 & Z1 & Z2).
  destruct (generated_rows _ _ _ _ _ L0 (call_generated "true" 0 true plumb l "XYM4L" "XYM4L" 1 "random" e' L0 E')) as (L1' & L2' & Z1' & Z2').
  destruct (call_generated "true" 0 true plumb l "XYM3L" "XYM3L" 1 "random" e L0 E) as (ed & g & G & _).
  destruct (call_generated "true" 0 true plumb l "XYM4L" "XYM4L" 1 "random" e' L0 E') as (ed' & g' & G' & _).
  destruct (R3 0%nat (hanging 0) (hanging 10) eq_refl eq_refl (V 10)) as (_ & A1 & _).
  specialize (A1 (hanging 12.5) (hanging 10) (hanging 12.5) eq_refl eq_refl eq_refl eq_refl).
  destruct (R3 1%nat (hanging 10) (hanging 12.5) eq_refl eq_refl (V 12.5)) as (_ & _ & A2).
  destruct (R4 0%nat (hanging 0) (hanging 10) eq_refl eq_refl (V 10)) as (_ & B1 & _).
  specialize (B1 (hanging 12.5) (hanging 0) (hanging 10) eq_refl eq_refl eq_refl eq_refl).
  destruct (R4 1%nat (hanging 10) (hanging 12.5) eq_refl eq_refl (V 12.5)) as (_ & _ & B2).
  assert (F : forall (m : list V3) a b, nth_error m 0 = Some a -> nth_error m 1 = Some b -> firstn 2 m = [a; b]).
  { intros [|x [|y m]] a b Ha Hb; cbn in *; congruence. }
  assert (C3 := random_law _ _ _ _ _ 2%nat _ G (eq_trans L1 (eq_sym L2)) A2).
  assert (C4 := random_law _ _ _ _ _ 2%nat _ G' (eq_trans L1' (eq_sym L2')) B2).
  rewrite (F _ _ _ Z1 A1) in C3. rewrite (F _ _ _ Z1' B1) in C4.
  exists l, e, e'. eexists. eexists. do 4 (split; [assumption|]). split; [exact C3|split; [exact C4|]].
  assert (K1 : short_factor (hanging 0) (hanging 10) = 1).
  { unfold short_factor, hanging. cbn [w_md]. replace (10 / (10 - 0)) with 1 by lra. rewrite sqrt_1. apply Rmax_left. lra. }
  assert (K2 : short_factor (hanging 10) (hanging 12.5) = 2).
  { unfold short_factor, hanging. cbn [w_md]. replace (10 / (12.5 - 10)) with (2 * 2) by lra. rewrite sqrt_square by lra. apply Rmax_right. lra. }
  rewrite K1, K2. cbn. lra.
Qed.
