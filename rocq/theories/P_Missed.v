(** Proofs about what a clearance run can miss between stations. *)
Require Import Reals ZArith Bool String List Lra Lia Psatz.
Require Import Verif.Base Verif.NumPy Verif.P_Trig Verif.Spec Verif.Spec_Lists Verif.Spec_Clearance Verif.Spec_Length Verif.Spec_Missed Verif.M_Utils Verif.P_Utils Verif.P_Utils2
  Verif.M_Survey Verif.P_Survey Verif.P_Survey2 Verif.P_Survey3 Verif.P_Survey4 Verif.P_Survey5 Verif.M_Clearance Verif.P_Clearance3 Verif.P_Rates
  Verif.M_Refine Verif.P_Refine Verif.P_Sections5 Verif.P_Length.
Import ListNotations.
Local Open Scope R_scope.

Lemma dist_swap p q : dist p q = dist q p.
Proof. unfold dist, norm. f_equal. destruct p, q; unf; simpl; ring. Qed.
Lemma dist_tri p q r : dist p r <= dist p q + dist q r.
Proof.
  unfold dist. pose proof (norm_triangle (vsub p q) (vsub q r)) as T. replace (vadd (vsub p q) (vsub q r)) with (vsub p r) in T; [exact T|].
  destruct p, q, r; unf; apply V3_eq; simpl; ring.
Qed.
Lemma dist_step p d : dist (vadd p d) p = norm d.
Proof. unfold dist. f_equal. destruct p, d; unf; apply V3_eq; simpl; ring. Qed.

(** interpolating in the first part of an interval *)
Lemma interp_twice a b x y : pair_dogleg a b < PI -> 0 < st_md b - st_md a -> 0 <= x <= y -> 0 < y <= st_md b - st_md a ->
  dir (interp_station a (interp_station a b y) x) = dir (interp_station a b x).
Proof.
  intros D L X Y. pose proof (md_interp a b y) as MY.
  destruct (dogleg_angle (st_inc a) (st_azi a) (st_inc b) (st_azi b)) as [B _]. fold (pair_dogleg a b) in B.
  destruct (Req_dec (pair_dogleg a b) 0) as [Z|Z].
  - assert (S1 : forall c z, pair_dogleg a c = 0 -> dir (interp_station a c z) = dir a).
    { intros c z E. unfold interp_station, interp_angles. destruct (Req_EM_T (pair_dogleg a c) 0); [|contradiction]. reflexivity. }
    rewrite (S1 b x Z). apply S1. apply dogleg_0_iff. change (dir a = dir (interp_station a b y)). symmetry. apply S1, Z.
  - assert (T : 0 < pair_dogleg a b < PI) by lra. destruct (interp_doglegs a b y T L ltac:(lra)) as [E _].
    set (k := pair_dogleg a b / (st_md b - st_md a)) in *.
    assert (K : 0 < k) by (apply Rdiv_lt_0_compat; lra).
    assert (Yk : 0 < y * k < PI).
    { split; [apply Rmult_lt_0_compat; lra|]. apply Rle_lt_trans with (pair_dogleg a b); [|lra]. replace (pair_dogleg a b) with ((st_md b - st_md a) * k) by (unfold k; field; lra). nra. }
    assert (T' : 0 < pair_dogleg a (interp_station a b y) < PI) by (rewrite E; exact Yk).
    rewrite (dir_interp a (interp_station a b y) x T'), (dir_interp a b x T), E, MY.
    rewrite <- (normal_unique (dir a) (dir (interp_station a b y)) _ (y * k) Yk (dir_interp a b y T)).
    f_equal. fold k. field. lra.
Qed.
(** within one interval *)
Lemma part_distance a b p x y : pair_dogleg a b < PI -> 0 < st_md b - st_md a -> 0 <= x <= y -> y <= st_md b - st_md a ->
  dist (interpolate_pos_nev p a b y) (interpolate_pos_nev p a b x) <= y - x.
Proof.
  intros D L X Y. rewrite !interpolate_pos_nev_step.
  destruct (Req_dec y 0) as [->|NY].
  { replace x with 0 by lra. unfold dist. rewrite vsub_itself, norm_vzero. lra. }
  assert (DY : pair_dogleg a (interp_station a b y) <= pair_dogleg a b).
  { destruct (dogleg_angle (st_inc a) (st_azi a) (st_inc b) (st_azi b)) as [B _]. fold (pair_dogleg a b) in B.
    destruct (Req_dec (pair_dogleg a b) 0) as [Z|Z].
    - assert (Z2 : pair_dogleg a (interp_station a b y) = 0); [|lra]. apply dogleg_0_iff.
      unfold interp_station, interp_angles. destruct (Req_EM_T (pair_dogleg a b) 0); [|contradiction]. reflexivity.
    - destruct (interp_doglegs a b y ltac:(lra) L ltac:(lra)) as [E F].
      destruct (dogleg_angle (st_inc (interp_station a b y)) (st_azi (interp_station a b y)) (st_inc b) (st_azi b)) as [B2 _].
      fold (pair_dogleg (interp_station a b y) b) in B2. lra. }
  pose proof (md_interp a b y) as MY.
  pose proof (step_split a (interp_station a b y) x ltac:(lra) ltac:(lra) ltac:(lra)) as SP.
  set (j := interp_station a b y) in *. set (i := interp_station a b x).
  set (i' := interp_station a j x) in *.
  assert (DI : dir i' = dir i) by (apply interp_twice; lra).
  assert (MI : st_md i' = st_md i) by (unfold i, i'; rewrite !md_interp; reflexivity).
  rewrite (step_dir a i' a i) in SP by auto. rewrite (step_dir i' j i j) in SP by auto.
  rewrite <- SP.
  replace (dist (vadd p (vadd (step_between a i) (step_between i j))) (vadd p (step_between a i))) with (norm (step_between i j)).
  2:{ unfold dist. f_equal. generalize (step_between a i) (step_between i j). intros u v. destruct p, u, v; unf; apply V3_eq; simpl; ring. }
  assert (EM : y - x = st_md j - st_md i) by (unfold i, j; rewrite !md_interp; ring). rewrite EM.
  apply step_le_delta; [lra|].
  change (pair_dogleg i j < PI). rewrite (dogleg_dir i j i' j) by auto.
  destruct (dogleg_angle (st_inc a) (st_azi a) (st_inc j) (st_azi j)) as [B _]. fold (pair_dogleg a j) in B.
  destruct (Req_dec (pair_dogleg a j) 0) as [Z|Z].
  - assert (S1 : dir i' = dir a). { unfold i', interp_station, interp_angles. destruct (Req_EM_T (pair_dogleg a j) 0); [|contradiction]. reflexivity. }
    rewrite (dogleg_dir i' j a j) by auto. lra.
  - destruct (interp_doglegs a j x ltac:(lra) ltac:(lra) ltac:(lra)) as [E F]. fold i' in E, F.
    destruct (dogleg_angle (st_inc a) (st_azi a) (st_inc i') (st_azi i')) as [B2 _]. fold (pair_dogleg a i') in B2. lra.
Qed.

Section Well.
  Variable s : survey.
  Hypothesis HS : surveyed s.

  Lemma sd_back : not_back (sv_rows s).
  Proof.
    destruct HS as (_ & I & _). intros k a b A B. left.
    apply (si_lt (map st_md (sv_rows s)) k (S k)); auto; rewrite nth_error_map; [rewrite A|rewrite B]; reflexivity.
  Qed.
  Lemma sd_turns : no_reversal (sv_rows s).
  Proof. destruct HS as (_ & _ & D). intros k a b A B R. apply reversal_iff in R. specialize (D k a b A B). unfold pair_dogleg in R. lra. Qed.
  Lemma sd_path : path (sv_rows s) (sv_nev s).
  Proof. destruct HS as ((h & rows & deg & sx & sn & unit & H) & _). eapply survey_path; eauto. Qed.

  Lemma station_reach i j a b p q : nth_error (sv_rows s) i = Some a -> nth_error (sv_rows s) j = Some b ->
    nth_error (sv_nev s) i = Some p -> nth_error (sv_nev s) j = Some q -> (i <= j)%nat -> dist q p <= st_md b - st_md a.
  Proof.
    intros A B P Q L. replace j with (i + (j - i))%nat in * by lia. eapply (path_distance (sv_rows s) (sv_nev s)); eauto using sd_path, sd_back, sd_turns.
  Qed.
  (** where a point of the well is *)
  Lemma at_depth_inv m P : at_depth s m P -> exists k a b p q, nth_error (sv_rows s) k = Some a /\ nth_error (sv_rows s) (S k) = Some b /\
    nth_error (sv_nev s) k = Some p /\ nth_error (sv_nev s) (S k) = Some q /\ st_md a <= m <= st_md b /\ P = interpolate_pos_nev p a b (m - st_md a).
  Proof.
    intros (n & h' & I & M & E). destruct HS as ((h & rows & deg & sx & sn & unit & H) & SI & D).
    destruct (Survey_xyz_len _ _ _ _ _ _ _ H) as [L1 L2].
    pose proof (Survey_inv _ _ _ _ _ _ _ H) as (_ & _ & LL & _).
    destruct (nth_error_some_lt _ (sv_rows s) 0) as [first F]; [lia|].
    destruct (nth_error_some_lt _ (sv_rows s) (pred (length (sv_rows s)))) as [last LA]; [lia|].
    destruct (md_lookup h rows deg sx sn unit s m first last H SI F LA) as (N1 & N2 & N3).
    destruct (Rlt_dec (st_md last) m) as [G|G]. { rewrite (proj2 N1 G) in I. discriminate. }
    destruct (Rlt_dec m (st_md first)) as [G'|G'].
    { destruct (N3 G') as (pa & n' & h'' & _ & I' & M' & _). rewrite I' in I. injection I as -> ->. lra. }
    destruct (N2 ltac:(lra)) as (k & a & b & pa & n' & h'' & A & B & PA & I' & R & _ & PO & _). rewrite I' in I. injection I as -> ->.
    destruct (nth_other (sv_rows s) (sv_nev s) (S k) b) as [q Q]; [exact (proj1 sd_path)|exact B|].
    exists k, a, b, pa, q. repeat (split; [first [assumption|lra]|]). rewrite <- E, PO. rewrite interpolate_pos_nev_step.
    unfold step_between. rewrite md_interp. do 2 f_equal. ring.
  Qed.
  Lemma at_depth_of k a b p x : nth_error (sv_rows s) k = Some a -> nth_error (sv_rows s) (S k) = Some b -> nth_error (sv_nev s) k = Some p ->
    0 <= x <= st_md b - st_md a -> at_depth s (st_md a + x) (interpolate_pos_nev p a b x).
  Proof.
    intros A B P X. destruct HS as ((h & rows & deg & sx & sn & unit & H) & SI & D).
    destruct (interpolate_md_in h rows deg sx sn unit s H SI D k a b p x A B P X) as (n & h' & I & M & N). exists n, h'. auto.
  Qed.
  (** ends of the interval *)
  Lemma end_of k a b p q : nth_error (sv_rows s) k = Some a -> nth_error (sv_rows s) (S k) = Some b -> nth_error (sv_nev s) k = Some p ->
    nth_error (sv_nev s) (S k) = Some q -> pair_dogleg a b < PI /\ 0 < st_md b - st_md a /\ interpolate_pos_nev p a b 0 = p /\ interpolate_pos_nev p a b (st_md b - st_md a) = q.
  Proof.
    intros A B P Q. destruct HS as (_ & SI & D). pose proof (D k a b A B) as DL. fold (pair_dogleg a b) in DL.
    assert (L : 0 < st_md b - st_md a).
    { pose proof (si_lt (map st_md (sv_rows s)) k (S k) (st_md a) (st_md b) SI) as Z. rewrite !nth_error_map, A, B in Z. specialize (Z eq_refl eq_refl ltac:(lia)). lra. }
    split; [exact DL|]. split; [exact L|]. destruct (interp_at_start a b p DL L) as [_ E0]. destruct (interp_at_end a b p DL L) as [_ E1].
    split; [exact E0|]. rewrite E1. symmetry. destruct sd_path as [_ W]. eapply W; eauto.
  Qed.
  Lemma reach_station m P j c pc : at_depth s m P -> nth_error (sv_rows s) j = Some c -> nth_error (sv_nev s) j = Some pc ->
    dist P pc <= Rabs (m - st_md c).
  Proof.
    intros H C PC. destruct (at_depth_inv m P H) as (k & a & b & p & q & A & B & HP & HQ & M & ->).
    destruct (end_of k a b p q A B HP HQ) as (D & L & E0 & E1).
    destruct (Nat.le_gt_cases j k) as [JK|JK].
    - pose proof (station_reach j k c a pc p C A PC HP JK) as R1.
      pose proof (part_distance a b p 0 (m - st_md a) D L ltac:(lra) ltac:(lra)) as R2. rewrite E0 in R2.
      pose proof (dist_tri (interpolate_pos_nev p a b (m - st_md a)) p pc). pose proof (Rle_abs (m - st_md c)). lra.
    - pose proof (station_reach (S k) j b c q pc B C HQ PC JK) as R1.
      pose proof (part_distance a b p (m - st_md a) (st_md b - st_md a) D L ltac:(lra) ltac:(lra)) as R2. rewrite E1 in R2.
      pose proof (dist_tri (interpolate_pos_nev p a b (m - st_md a)) q pc). pose proof (Rle_abs (- (m - st_md c))) as Z. rewrite Rabs_Ropp in Z.
      rewrite (dist_swap q pc) in H0. rewrite (dist_swap _ q) in H0. lra.
  Qed.
  Lemma reach m m' P Q : at_depth s m P -> at_depth s m' Q -> m <= m' -> dist Q P <= m' - m.
  Proof.
    intros H H' O. destruct (at_depth_inv m P H) as (k & a & b & p & q & A & B & HP & HQ & M & EP).
    destruct (at_depth_inv m' Q H') as (k' & a' & b' & p' & q' & A' & B' & HP' & HQ' & M' & EQ).
    destruct (end_of k a b p q A B HP HQ) as (D & L & E0 & E1).
    destruct (Nat.lt_trichotomy k k') as [K|[K|K]].
    - pose proof (reach_station m' Q (S k) b q H' B HQ) as R1.
      assert (st_md b <= st_md a').
      { pose proof (station_reach (S k) k' b a' q p' B A' HQ HP' K). pose proof (Rle_0_sqr 0). unfold dist, norm in *. pose proof (sqrt_pos (dot (vsub p' q) (vsub p' q))). lra. }
      rewrite Rabs_pos_eq in R1 by lra.
      pose proof (part_distance a b p (m - st_md a) (st_md b - st_md a) D L ltac:(lra) ltac:(lra)) as R2. rewrite E1, <- EP in R2.
      pose proof (dist_tri Q q P). lra.
    - subst k'. assert (a' = a) by congruence. assert (b' = b) by congruence. assert (p' = p) by congruence. subst a' b' p'. rewrite EP, EQ.
      pose proof (part_distance a b p (m - st_md a) (m' - st_md a) D L ltac:(lra) ltac:(lra)). lra.
    - assert (st_md b' <= st_md a).
      { pose proof (station_reach (S k') k b' a q' p B' A HQ' HP K). unfold dist, norm in *. pose proof (sqrt_pos (dot (vsub p q') (vsub p q'))). lra. }
      assert (m' = m) by lra. subst m'. destruct H as (n & hh & I & _ & <-). destruct H' as (n' & hh' & I' & _ & <-). rewrite I in I'. injection I' as <- <-.
      unfold dist. rewrite vsub_itself, norm_vzero. lra.
  Qed.
End Well.

(** what is reported at a station *)
Lemma reported opt c ref off i r : surveyed (w_survey off) -> never_worse opt -> nth_error (clearance_run opt c ref off) i = Some (Some r) ->
  exists a p m Q, nth_error (sv_rows (w_survey ref)) i = Some a /\ nth_error (sv_nev (w_survey ref)) i = Some p /\ at_depth (w_survey off) m Q /\
    ru_distance r = dist p Q /\ forall k o, nth_error (sv_nev (w_survey off)) k = Some o -> ru_distance r <= dist p o.
Proof.
  intros HO N R. pose proof R as R0. unfold clearance_run in R. rewrite nth_error_map in R.
  destruct (nth_error (seq 0 (length (sv_rows (w_survey ref)))) i) as [i'|] eqn:SQ; [|discriminate].
  assert (LI : (i < length (sv_rows (w_survey ref)))%nat). { rewrite <- (seq_length (length (sv_rows (w_survey ref))) 0). apply nth_error_Some. congruence. }
  assert (i' = i). { rewrite (nth_error_nth' _ 0%nat) in SQ by (rewrite seq_length; exact LI). rewrite seq_nth in SQ by exact LI. cbn in SQ. congruence. } subst i'.
  cbn [option_map] in R. injection R as R. unfold station_rule in R.
  destruct (nth_error (sv_rows (w_survey ref)) i) as [a|]; [|discriminate]. destruct (nth_error (sv_nev (w_survey ref)) i) as [p|]; [|discriminate].
  destruct (nth_error (w_cov ref) i); [|discriminate]. destruct (nth_error (w_radius ref) i); [|discriminate].
  destruct HO as ((h & rows & deg & sx & sn & unit & H) & SI & D).
  destruct (closest_on_well h rows deg sx sn unit (w_survey off) opt p H SI D N) as (index & x & f & q & b & e & n & h' & C & AD & B & E & X & I & M & P & F & MIN).
  rewrite C in R. destruct (nth_error (w_radius off) _); [|discriminate]. destruct (nth_error (w_cov off) index); [|discriminate].
  destruct (nth_error (w_cov off) (S index)); [|discriminate].
  unfold iscwsa_rule in R. destruct (pcr _ _); [|discriminate]. destruct (pcr _ _); [|discriminate]. injection R as <-. cbn [ru_distance dl_distance delta_vectors].
  exists a, p, (st_md b + x), q. split; [reflexivity|]. split; [reflexivity|]. split; [exists n, h'; auto|].
  rewrite norm_vsub_dist. split; [reflexivity|exact MIN].
Qed.
Lemma missed_at opt c ref off i r p h : surveyed (w_survey off) -> spacing (w_survey off) h -> never_worse opt ->
  nth_error (clearance_run opt c ref off) i = Some (Some r) -> nth_error (sv_nev (w_survey ref)) i = Some p ->
  (exists m Q, at_depth (w_survey off) m Q /\ dist p Q = ru_distance r) /\
  forall m Q, at_depth (w_survey off) m Q -> ru_distance r - h / 2 <= dist p Q.
Proof.
  intros HO SP N R P. destruct (reported opt c ref off i r HO N R) as (a & p' & m & Q & A & P' & AQ & DR & MIN).
  assert (p' = p) by congruence. subst p'. split; [exists m, Q; auto|].
  intros m' Q' H. destruct (at_depth_inv _ HO m' Q' H) as (k & b & e & o & o' & B & E & O & O' & M & _).
  pose proof (SP k b e B E) as G.
  destruct (Rle_dec (m' - st_md b) (st_md e - m')) as [T|T].
  - pose proof (reach_station _ HO m' Q' k b o H B O) as Z. rewrite Rabs_pos_eq in Z by lra. pose proof (MIN k o O). pose proof (dist_tri p Q' o). lra.
  - pose proof (reach_station _ HO m' Q' (S k) e o' H E O') as Z. rewrite Rabs_left1 in Z by lra. pose proof (MIN (S k) o' O'). pose proof (dist_tri p Q' o'). lra.
Qed.
Lemma missed_near opt c ref off i r a h m P m' Q : surveyed (w_survey ref) -> surveyed (w_survey off) -> spacing (w_survey off) h -> never_worse opt ->
  nth_error (clearance_run opt c ref off) i = Some (Some r) -> nth_error (sv_rows (w_survey ref)) i = Some a ->
  at_depth (w_survey ref) m P -> at_depth (w_survey off) m' Q -> ru_distance r - Rabs (m - st_md a) - h / 2 <= dist P Q.
Proof.
  intros HR HO SP N R A HP HQ. destruct (reported opt c ref off i r HO N R) as (a' & p & _ & _ & A' & P' & _).
  assert (a' = a) by congruence. subst a'. destruct (missed_at opt c ref off i r p h HO SP N R P') as [_ Z]. specialize (Z m' Q HQ).
  pose proof (reach_station _ HR m P i a p HP A P'). pose proof (dist_tri p P Q). rewrite (dist_swap p P) in H0. lra.
Qed.
Lemma missed_nowhere opt c ref off g h d : surveyed (w_survey ref) -> surveyed (w_survey off) -> spacing (w_survey ref) g -> spacing (w_survey off) h -> never_worse opt ->
  (forall i, (i < length (sv_rows (w_survey ref)))%nat -> exists r, nth_error (clearance_run opt c ref off) i = Some (Some r) /\ d + (g + h) / 2 <= ru_distance r) ->
  forall m P m' Q, at_depth (w_survey ref) m P -> at_depth (w_survey off) m' Q -> d <= dist P Q.
Proof.
  intros HR HO SG SP N ALL m P m' Q HP HQ. destruct (at_depth_inv _ HR m P HP) as (k & a & b & p & q & A & B & _ & _ & M & _).
  pose proof (SG k a b A B) as G.
  destruct (Rle_dec (m - st_md a) (st_md b - m)) as [T|T].
  - destruct (ALL k) as (r & R & E); [apply nth_error_Some; congruence|].
    pose proof (missed_near opt c ref off k r a h m P m' Q HR HO SP N R A HP HQ) as Z. rewrite Rabs_pos_eq in Z by lra. lra.
  - destruct (ALL (S k)) as (r & R & E); [apply nth_error_Some; congruence|].
    pose proof (missed_near opt c ref off (S k) r b h m P m' Q HR HO SP N R B HP HQ) as Z. rewrite Rabs_left1 in Z by lra. lra.
Qed.
