(** Proofs about wells between stations, at every depth. *)
Require Import Reals ZArith Bool String List Lra Lia Psatz.
Require Import Verif.Base Verif.NumPy Verif.Spec Verif.Spec_Lists Verif.Spec_Clearance Verif.M_Utils Verif.M_Survey Verif.M_Error Verif.M_Clearance Verif.M_Refine Verif.Spec_Length Verif.Spec_Missed Verif.Spec_Sampled.
Require Import Verif.P_Trig Verif.P_Utils Verif.P_Utils2 Verif.P_Survey Verif.P_Survey2 Verif.P_Survey3 Verif.P_Survey5 Verif.P_Length Verif.P_Missed Verif.P_Missed2 Verif.P_Round Verif.P_Round2 Verif.P_Stability Verif.P_Sampled Verif.P_Refine.
Import ListNotations.
Local Open Scope R_scope.

(** a well that turns at most k leaves its tangent by at most k x^2 / 2 *)
Lemma off_tangent c T k a b : drilled c T -> turns_at_most k T -> a <= b -> norm (vsub (vsub (c b) (c a)) (vscale (b - a) (T a))) <= k * (b - a) ^ 2 / 2.
Proof.
  intros HC HT L. assert (K0 : 0 <= k * (b - a)). { destruct (HT a b L) as (t & [B _] & K). lra. }
  apply norm_by_dots; [nra|]. intros w W.
  assert (G : dot w (c b) - dot w (c a) <= dot w (T a) * (b - a) + k * (b - a) ^ 2 / 2).
  { apply (grows (fun x => dot w (c x)) (fun x => dot w (T x))); [exact L|intros; apply (along c T HC)|].
    intros x X. pose proof (turned c T k HC HT w a x W ltac:(lra)) as Z. pose proof (Rle_abs (dot w (T x) - dot w (T a))). lra. }
  replace (dot w (vsub (vsub (c b) (c a)) (vscale (b - a) (T a)))) with (dot w (c b) - dot w (c a) - dot w (T a) * (b - a)) by (unfold dot, vsub, vscale; simpl; ring). lra.
Qed.
(** the part of an interval up to x turns by at most k x *)
Lemma part_dogleg a b k x : pair_dogleg a b < PI -> 0 < st_md b - st_md a -> 0 <= x <= st_md b - st_md a -> pair_dogleg a b <= k * (st_md b - st_md a) ->
  0 <= pair_dogleg a (interp_station a b x) <= k * x /\ pair_dogleg a (interp_station a b x) < PI.
Proof.
  intros D L X K. destruct (dogleg_angle (st_inc a) (st_azi a) (st_inc b) (st_azi b)) as [B _]. fold (pair_dogleg a b) in B.
  assert (K0 : 0 <= k) by nra.
  destruct (Req_dec (pair_dogleg a b) 0) as [Z|Z].
  - assert (E : pair_dogleg a (interp_station a b x) = 0).
    { apply dogleg_0_iff. unfold interp_station, interp_angles. destruct (Req_EM_T (pair_dogleg a b) 0); [|contradiction]. reflexivity. }
    rewrite E. pose proof PI_RGT_0. split; [split; [lra|]|lra]. apply Rmult_le_pos; lra.
  - destruct (interp_doglegs a b x ltac:(lra) L X) as [E _]. rewrite E. set (r := pair_dogleg a b / (st_md b - st_md a)) in *.
    assert (ER : pair_dogleg a b = (st_md b - st_md a) * r) by (unfold r; field; lra).
    assert (R0 : 0 <= r) by (apply Rmult_le_pos; [lra|left; apply Rinv_0_lt_compat, L]).
    assert (RK : r <= k) by nra.
    clearbody r. split; [split|]; [apply Rmult_le_pos; lra| |].
    + rewrite (Rmult_comm k). apply Rmult_le_compat_l; lra.
    + apply Rle_lt_trans with ((st_md b - st_md a) * r); [apply Rmult_le_compat_r; lra|lra].
Qed.
Lemma step_tangent a j t : st_md a <= st_md j -> 0 <= pair_dogleg a j <= t -> pair_dogleg a j < PI ->
  norm (vsub (step_between a j) (vscale (st_md j - st_md a) (heading a))) <= (st_md j - st_md a) * (t / 2 + t ^ 2 / 12).
Proof.
  intros L [P0 PT] D. pose proof (step_mean a j L D) as S. set (d := st_md j - st_md a) in *.
  destruct (dogleg_angle (st_inc a) (st_azi a) (st_inc j) (st_azi j)) as [B C].
  pose proof (chord_le (heading a) (heading j) (pair_dogleg a j) (direction_unit _ _) (direction_unit _ _) (conj B C)) as H.
  assert (D0 : 0 <= d) by (unfold d; lra).
  replace (vsub (step_between a j) (vscale d (heading a)))
    with (vadd (vsub (step_between a j) (vscale (d / 2) (vadd (heading a) (heading j)))) (vscale (d / 2) (vsub (heading j) (heading a)))).
  2:{ generalize (step_between a j) (heading a) (heading j). intros [] [] []. unfold vadd, vsub, vscale. simpl. f_equal; field. }
  eapply Rle_trans; [apply norm_triangle|]. rewrite norm_vscale, Rabs_pos_eq by lra.
  assert (Q : pair_dogleg a j ^ 2 <= t ^ 2) by (apply pow_incr; lra).
  clearbody d. set (n := norm (vsub (heading j) (heading a))) in *. clearbody n. set (y := pair_dogleg a j) in *. clearbody y.
  assert (d / 2 * n <= d / 2 * t) by (apply Rmult_le_compat_l; lra). assert (d * y ^ 2 <= d * t ^ 2) by (apply Rmult_le_compat_l; lra). lra.
Qed.
Lemma sampled_depth : forall sv c T k g m P, surveyed sv -> spacing sv g -> drilled c T -> turns_at_most k T -> measures sv c T -> k * g < PI ->
  at_depth sv m P -> forall a0, nth_error (sv_rows sv) 0 = Some a0 ->
  dist P (c m) <= (m - st_md a0) * (k * g / 4 + (k * g) ^ 2 / 12) + 3 / 4 * k * g ^ 2.
Proof.
  intros sv c T k g m P HS SP HC HT HM KG HP a0 A0.
  destruct (at_depth_inv sv HS m P HP) as (i & a & b & p & q & A & B & PA & PB & M & ->).
  pose proof (sampled sv c T k g i a p HS SP HC HT HM KG A PA a0 A0) as S0.
  destruct (end_of sv HS i a b p q A B PA PB) as (D & L & _). pose proof (SP i a b A B) as G.
  destruct HM as [_ M1]. set (x := m - st_md a) in *. rewrite interpolate_pos_nev_step.
  destruct (HT (st_md a) (st_md b) ltac:(lra)) as (t & AN & TK). rewrite <- (M1 i a A), <- (M1 (S i) b B) in AN.
  assert (ET : pair_dogleg a b = t) by (apply (angle_same (heading a) (heading b)); [apply dogleg_angle|exact AN]).
  destruct (part_dogleg a b k x D L ltac:(unfold x; lra) ltac:(lra)) as [PX PL].
  assert (X : 0 <= x <= g) by (unfold x; lra).
  assert (K0 : 0 <= k). { assert (0 <= t) by (destruct AN as [[? _] _]; assumption). nra. }
  set (j := interp_station a b x) in *. assert (MJ : st_md j = st_md a + x) by (unfold j; apply md_interp).
  pose proof (step_tangent a j (k * x) ltac:(lra) PX PL) as S1. replace (st_md j - st_md a) with x in S1 by lra.
  pose proof (off_tangent c T k (st_md a) m HC HT ltac:(lra)) as S2. fold x in S2. rewrite <- (M1 i a A) in S2.
  assert (TR : dist (vadd p (step_between a j)) (c m) <= dist p (c (st_md a)) + norm (vsub (step_between a j) (vscale x (heading a))) + norm (vsub (vsub (c m) (c (st_md a))) (vscale x (heading a)))).
  { set (u := vscale x (heading a)).
    pose proof (norm_triangle (vsub p (c (st_md a))) (vsub (step_between a j) u)) as T1.
    pose proof (norm_triangle (vadd (vsub p (c (st_md a))) (vsub (step_between a j) u)) (vsub u (vsub (c m) (c (st_md a))))) as T2.
    replace (norm (vsub u (vsub (c m) (c (st_md a))))) with (norm (vsub (vsub (c m) (c (st_md a))) u)) in T2 by (exact (dist_swap (vsub (c m) (c (st_md a))) u)).
    unfold dist. replace (vsub (vadd p (step_between a j)) (c m))
      with (vadd (vadd (vsub p (c (st_md a))) (vsub (step_between a j) u)) (vsub u (vsub (c m) (c (st_md a))))).
    - clearbody u. lra.
    - generalize (step_between a j) u (c m) (c (st_md a)). intros u1 u2 u3 u4. unfold vadd, vsub. simpl. f_equal; ring. }
  replace (m - st_md a0) with ((st_md a - st_md a0) + x) by (unfold x; ring).
  clear - S0 S1 S2 TR X K0. clearbody x.
  set (e := dist (vadd p (step_between a j)) (c m)) in *. set (e0 := dist p (c (st_md a))) in *.
  set (e1 := norm (vsub (step_between a j) (vscale x (heading a)))) in *. set (e2 := norm (vsub (vsub (c m) (c (st_md a))) (vscale x (heading a)))) in *.
  clearbody e e0 e1 e2. clear -S0 S1 S2 TR X K0.
  assert (KX : 0 <= k * x <= k * g) by (split; [apply Rmult_le_pos; lra|apply Rmult_le_compat_l; lra]).
  assert (Q1 : x * (k * x) <= x * (k * g)) by (apply Rmult_le_compat_l; lra).
  assert (Q2 : x * (k * x) ^ 2 <= x * (k * g) ^ 2) by (apply Rmult_le_compat_l; [lra|apply pow_incr; lra]).
  assert (Q3 : x * (k * g) <= g * (k * g)) by (apply Rmult_le_compat_r; lra).
  replace (3 / 4 * k * g ^ 2) with (3 / 4 * (g * (k * g))) by ring. replace (k * x ^ 2 / 2) with (x * (k * x) / 2) in S2 by field.
  replace (x * (k * x / 2 + (k * x) ^ 2 / 12)) with (x * (k * x) / 2 + x * (k * x) ^ 2 / 12) in S1 by field.
  set (z0 := st_md a - st_md a0) in *. clearbody z0.
  replace ((z0 + x) * (k * g / 4 + (k * g) ^ 2 / 12)) with (z0 * (k * g / 4 + (k * g) ^ 2 / 12) + (x * (k * g) / 4 + x * (k * g) ^ 2 / 12)) by field. lra.
Qed.
(** from the reported distances to the wells themselves *)
Lemma wells_apart : forall opt cs ref off g h kr ko cr Tr co To d a b a' b', surveyed (w_survey ref) -> surveyed (w_survey off) ->
  spacing (w_survey ref) g -> spacing (w_survey off) h -> never_worse opt ->
  drilled cr Tr -> turns_at_most kr Tr -> measures (w_survey ref) cr Tr -> kr * g < PI ->
  drilled co To -> turns_at_most ko To -> measures (w_survey off) co To -> ko * h < PI ->
  ends (w_survey ref) a b -> ends (w_survey off) a' b' ->
  (forall i, (i < length (sv_rows (w_survey ref)))%nat -> exists r, nth_error (clearance_run opt cs ref off) i = Some (Some r) /\
     d + (g + h) / 2 + astray kr g (b - a) + astray ko h (b' - a') <= ru_distance r) ->
  forall m m', a <= m <= b -> a' <= m' <= b' -> d <= dist (cr m) (co m').
Proof.
  intros opt cs ref off g h kr ko cr Tr co To d a b a' b' HR HO SG SH N C1 T1 M1 K1 C2 T2 M2 K2
    (sa & sb & A & B & EA & EB) (sa' & sb' & A' & B' & EA' & EB') ALL m m' I I'. subst a b a' b'.
  destruct (proj2 (all_depths _ sa sb m HR A B) I) as [P HP]. destruct (proj2 (all_depths _ sa' sb' m' HO A' B') I') as [Q HQ].
  pose proof (sampled_depth _ cr Tr kr g m P HR SG C1 T1 M1 K1 HP sa A) as S1.
  pose proof (sampled_depth _ co To ko h m' Q HO SH C2 T2 M2 K2 HQ sa' A') as S2.
  pose proof (missed_nowhere opt cs ref off g h (d + astray kr g (st_md sb - st_md sa) + astray ko h (st_md sb' - st_md sa')) HR HO SG SH N) as W.
  assert (Z : d + astray kr g (st_md sb - st_md sa) + astray ko h (st_md sb' - st_md sa') <= dist P Q).
  { apply (W ltac:(intros i LI; destruct (ALL i LI) as (r & R & E); exists r; split; [exact R|lra]) m P m' Q HP HQ). }
  assert (KP : forall k T s g', turns_at_most k T -> spacing s g' -> surveyed s -> 0 <= k * g').
  { clear. intros k T s g' HT SP HS. assert (K : 0 <= k). { destruct (HT 0 1 ltac:(lra)) as (t & [X _] & Y). lra. }
    pose proof HS as ((hh & rows & deg & sx & sn & unit & H) & SI & D). pose proof (Survey_inv _ _ _ _ _ _ _ H) as (_ & _ & LL & _).
    destruct (nth_error_some_lt _ (sv_rows s) 0) as [u U]; [lia|]. destruct (nth_error_some_lt _ (sv_rows s) 1) as [v V]; [lia|].
    pose proof (SP 0%nat u v U V). pose proof (si_lt (map st_md (sv_rows s)) 0 1 (st_md u) (st_md v) SI) as Y. rewrite !nth_error_map, U, V in Y. specialize (Y eq_refl eq_refl ltac:(lia)).
    apply Rmult_le_pos; lra. }
  pose proof (KP kr Tr _ g T1 SG HR) as G1. pose proof (KP ko To _ h T2 SH HO) as G2.
  assert (B1 : (m - st_md sa) * (kr * g / 4 + (kr * g) ^ 2 / 12) <= (st_md sb - st_md sa) * (kr * g / 4 + (kr * g) ^ 2 / 12)).
  { apply Rmult_le_compat_r; [pose proof (pow2_ge_0 (kr * g)); lra|lra]. }
  assert (B2 : (m' - st_md sa') * (ko * h / 4 + (ko * h) ^ 2 / 12) <= (st_md sb' - st_md sa') * (ko * h / 4 + (ko * h) ^ 2 / 12)).
  { apply Rmult_le_compat_r; [pose proof (pow2_ge_0 (ko * h)); lra|lra]. }
  pose proof (dist_tri P (cr m) Q) as D1. pose proof (dist_tri (cr m) (co m') Q) as D2. rewrite (dist_swap (co m') Q) in D2.
  unfold astray in *. lra.
Qed.
(** straight wells *)
Lemma line_drilled p u m0 : is_unit u -> drilled (fun s => vadd p (vscale (s - m0) u)) (fun _ => u).
Proof.
  intros U s. split; [exact U|]. unfold vadd, vscale. cbn [vx vy vz].
  assert (E : forall y w, derivable_pt_lim (fun x => y + (x - m0) * w) s w).
  { intros y w. assert (F : derivable_pt_lim (fun x => y + (x - m0) * w) s (0 + ((1 - 0) * w + (s - m0) * 0))).
    2:{ replace (0 + ((1 - 0) * w + (s - m0) * 0)) with w in F by ring. exact F. }
    apply (derivable_pt_lim_plus (fun _ => y) (fun x => (x - m0) * w)); [apply derivable_pt_lim_const|].
    apply (derivable_pt_lim_mult (fun x => x - m0) (fun _ => w)); [|apply derivable_pt_lim_const].
    apply (derivable_pt_lim_minus (fun x => x) (fun _ => m0)); [apply derivable_pt_lim_id|apply derivable_pt_lim_const]. }
  repeat split; apply E.
Qed.
Lemma line_turns u k : is_unit u -> 0 <= k -> turns_at_most k (fun _ => u).
Proof.
  intros U K s s' L. exists 0. pose proof PI_RGT_0. split; [split; [lra|rewrite cos_0; symmetry; exact U]|apply Rmult_le_pos; lra].
Qed.
Lemma apart_case : exists sr so cr Tr co To, surveyed sr /\ surveyed so /\ spacing sr 10 /\ spacing so 1 /\
  drilled cr Tr /\ turns_at_most (1 / 1000) Tr /\ measures sr cr Tr /\ drilled co To /\ turns_at_most (1 / 1000) To /\ measures so co To /\
  ends sr 0 10 /\ ends so 0 2 /\
  forall opt c, never_worse opt -> 0 < c_k c -> c_sigma_pa c <> 0 -> forall i, (i < length (sv_rows sr))%nat ->
    exists r, nth_error (clearance_run opt c (mkWell sr (repeat mzero 2) (repeat 0 2)) (mkWell so (repeat mzero 3) (repeat 0 3))) i = Some (Some r) /\
      39 + (10 + 1) / 2 + astray (1 / 1000) 10 (10 - 0) + astray (1 / 1000) 1 (2 - 0) <= ru_distance r.
Proof.
  destruct kept_apart_at as (sr & so & (RR & NR & RO & NO) & A & B & C & D & E).
  exists sr, so, (fun s => vadd (mkV 50 15 0) (vscale (s - 0) (mkV 0 0 1))), (fun _ => mkV 0 0 1), (fun s => vadd (mkV (-1) 0 0) (vscale (s - 0) (mkV 1 0 0))), (fun _ => mkV 1 0 0).
  assert (U1 : is_unit (mkV 0 0 1)) by (unfold is_unit, dot; simpl; ring). assert (U2 : is_unit (mkV 1 0 0)) by (unfold is_unit, dot; simpl; ring).
  do 4 (split; [assumption|]).
  split; [apply line_drilled, U1|]. split; [apply line_turns; [exact U1|lra]|].
  split. { split.
    - rewrite RR, NR. intros a p X Y. simpl in X, Y. injection X as <-. injection Y as <-. unfold vadd, vscale. cbn. f_equal; ring.
    - rewrite RR. intros [|[|k]] a X; simpl in X; [| |destruct k; discriminate]; injection X as <-; unfold heading, direction_nev; cbn [st_inc st_azi]; rewrite cos_0, sin_0; f_equal; ring. }
  split; [apply line_drilled, U2|]. split; [apply line_turns; [exact U2|lra]|].
  split. { split.
    - rewrite RO, NO. intros a p X Y. simpl in X, Y. injection X as <-. injection Y as <-. unfold vadd, vscale. cbn. f_equal; ring.
    - rewrite RO. intros [|[|[|k]]] a X; simpl in X; [| | |destruct k; discriminate]; injection X as <-; unfold heading, direction_nev; cbn [st_inc st_azi]; rewrite cos_PI2, sin_PI2, cos_0, sin_0; f_equal; ring. }
  split. { unfold ends. rewrite RR. do 2 eexists. repeat split; reflexivity. }
  split. { unfold ends. rewrite RO. do 2 eexists. repeat split; reflexivity. }
  intros opt c N HK HP i LI. destruct (E opt c N HK HP i LI) as (r & R & Z). exists r. split; [exact R|]. unfold astray. lra.
Qed.
