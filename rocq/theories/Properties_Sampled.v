(** C168: how far a well can be from the survey of it; C170: how far apart two drilled wells are when a clearance run says so. *)
Require Import Reals ZArith Bool String List Lra Lia.
Require Import Verif.Base Verif.NumPy Verif.Spec Verif.Spec_Clearance Verif.M_Utils Verif.M_Survey Verif.M_Clearance Verif.M_Refine Verif.Spec_Length Verif.Spec_Missed Verif.Spec_Sampled.
Require Import Verif.P_Sampled Verif.P_Sampled2 Verif.P_Sampled3 Verif.P_Sampled4.
Import ListNotations.
Local Open Scope R_scope.

(** * C168 *)
Theorem C168_positions : forall sv c T k g i a p, surveyed sv -> spacing sv g -> drilled c T -> turns_at_most k T -> measures sv c T -> k * g < PI ->
  nth_error (sv_rows sv) i = Some a -> nth_error (sv_nev sv) i = Some p -> forall a0, nth_error (sv_rows sv) 0 = Some a0 ->
  dist p (c (st_md a)) <= (st_md a - st_md a0) * (k * g / 4 + (k * g) ^ 2 / 12).
Proof. exact sampled. Qed.
Print Assumptions C168_positions.
Example C168_case : exists s c T, surveyed s /\ spacing s 100 /\ drilled c T /\ turns_at_most (1 / 200) T /\ measures s c T /\ 1 / 200 * 100 < PI /\ length (sv_rows s) = 3%nat.
Proof.
  destruct build_measured as (s & A & B & C & D). exists s, build_pos, build_dir. pose proof PI2_3_2 as P. unfold PI2 in P.
  repeat (split; [first [assumption|exact build_drilled|exact build_turns|lra]|]). exact D.
Qed.
Theorem C168_every_depth : forall sv c T k g m P, surveyed sv -> spacing sv g -> drilled c T -> turns_at_most k T -> measures sv c T -> k * g < PI ->
  at_depth sv m P -> forall a0, nth_error (sv_rows sv) 0 = Some a0 ->
  dist P (c m) <= (m - st_md a0) * (k * g / 4 + (k * g) ^ 2 / 12) + 3 / 4 * k * g ^ 2.
Proof. exact sampled_depth. Qed.
Print Assumptions C168_every_depth.
(** the error does grow with the depth: k g / (2 PI) for every unit of length, whatever the number of stations *)
Theorem C168_corkscrew : forall k g n, 0 < k -> 0 < g -> k * g < PI -> exists sv c T, surveyed sv /\ spacing sv g /\ drilled c T /\ turns_at_most k T /\ measures sv c T /\
  length (sv_rows sv) = S (S n) /\ forall i a p, nth_error (sv_rows sv) i = Some a -> nth_error (sv_nev sv) i = Some p ->
    st_md a = INR i * g /\ dist p (c (st_md a)) = st_md a * (k * g / (2 * PI)).
Proof. exact corkscrew. Qed.
Print Assumptions C168_corkscrew.
Example C168_corkscrew_case : 0 < 1 / 1000 /\ 0 < 30 /\ 1 / 1000 * 30 < PI.
Proof. pose proof PI2_3_2 as P. unfold PI2 in P. lra. Qed.

(** * C170 *)
Theorem C170_wells_apart : forall opt cs ref off g h kr ko cr Tr co To d a b a' b', surveyed (w_survey ref) -> surveyed (w_survey off) ->
  spacing (w_survey ref) g -> spacing (w_survey off) h -> never_worse opt ->
  drilled cr Tr -> turns_at_most kr Tr -> measures (w_survey ref) cr Tr -> kr * g < PI ->
  drilled co To -> turns_at_most ko To -> measures (w_survey off) co To -> ko * h < PI ->
  ends (w_survey ref) a b -> ends (w_survey off) a' b' ->
  (forall i, (i < length (sv_rows (w_survey ref)))%nat -> exists r, nth_error (clearance_run opt cs ref off) i = Some (Some r) /\
     d + (g + h) / 2 + astray kr g (b - a) + astray ko h (b' - a') <= ru_distance r) ->
  forall m m', a <= m <= b -> a' <= m' <= b' -> d <= dist (cr m) (co m').
Proof. exact wells_apart. Qed.
Print Assumptions C170_wells_apart.
(** wells kept 39 m apart *)
Example C170_case : exists sr so cr Tr co To, surveyed sr /\ surveyed so /\ spacing sr 10 /\ spacing so 1 /\
  drilled cr Tr /\ turns_at_most (1 / 1000) Tr /\ measures sr cr Tr /\ drilled co To /\ turns_at_most (1 / 1000) To /\ measures so co To /\
  ends sr 0 10 /\ ends so 0 2 /\
  forall opt c, never_worse opt -> 0 < c_k c -> c_sigma_pa c <> 0 -> forall i, (i < length (sv_rows sr))%nat ->
    exists r, nth_error (clearance_run opt c (mkWell sr (repeat mzero 2) (repeat 0 2)) (mkWell so (repeat mzero 3) (repeat 0 3))) i = Some (Some r) /\
      39 + (10 + 1) / 2 + astray (1 / 1000) 10 (10 - 0) + astray (1 / 1000) 1 (2 - 0) <= ru_distance r.
Proof. exact apart_case. Qed.
