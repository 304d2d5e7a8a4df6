(** C167: what a clearance run can miss between stations; C154 between stations. *)
Require Import Reals ZArith Bool String List Lra Lia.
Require Import Verif.Base Verif.NumPy Verif.Spec Verif.Spec_Lists Verif.Spec_Clearance Verif.Spec_Missed Verif.M_Utils Verif.M_Survey Verif.M_Error Verif.M_Clearance Verif.M_Refine.
Require Import Verif.P_Clearance3 Verif.P_Missed Verif.P_Missed2.
Import ListNotations.
Local Open Scope R_scope.

(** * C154 *)
Theorem C154_between_stations : forall s m m' P Q, surveyed s -> at_depth s m P -> at_depth s m' Q -> m <= m' -> dist Q P <= m' - m.
Proof. exact along_well. Qed.
Print Assumptions C154_between_stations.
Theorem C154_depths : forall s a b m, surveyed s -> nth_error (sv_rows s) 0 = Some a -> nth_error (sv_rows s) (pred (length (sv_rows s))) = Some b ->
  ((exists P, at_depth s m P) <-> st_md a <= m <= st_md b).
Proof. exact all_depths. Qed.
Print Assumptions C154_depths.
Example C154_between_case : exists s, surveyed s /\ at_depth s 50 (mkV 50 0 0) /\ exists P, at_depth s (100 + 15 * PI) P.
Proof.
  destruct bend_survey as (s & _ & R & N & H). exists s. split; [exact H|]. pose proof PI_RGT_0. split.
  - pose proof (at_depth_of s H 0 (mkSt 0 (PI/2) 0) (mkSt 100 (PI/2) 0) vzero 50) as Z. rewrite R, N in Z.
    specialize (Z eq_refl eq_refl eq_refl). cbn [st_md] in Z. specialize (Z ltac:(lra)). rewrite straight_at, P_Refine6.north in Z.
    replace (0 + 50) with 50 in Z by ring. replace (vadd vzero (vscale 50 (mkV 1 0 0))) with (mkV 50 0 0) in Z by (unfold vadd, vscale; cbn; f_equal; ring). exact Z.
  - eapply (all_depths s (mkSt 0 (PI/2) 0) (mkSt (150 + 20 * PI) (PI/2) PI)); [exact H|rewrite R; reflexivity|rewrite R; reflexivity|cbn; lra].
Qed.

(** * C167 *)
Theorem C167_station : forall opt c ref off i r p h, surveyed (w_survey off) -> spacing (w_survey off) h -> never_worse opt ->
  nth_error (clearance_run opt c ref off) i = Some (Some r) -> nth_error (sv_nev (w_survey ref)) i = Some p ->
  (exists m Q, at_depth (w_survey off) m Q /\ dist p Q = ru_distance r) /\
  forall m Q, at_depth (w_survey off) m Q -> ru_distance r - h / 2 <= dist p Q.
Proof. exact missed_station. Qed.
Print Assumptions C167_station.
Theorem C167_depth : forall opt c ref off i r a h m P m' Q, surveyed (w_survey ref) -> surveyed (w_survey off) -> spacing (w_survey off) h -> never_worse opt ->
  nth_error (clearance_run opt c ref off) i = Some (Some r) -> nth_error (sv_rows (w_survey ref)) i = Some a ->
  at_depth (w_survey ref) m P -> at_depth (w_survey off) m' Q -> ru_distance r - Rabs (m - st_md a) - h / 2 <= dist P Q.
Proof. exact missed_depth. Qed.
Print Assumptions C167_depth.
Theorem C167_anywhere : forall opt c ref off g h d, surveyed (w_survey ref) -> surveyed (w_survey off) -> spacing (w_survey ref) g -> spacing (w_survey off) h -> never_worse opt ->
  (forall i, (i < length (sv_rows (w_survey ref)))%nat -> exists r, nth_error (clearance_run opt c ref off) i = Some (Some r) /\ d + (g + h) / 2 <= ru_distance r) ->
  forall m P m' Q, at_depth (w_survey ref) m P -> at_depth (w_survey off) m' Q -> d <= dist P Q.
Proof. exact missed_anywhere. Qed.
Print Assumptions C167_anywhere.
(** stations 10 m and 1 m apart, the wells nowhere closer than 40 m *)
Example C167_case : exists sr so opt c, surveyed sr /\ surveyed so /\ spacing sr 10 /\ spacing so 1 /\ never_worse opt /\
  forall i, (i < length (sv_rows sr))%nat -> exists r, nth_error (clearance_run opt c (mkWell sr (repeat mzero 2) (repeat 0 2)) (mkWell so (repeat mzero 3) (repeat 0 3))) i = Some (Some r) /\
    40 + (10 + 1) / 2 <= ru_distance r.
Proof.
  destruct kept_apart as (sr & so & A & B & C & D & E).
  assert (N : never_worse (fun f x0 ub => (x0, f x0))) by (intros f x0 ub H; split; auto; split; auto; lra).
  exists sr, so, (fun f x0 ub => (x0, f x0)), (mkSettings 3 1 1). split; [exact A|]. split; [exact B|]. split; [exact C|]. split; [exact D|]. split; [exact N|].
  apply E; [exact N|cbn; lra|cbn; lra].
Qed.
(** stations 2 D apart on the reference: D at both, and yet the wells meet *)
Theorem C167_crossing_refuted : forall D, 0 < D -> exists sr so, surveyed sr /\ surveyed so /\ length (sv_rows sr) = 2%nat /\ spacing sr (2 * D) /\ spacing so 1 /\
  (forall opt c, never_worse opt -> 0 < c_k c -> c_sigma_pa c <> 0 -> exists r0 r1,
     clearance_run opt c (mkWell sr (repeat mzero 2) (repeat 0 2)) (mkWell so (repeat mzero 3) (repeat 0 3)) = [Some r0; Some r1] /\
     ru_distance r0 = D /\ ru_distance r1 = D) /\
  exists m m' P, at_depth sr m P /\ at_depth so m' P.
Proof. exact crossing. Qed.
Print Assumptions C167_crossing_refuted.
(** the search looks only next to the nearest station *)
Theorem C167_search_refuted : exists sr so, surveyed sr /\ surveyed so /\
  (forall opt c, never_worse opt -> 0 < c_k c -> c_sigma_pa c <> 0 -> exists r,
     nth_error (clearance_run opt c (mkWell sr (repeat mzero 2) (repeat 0 2)) (mkWell so (repeat mzero 5) (repeat 0 5))) 0 = Some (Some r) /\ ru_distance r = 25) /\
  exists p m Q, nth_error (sv_nev sr) 0 = Some p /\ at_depth so m Q /\ dist p Q = 15.
Proof. exact turned_back. Qed.
Print Assumptions C167_search_refuted.
