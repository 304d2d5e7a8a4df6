(** C154: distances, depths and turns along a well. *)
Require Import Reals ZArith Bool String List Lra Lia.
Require Import Verif.Base Verif.Spec Verif.M_Utils Verif.M_Survey Verif.Spec_Length Verif.P_Length.
Import ListNotations.
Local Open Scope R_scope.

(** * C154 *)
Theorem C154_distance : forall h rows deg sx sn unit s i j a b p q, Survey h rows deg sx sn unit = Some s ->
  not_back (sv_rows s) -> no_reversal (sv_rows s) -> (i <= j)%nat ->
  nth_error (sv_rows s) i = Some a -> nth_error (sv_rows s) j = Some b -> nth_error (sv_nev s) i = Some p -> nth_error (sv_nev s) j = Some q ->
  dist q p <= st_md b - st_md a.
Proof. exact length_distance. Qed.
Print Assumptions C154_distance.
Theorem C154_straight : forall h rows deg sx sn unit s i j a b p q, Survey h rows deg sx sn unit = Some s ->
  forward (sv_rows s) -> no_reversal (sv_rows s) -> (i <= j)%nat ->
  nth_error (sv_rows s) i = Some a -> nth_error (sv_rows s) j = Some b -> nth_error (sv_nev s) i = Some p -> nth_error (sv_nev s) j = Some q ->
  (dist q p = st_md b - st_md a <-> forall k c, (i <= k <= j)%nat -> nth_error (sv_rows s) k = Some c -> heading c = heading a).
Proof. exact length_straight. Qed.
Print Assumptions C154_straight.
Theorem C154_vertical_depth : forall h rows deg sx sn unit s i j a b p q, Survey h rows deg sx sn unit = Some s ->
  forward (sv_rows s) -> no_reversal (sv_rows s) -> (i < j)%nat ->
  nth_error (sv_rows s) i = Some a -> nth_error (sv_rows s) j = Some b -> nth_error (sv_nev s) i = Some p -> nth_error (sv_nev s) j = Some q ->
  ((forall k c, (i <= k <= j)%nat -> nth_error (sv_rows s) k = Some c -> 0 <= st_inc c < PI / 2) -> vz p < vz q) /\
  ((forall k c, (i <= k <= j)%nat -> nth_error (sv_rows s) k = Some c -> PI / 2 < st_inc c <= PI) -> vz q < vz p) /\
  ((forall k c, (i <= k <= j)%nat -> nth_error (sv_rows s) k = Some c -> st_inc c = PI / 2) -> vz q = vz p).
Proof. exact length_deeper. Qed.
Print Assumptions C154_vertical_depth.
Theorem C154_turn : forall h rows deg sx sn unit s i j a b t, Survey h rows deg sx sn unit = Some s -> (i <= j)%nat ->
  nth_error (sv_rows s) i = Some a -> nth_error (sv_rows s) j = Some b -> angle_between (heading a) (heading b) t -> t <= sum_between i j (sv_dogleg s).
Proof. exact length_turn. Qed.
Print Assumptions C154_turn.
Theorem C154_coordinates : forall h rows deg sx sn unit s i j p q x y, Survey h rows deg sx sn unit = Some s ->
  nth_error (sv_nev s) i = Some p -> nth_error (sv_nev s) j = Some q -> nth_error (sv_xyz s) i = Some x -> nth_error (sv_xyz s) j = Some y ->
  dist y x = dist q p.
Proof. exact length_xyz. Qed.
Print Assumptions C154_coordinates.
Theorem C154_units : forall k h rows deg sx sn u s u', (u' = "meters" \/ u' = "feet")%string -> Survey h rows deg sx sn u = Some s ->
  exists s', Survey (with_unit u' h) (map (stretch_row k) rows) deg (vscale k sx) (vscale k sn) u' = Some s' /\
    sv_nev s' = map (vscale k) (sv_nev s) /\ sv_xyz s' = map (vscale k) (sv_xyz s) /\ sv_pos_nev s' = map (vscale k) (sv_pos_nev s) /\
    sv_dogleg s' = sv_dogleg s /\ sv_azi_true s' = sv_azi_true s /\ sv_azi_mag s' = sv_azi_mag s /\
    map st_inc (sv_rows s') = map st_inc (sv_rows s) /\ map st_azi (sv_rows s') = map st_azi (sv_rows s) /\
    map st_md (sv_rows s') = map (Rmult k) (map st_md (sv_rows s)).
Proof. exact length_units. Qed.
Print Assumptions C154_units.
Example C154_case : exists s, Survey grid_header build_rows false vzero vzero "meters" = Some s /\
  forward (sv_rows s) /\ not_back (sv_rows s) /\ no_reversal (sv_rows s) /\
  (forall k c, (0 <= k <= 2)%nat -> nth_error (sv_rows s) k = Some c -> 0 <= st_inc c < PI / 2).
Proof.
  destruct build_survey as (s & H & E). exists s. rewrite E. destruct build_ok as [F N]. split; [exact H|]. split; [exact F|].
  split; [apply forward_back, F|]. split; [exact N|]. pose proof PI2_3_2 as P. unfold PI2 in P.
  intros [|[|[|k]]] c K C; [| | |exfalso; lia]; cbn in C; injection C as <-; cbn [st_inc]; lra.
Qed.
