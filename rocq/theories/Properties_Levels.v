(** Property theorems C114-C116: stations added at regular vertical depths. *)
Require Import Reals ZArith Bool String List Lra Lia Psatz.
Require Import Verif.Base Verif.NumPy Verif.M_Utils Verif.M_Survey Verif.M_Levels Verif.Spec Verif.Spec_Lists Verif.Spec_Refine Verif.Spec_Levels.
Require Import Verif.P_Levels8 Verif.P_Levels9.
Import ListNotations.
Local Open Scope R_scope.

(** * C114: the stations of the result *)
Theorem C114_level_survey : forall h rows deg sx sn s start step,
  Survey h rows deg sx sn "meters" = Some s -> 0 < step ->
  let first := match start with Some v => v | None => vz sn end in
  suits s first step ->
  exists r N, (forall fuel, (N <= fuel)%nat -> interpolate_survey_tvd fuel s start step = LevelsOk r) /\
    strictly_increasing (map st_md (sv_rows r)) /\
    length (sv_interpolated r) = length (sv_rows r) /\ length (sv_nev r) = length (sv_rows r) /\
    map (fun a => (st_md a, direction_nev (st_inc a) (st_azi a))) (unmarked (sv_interpolated r) (sv_rows r))
      = map (fun a => (st_md a, direction_nev (st_inc a) (st_azi a))) (sv_rows s) /\
    unmarked (sv_interpolated r) (sv_nev r) = map (fun p => vsub p sn) (sv_nev s) /\
    forall j a q, nth_error (sv_rows r) j = Some a -> nth_error (sv_nev r) j = Some q ->
      exists n h', survey_interpolate_md s (st_md a) = NodeOk n h' /\ nd_vec n = direction_nev (st_inc a) (st_azi a) /\
        q = vsub (nd_pos n) sn /\
        (nth_error (sv_interpolated r) j = Some true -> is_level first step (vz (nd_pos n))).
Proof. exact level_survey. Qed.
Print Assumptions C114_level_survey.
(** down 100 m and a quarter circle to horizontal, a station every 30 m *)
Example C114_case : exists s,
  Survey lev_h [(0, 0, 0); (100, 0, 0); (100 + 50 * PI, PI / 2, 0)] false vzero vzero "meters" = Some s /\ 0 < 30 /\
  suits s (match None with Some v => v | None => vz vzero end) 30.
Proof.
  destruct (lev_survey quarter ltac:(simpl; lia)) as (s & HS & R & PL). exists s. split; [exact HS|]. split; [lra|].
  apply quarter_suits; auto. exists 0%Z. simpl. ring.
Qed.

(** * C115: every level passed gets a station *)
Theorem C115_level_complete : forall h rows deg sx sn s start step,
  Survey h rows deg sx sn "meters" = Some s -> 0 < step ->
  let first := match start with Some v => v | None => vz sn end in
  suits s first step ->
  first <= vz sn < first + step ->
  (forall q, vz sn = first -> nth_error (sv_nev s) 1 = Some q -> vz sn < vz q) ->
  (forall i o p q, nth_error (sv_nev s) i = Some o -> nth_error (sv_nev s) (S i) = Some p -> nth_error (sv_nev s) (S (S i)) = Some q ->
     is_level first step (vz p) -> vz o < vz p < vz q \/ vz q < vz p < vz o) ->
  exists r N, (forall fuel, (N <= fuel)%nat -> interpolate_survey_tvd fuel s start step = LevelsOk r) /\
    forall k a b p q L, nth_error (sv_rows s) k = Some a -> nth_error (sv_rows s) (S k) = Some b ->
      nth_error (sv_nev s) k = Some p -> nth_error (sv_nev s) (S k) = Some q ->
      is_level first step L -> vz p < L <= vz q \/ vz q <= L < vz p ->
      exists j c n h', nth_error (sv_rows r) j = Some c /\ st_md a < st_md c <= st_md b /\
        survey_interpolate_md s (st_md c) = NodeOk n h' /\ vz (nd_pos n) = L.
Proof. exact level_complete. Qed.
Print Assumptions C115_level_complete.
Example C115_case : exists s,
  Survey lev_h [(0, 0, 0); (100, 0, 0); (100 + 50 * PI, PI / 2, 0)] false vzero vzero "meters" = Some s /\ 0 < 30 /\
  let first := match None with Some v => v | None => vz vzero end in
  suits s first 30 /\ first <= vz vzero < first + 30 /\
  (forall q, vz vzero = first -> nth_error (sv_nev s) 1 = Some q -> vz vzero < vz q) /\
  (forall i o p q, nth_error (sv_nev s) i = Some o -> nth_error (sv_nev s) (S i) = Some p -> nth_error (sv_nev s) (S (S i)) = Some q ->
     is_level first 30 (vz p) -> vz o < vz p < vz q \/ vz q < vz p < vz o) /\
  exists a b p q L, nth_error (sv_rows s) 1 = Some a /\ nth_error (sv_rows s) 2 = Some b /\
      nth_error (sv_nev s) 1 = Some p /\ nth_error (sv_nev s) 2 = Some q /\
      is_level first 30 L /\ (vz p < L <= vz q \/ vz q <= L < vz p).
Proof.
  destruct (lev_survey quarter ltac:(simpl; lia)) as (s & HS & R & PL). exists s. split; [exact HS|]. split; [lra|].
  assert (L0 : is_level 0 30 0) by (exists 0%Z; simpl; ring).
  assert (NV := quarter_positions s R PL). cbv zeta. split; [apply quarter_suits; auto|]. split; [simpl; lra|].
  split; [intros q _ Q; rewrite NV in Q; injection Q as <-; simpl; lra|]. split.
  - intros i o p q O P Q _. rewrite NV in O, P, Q. destruct i as [|[|[|i]]]; simpl in O, P, Q; try discriminate.
    injection O as <-. injection P as <-. injection Q as <-. simpl. lra.
  - exists (mkSt 100 0 0), (mkSt (100 + 50 * PI) (PI / 2) 0), (mkV 0 0 100), (mkV 100 0 200), 150. rewrite R, NV.
    repeat split; auto; [exists 5%Z; simpl; ring|simpl; lra].
Qed.

(** * C116: levels that are passed without a station *)
Theorem C116_level_missed : forall h rows deg sx sn s start step,
  Survey h rows deg sx sn "meters" = Some s -> 0 < step ->
  let first := match start with Some v => v | None => vz sn end in
  suits s first step ->
  let deepens := forall i p q, nth_error (sv_nev s) i = Some p -> nth_error (sv_nev s) (S i) = Some q -> vz p <= vz q in
  let climbs := forall i p q, nth_error (sv_nev s) i = Some p -> nth_error (sv_nev s) (S i) = Some q -> vz q <= vz p in
  exists r N, (forall fuel, (N <= fuel)%nat -> interpolate_survey_tvd fuel s start step = LevelsOk r) /\
    (deepens -> first + step <= vz sn -> forall j, nth_error (sv_interpolated r) j <> Some true) /\
    (climbs -> vz sn <= first -> forall j, nth_error (sv_interpolated r) j <> Some true) /\
    (deepens -> forall j a n h', nth_error (sv_rows r) j = Some a -> nth_error (sv_interpolated r) j = Some true ->
       survey_interpolate_md s (st_md a) = NodeOk n h' -> first + step <= vz (nd_pos n)).
Proof. exact level_missed. Qed.
Print Assumptions C116_level_missed.
(** the same well with the levels counted from -60: none is found *)
Example C116_deepens_case : exists s,
  Survey lev_h [(0, 0, 0); (100, 0, 0); (100 + 50 * PI, PI / 2, 0)] false vzero vzero "meters" = Some s /\ 0 < 30 /\
  suits s (-60) 30 /\ -60 + 30 <= vz vzero /\
  (forall i p q, nth_error (sv_nev s) i = Some p -> nth_error (sv_nev s) (S i) = Some q -> vz p <= vz q).
Proof.
  destruct (lev_survey quarter ltac:(simpl; lia)) as (s & HS & R & PL). exists s. split; [exact HS|]. split; [lra|].
  assert (NV := quarter_positions s R PL). split; [apply quarter_suits; auto; exists (-2)%Z; simpl; ring|]. split; [simpl; lra|].
  intros i p q P Q. rewrite NV in P, Q. destruct i as [|[|[|i]]]; simpl in P, Q; try discriminate; injection P as <-; injection Q as <-; simpl; lra.
Qed.
(** a well straight up, which passes the levels -30, -60 and -90 *)
Example C116_climbs_case : exists s,
  Survey lev_h [(0, PI, 0); (100, PI, 0)] false vzero vzero "meters" = Some s /\ 0 < 30 /\
  suits s (match None with Some v => v | None => vz vzero end) 30 /\
  (forall i p q, nth_error (sv_nev s) i = Some p -> nth_error (sv_nev s) (S i) = Some q -> vz q <= vz p) /\
  nth_error (sv_nev s) 1 = Some (mkV 0 0 (-100)).
Proof.
  destruct (lev_survey upward ltac:(simpl; lia)) as (s & HS & R & PL). exists s. split; [exact HS|]. split; [lra|].
  destruct (upward_suits s R PL) as [SU NV]. split; [exact SU|]. split; [|rewrite NV; reflexivity].
  intros i p q P Q. rewrite NV in P, Q. destruct i as [|[|i]]; simpl in P, Q; try discriminate; injection P as <-; injection Q as <-; simpl; lra.
Qed.
Theorem C116_level_feet : forall h rows deg sx sn s start step fuel r,
  Survey h rows deg sx sn "feet" = Some s -> interpolate_survey_tvd fuel s start step <> LevelsOk r.
Proof. exact level_feet. Qed.
Print Assumptions C116_level_feet.
Example C116_feet_case : exists s, Survey (mkHeader RefGrid 0 0 1 None "feet") [(0, 0, 0); (100, 0, 0)] false vzero vzero "feet" = Some s.
Proof. eexists. reflexivity. Qed.
