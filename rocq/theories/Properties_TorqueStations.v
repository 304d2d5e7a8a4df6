(** Property theorems C144: the survey on which torque and drag is calculated. *)
Require Import Reals ZArith Bool String List Lra Lia Permutation.
Require Import Verif.Base Verif.NumPy Verif.P_Trig Verif.Spec Verif.Spec_Lists Verif.M_Utils
  Verif.M_Architecture Verif.M_Survey Verif.P_Survey Verif.P_Survey2 Verif.P_Survey3
  Verif.M_TorqueStations Verif.Spec_TorqueStations Verif.P_TorqueStations Verif.P_TorqueStations2 Verif.P_TorqueStations3 Verif.P_TorqueStations4.
Import ListNotations.
Open Scope R_scope.

(** * C144 *)
Theorem C144_stations : forall h rows deg sx sn s wb st t h' first last,
  Survey h rows deg sx sn "meters" = Some s ->
  strictly_increasing (map st_md (sv_rows s)) ->
  (forall i a b, nth_error (sv_rows s) i = Some a -> nth_error (sv_rows s) (S i) = Some b ->
     get_dogleg (st_inc a) (st_azi a) (st_inc b) (st_azi b) < PI) ->
  nth_error (sv_rows s) 0 = Some first -> nth_error (sv_rows s) (pred (length (sv_rows s))) = Some last ->
  add_survey_points s wb st = (inl t, h') ->
  sv_header t = h' /\ never_decreasing (map st_md (sv_rows t)) /\ incl (sv_rows s) (sv_rows t) /\
  (exists bottoms, map (fun x => s_bottom (snd x)) (a_sections wb ++ a_sections st) = map Some bottoms /\
     Permutation (map st_md (sv_rows t))
       (map st_md (sv_rows s) ++ map (Rmax (st_md first)) (absent (map st_md (sv_rows s)) bottoms))) /\
  length (sv_nev t) = length (sv_rows t) /\
  forall i a q, nth_error (sv_rows t) i = Some a -> nth_error (sv_nev t) i = Some q ->
    exists n hn, survey_interpolate_md s (st_md a) = NodeOk n hn /\
      nd_vec n = direction_nev (st_inc a) (st_azi a) /\ q = vsub (nd_pos n) sn.
Proof. exact merged_survey. Qed.
Print Assumptions C144_stations.
Theorem C144_outcome : forall h rows deg sx sn unit s wb st first last,
  Survey h rows deg sx sn unit = Some s ->
  strictly_increasing (map st_md (sv_rows s)) ->
  (forall i a b, nth_error (sv_rows s) i = Some a -> nth_error (sv_rows s) (S i) = Some b ->
     get_dogleg (st_inc a) (st_azi a) (st_inc b) (st_azi b) < PI) ->
  nth_error (sv_rows s) 0 = Some first -> nth_error (sv_rows s) (pred (length (sv_rows s))) = Some last ->
  let reachable := exists bottoms, map (fun x => s_bottom (snd x)) (a_sections wb ++ a_sections st) = map Some bottoms /\
     Forall (fun d => d <= st_md last) bottoms in
  ((exists t, fst (add_survey_points s wb st) = inl t) <-> unit = "meters"%string /\ reachable) /\
  (reachable -> snd (add_survey_points s wb st) =
     mkHeader RefGrid (h_convergence h) (h_declination h) (h_gsf h) (h_vs_azimuth h) (h_unit h)).
Proof. exact merged_outcome. Qed.
Print Assumptions C144_outcome.
Theorem C144_index : forall t b k, never_decreasing (map st_md (sv_rows t)) ->
  string_index t b = Some k <->
  exists j, k = S j /\ nth_error (map st_md (sv_rows t)) j = Some b /\
    forall i d, nth_error (map st_md (sv_rows t)) i = Some d -> (i < j)%nat <-> d < b.
Proof. exact index_of_bottom. Qed.
Print Assumptions C144_index.
(** the depths of the stations need not be distinct: a casing and a string with the same bottom *)
Theorem C144_distinct_refuted : exists s t h', vertical "meters" s /\
  add_survey_points s (set_at WellBore TopDown 50) (set_at BHA BottomUp 50) = (inl t, h') /\
  map st_md (sv_rows t) = [0; 50; 50; 100] /\ string_index t 50 = Some 2%nat /\
  h_ref (sv_header s) = RefTrue /\ h_ref h' = RefGrid.
Proof. exact repeated_bottom. Qed.
Print Assumptions C144_distinct_refuted.
(** a survey in feet fails, and its header is changed all the same *)
Theorem C144_feet_refuted : exists s e h', vertical "feet" s /\
  add_survey_points s (set_at WellBore TopDown 50) (set_at BHA BottomUp 80) = (inr e, h') /\
  h_ref (sv_header s) = RefTrue /\ h_ref h' = RefGrid.
Proof. exact feet_fail. Qed.
Print Assumptions C144_feet_refuted.
(** the hypotheses are met by a vertical well of 100 m *)
Example C144_case : exists s, vertical "meters" s /\ strictly_increasing (map st_md (sv_rows s)) /\
  (forall i a b, nth_error (sv_rows s) i = Some a -> nth_error (sv_rows s) (S i) = Some b ->
     get_dogleg (st_inc a) (st_azi a) (st_inc b) (st_azi b) < PI) /\ nth_error (sv_rows s) 0 = Some (mkSt 0 0 0).
Proof.
  destruct (vertical_some "meters" (or_introl eq_refl)) as [s HS]. exists s. destruct (vertical_ok _ _ HS) as (A & B & C & _). auto.
Qed.
