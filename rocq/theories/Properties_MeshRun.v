(** Property theorems C125: what a run of the mesh method reports. *)
Require Import Reals ZArith Lra Psatz Lia Bool String List.
Require Import Verif.Base Verif.NumPy Verif.Spec Verif.Spec_Lists Verif.Spec_Clearance Verif.M_Utils Verif.M_Survey Verif.M_Error Verif.M_Clearance
  Verif.M_MaxCurve Verif.M_Refine Verif.Spec_Frames Verif.M_MeshRun Verif.Spec_MeshRun Verif.Spec_MeshFactor.
Require Import Verif.P_MeshRun Verif.P_MeshRun2 Verif.P_MeshRun3.
Import ListNotations.
Local Open Scope R_scope.

(** * C125 *)
Theorem C125_sections : forall opt c query shared ref off rr ro, built ref -> built off ->
  length rr = length (sv_rows ref) -> length ro = length (sv_rows off) ->
  exists rows, mesh_clearance opt c query shared ref off rr ro = Some rows /\ length rows = (length (sv_rows ref) - 1)%nat /\
    forall i m a b p q, nth_error rows i = Some m ->
      nth_error (sv_rows ref) i = Some a -> nth_error (sv_rows ref) (S i) = Some b ->
      nth_error (sv_nev ref) i = Some p -> nth_error (sv_nev ref) (S i) = Some q ->
      exists s, section_of s a b p q (match i with O => misread (sv_header ref) | S _ => 0 end) /\ mr_collides m = an_collides (query i s).
Proof. exact mesh_queries. Qed.
Print Assumptions C125_sections.
Theorem C125_reported : forall opt c query shared ref off rr ro i a b p q, built ref -> built off ->
  strictly_increasing (map st_md (sv_rows ref)) -> strictly_increasing (map st_md (sv_rows off)) ->
  no_reversal ref -> no_reversal off -> never_worse opt ->
  length rr = length (sv_rows ref) -> length ro = length (sv_rows off) ->
  (0 < i)%nat \/ (h_ref (sv_header ref) = RefGrid /\ h_ref (sv_header off) = RefGrid) ->
  nth_error (sv_rows ref) i = Some a -> nth_error (sv_rows ref) (S i) = Some b ->
  nth_error (sv_nev ref) i = Some p -> nth_error (sv_nev ref) (S i) = Some q ->
  exists rows m s, mesh_clearance opt c query shared ref off rr ro = Some rows /\ nth_error rows i = Some m /\ section_of s a b p q 0 /\
    let an := query i s in
    mr_collides m = an_collides an /\
    st_md a <= mr_ref_md m <= st_md b /\ on_well ref (mr_ref_md m) (mr_ref_nev m) /\
    (forall y, on_well ref (halfway a b) y -> dist (mr_ref_nev m) (an_ref an) <= dist y (an_ref an)) /\
    (exists o, nth_error (sv_nev off) (mr_off_index m) = Some o /\
       forall k o', nth_error (sv_nev off) k = Some o' -> dist (an_off an) o <= dist (an_off an) o') /\
    (exists k u v, adjacent (mr_off_index m) k /\ nth_error (sv_rows off) k = Some u /\ nth_error (sv_rows off) (S k) = Some v /\
       st_md u <= mr_off_md m <= st_md v) /\ on_well off (mr_off_md m) (mr_off_nev m) /\
    (forall k u v y, adjacent (mr_off_index m) k -> nth_error (sv_rows off) k = Some u -> nth_error (sv_rows off) (S k) = Some v ->
       on_well off (halfway u v) y -> dist (mr_off_nev m) (an_off an) <= dist y (an_off an)) /\
    mr_distance_cc m = dist (mr_ref_nev m) (mr_off_nev m) /\
    reported_factor (an_collides an) (mr_distance_cc m) (an_distance an) (dist (an_ref an) (an_off an)) (mr_sf m) /\
    (exists ri, nth_error rr i = Some ri /\ exists rj, nth_error ro (mr_off_index m) = Some rj /\
       mr_calc_hole m = ri + rj /\
       mr_ref_pcr m = (dist (mr_ref_nev m) (an_ref an) - ms_sigma_pa c / 2 - ri) / ms_sigma c /\
       mr_off_pcr m = (dist (mr_off_nev m) (an_off an) - ms_sigma_pa c / 2 - rj - ms_Sm c) / ms_sigma c).
Proof. exact mesh_reported_plainly. Qed.
Print Assumptions C125_reported.
Theorem C125_bearing : forall opt c query shared ref off rr ro rows i m, built ref -> built off ->
  length rr = length (sv_rows ref) -> length ro = length (sv_rows off) ->
  mesh_clearance opt c query shared ref off rr ro = Some rows -> nth_error rows i = Some m ->
  0 <= mr_bearing m < 360 /\ exists r, 0 <= r /\
    vx (mr_off_nev m) - vx (mr_ref_nev m) = r * cos (radians (mr_bearing m)) /\
    vy (mr_off_nev m) - vy (mr_ref_nev m) = r * sin (radians (mr_bearing m)).
Proof. exact mesh_bearing. Qed.
Print Assumptions C125_bearing.
Theorem C125_first_section_refuted : forall w c query shared, 0 < w < PI ->
  exists opt ref off rr ro m rest, never_worse opt /\ built ref /\ built off /\
    strictly_increasing (map st_md (sv_rows ref)) /\ no_reversal ref /\
    length rr = length (sv_rows ref) /\ length ro = length (sv_rows off) /\
    h_ref (sv_header ref) = RefTrue /\ h_convergence (sv_header ref) = w /\
    mesh_clearance opt c query shared ref off rr ro = Some (m :: rest) /\
    mr_ref_md m = 50 /\ (exists y, on_well ref 50 y) /\
    forall y, on_well ref 50 y -> dist y (mr_ref_nev m) = 100 * sin (w / 2).
Proof. exact mesh_first_refuted. Qed.
Print Assumptions C125_first_section_refuted.
Theorem C125_without_data : forall query ref, built ref ->
  length (mesh_collisions query ref) = (length (sv_rows ref) - 1)%nat /\
  forall i a b p q, nth_error (sv_rows ref) i = Some a -> nth_error (sv_rows ref) (S i) = Some b ->
    nth_error (sv_nev ref) i = Some p -> nth_error (sv_nev ref) (S i) = Some q ->
    exists s, section_of s a b p q (misread (sv_header ref)) /\ nth_error (mesh_collisions query ref) i = Some (Some (an_collides (query i s))).
Proof. exact mesh_queries_only. Qed.
Print Assumptions C125_without_data.
(** a vertical reference well of two sections and a horizontal offset well *)
Example C125_case : exists ref off opt, built ref /\ built off /\ never_worse opt /\
  strictly_increasing (map st_md (sv_rows ref)) /\ strictly_increasing (map st_md (sv_rows off)) /\ no_reversal ref /\ no_reversal off /\
  h_ref (sv_header ref) = RefGrid /\ h_ref (sv_header off) = RefGrid /\
  length (sv_rows ref) = 3%nat /\ length (sv_rows off) = 2%nat.
Proof. exact mesh_case. Qed.
