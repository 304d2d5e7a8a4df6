(** C125: the factor, stated without the functions of the model. *)
Require Import Reals Lra Lia ZArith Bool String List.
Require Import Verif.Base Verif.NumPy Verif.Spec Verif.Spec_Lists Verif.Spec_Clearance Verif.M_Utils Verif.M_Survey Verif.M_Error Verif.M_Clearance
  Verif.M_MaxCurve Verif.M_Refine Verif.Spec_Frames Verif.M_MeshRun Verif.Spec_MeshRun Verif.Spec_MeshFactor.
Require Import Verif.P_Trig Verif.P_Clearance Verif.P_Clearance3 Verif.P_MeshRun Verif.P_MeshRun2.
Import ListNotations.
Local Open Scope R_scope.

Lemma rint_tie : forall x, Rabs (x - IZR (rint x)) = 1 / 2 -> Z.even (rint x) = true.
Proof.
  intros x. unfold rint. pose proof (rfloor_spec x) as F. set (f := rfloor x) in *. clearbody f.
  destruct (Rlt_dec (x - IZR f) (1 / 2)) as [L|L].
  - intro H. rewrite Rabs_pos_eq in H; lra.
  - destruct (Rlt_dec (1 / 2) (x - IZR f)) as [L2|L2].
    + intro H. rewrite plus_IZR in H. rewrite Rabs_left in H; lra.
    + intros _. destruct (Z.even f) eqn:E; [exact E|]. rewrite Z.even_add, E. reflexivity.
Qed.
Lemma round2_decimals : forall x, two_decimals x (round2 x).
Proof.
  intro x. exists (rint (x * 100)). unfold round2. split; [reflexivity|].
  set (k := rint (x * 100)).
  assert (E : Rabs (x - IZR k / 100) = Rabs (x * 100 - IZR k) / 100).
  { replace (x - IZR k / 100) with ((x * 100 - IZR k) * / 100) by field. rewrite Rabs_mult, (Rabs_pos_eq (/ 100)) by lra. reflexivity. }
  rewrite E. split.
  - pose proof (rint_near (x * 100)) as N. rewrite Rabs_minus_sym in N. fold k in N. lra.
  - intro H. apply rint_tie. fold k. lra.
Qed.
Lemma round2_zero : round2 0 = 0.
Proof. unfold round2. rewrite (rint_val _ 0%Z) by lra. lra. Qed.
Lemma factor_reported : forall c cc gap depth, reported_factor c cc gap depth (eround2 (mesh_sf c cc gap depth)).
Proof.
  intros c cc gap depth. unfold reported_factor, mesh_sf. destruct c.
  - destruct (Req_EM_T cc 0) as [E|E]; [left; split; [auto|cbn; rewrite round2_zero; reflexivity]|].
    destruct (Req_EM_T depth 0) as [D|D]; [left; split; [auto|cbn; rewrite round2_zero; reflexivity]|].
    right. split; [exact E|]. split; [exact D|]. eexists. split; [apply round2_decimals|reflexivity].
  - cbv zeta. destruct (Req_EM_T (cc - gap) 0) as [E|E].
    + left. split; [lra|reflexivity].
    + right. split; [lra|]. eexists. split; [apply round2_decimals|reflexivity].
Qed.
Lemma mesh_reported_plainly : forall opt c query shared ref off rr ro i a b p q, built ref -> built off ->
  strictly_increasing (map st_md (sv_rows ref)) -> strictly_increasing (map st_md (sv_rows off)) ->
  no_reversal ref -> no_reversal off -> never_worse opt ->
  length rr = length (sv_rows ref) -> length ro = length (sv_rows off) ->
  (0 < i)%nat \/ (h_ref (sv_header ref) = RefGrid /\ h_ref (sv_header off) = RefGrid) ->
  nth_error (sv_rows ref) i = Some a -> nth_error (sv_rows ref) (S i) = Some b ->
  nth_error (sv_nev ref) i = Some p -> nth_error (sv_nev ref) (S i) = Some q ->
  exists rows m s, mesh_clearance opt c query shared ref off rr ro = Some rows /\ nth_error rows i = Some m /\ section_of s a b p q 0 /\
    let an := query i s in
    mr_collides m = an_collides an /\
    st_md a <= mr_ref_md m <= st_md b /\ on_well ref (mr_ref_md m) (mr_ref_nev m) /\
    (forall y, on_well ref (halfway a b) y -> dist (mr_ref_nev m) (an_ref an) <= dist y (an_ref an)) /\
    (exists o, nth_error (sv_nev off) (mr_off_index m) = Some o /\
       forall k o', nth_error (sv_nev off) k = Some o' -> dist (an_off an) o <= dist (an_off an) o') /\
    (exists k u v, adjacent (mr_off_index m) k /\ nth_error (sv_rows off) k = Some u /\ nth_error (sv_rows off) (S k) = Some v /\
       st_md u <= mr_off_md m <= st_md v) /\ on_well off (mr_off_md m) (mr_off_nev m) /\
    (forall k u v y, adjacent (mr_off_index m) k -> nth_error (sv_rows off) k = Some u -> nth_error (sv_rows off) (S k) = Some v ->
       on_well off (halfway u v) y -> dist (mr_off_nev m) (an_off an) <= dist y (an_off an)) /\
    mr_distance_cc m = dist (mr_ref_nev m) (mr_off_nev m) /\
    reported_factor (an_collides an) (mr_distance_cc m) (an_distance an) (dist (an_ref an) (an_off an)) (mr_sf m) /\
    (exists ri, nth_error rr i = Some ri /\ exists rj, nth_error ro (mr_off_index m) = Some rj /\
       mr_calc_hole m = ri + rj /\
       mr_ref_pcr m = (dist (mr_ref_nev m) (an_ref an) - ms_sigma_pa c / 2 - ri) / ms_sigma c /\
       mr_off_pcr m = (dist (mr_off_nev m) (an_off an) - ms_sigma_pa c / 2 - rj - ms_Sm c) / ms_sigma c).
Proof.
  intros opt c query shared ref off rr ro i a b p q BR BO SR SO NR NO NW LR LO CASE A B P Q.
  destruct (mesh_reported opt c query shared ref off rr ro i a b p q BR BO SR SO NR NO NW LR LO CASE A B P Q)
    as (rows & m & s & H1 & H2 & H3 & H4 & H5 & H6 & H7 & H8 & H9 & H10 & H11 & H12 & H13 & H14).
  exists rows, m, s. split; [exact H1|]. split; [exact H2|]. split; [exact H3|]. cbv zeta.
  split; [exact H4|]. split; [exact H5|]. split; [exact H6|]. split; [exact H7|]. split; [exact H8|]. split; [exact H9|].
  split; [exact H10|]. split; [exact H11|]. split; [exact H12|]. split; [|exact H14]. rewrite H13. apply factor_reported.
Qed.
