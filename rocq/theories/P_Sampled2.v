(** A well that builds steadily. *)
Require Import Reals ZArith Bool String List Lra Lia Psatz.
Require Import Verif.Base Verif.NumPy Verif.Spec Verif.Spec_Lists Verif.M_Utils Verif.M_Survey Verif.Spec_Length Verif.Spec_Missed Verif.Spec_Sampled.
Require Import Verif.P_Trig Verif.P_Utils Verif.P_Utils2 Verif.P_Utils3 Verif.P_Survey Verif.P_Survey2 Verif.P_Survey5 Verif.P_Length Verif.P_Missed Verif.P_Sampled.
Import ListNotations.
Local Open Scope R_scope.

Definition build_dir (s : R) : V3 := mkV (sin (s / 200)) 0 (cos (s / 200)).
Definition build_pos (s : R) : V3 := mkV (200 * (1 - cos (s / 200))) 0 (200 * sin (s / 200)).
Lemma over_200 s : derivable_pt_lim (fun x => x / 200) s (1 / 200).
Proof.
  replace (1 / 200) with (1 * / 200 + s * 0) by field. apply (derivable_pt_lim_mult (fun x => x) (fun _ => / 200)); [apply derivable_pt_lim_id|apply derivable_pt_lim_const].
Qed.
Lemma build_drilled : drilled build_pos build_dir.
Proof.
  intros s. split.
  { unfold is_unit, dot, build_dir. simpl. pose proof (sin2_cos2 (s / 200)) as E. unfold Rsqr in E. lra. }
  unfold build_pos, build_dir. cbn [vx vy vz].
  assert (C : derivable_pt_lim (fun x => cos (x / 200)) s (- sin (s / 200) * (1 / 200))) by (apply (derivable_pt_lim_comp (fun x => x / 200) cos); [apply over_200|apply derivable_pt_lim_cos]).
  assert (S : derivable_pt_lim (fun x => sin (x / 200)) s (cos (s / 200) * (1 / 200))) by (apply (derivable_pt_lim_comp (fun x => x / 200) sin); [apply over_200|apply derivable_pt_lim_sin]).
  split; [|split].
  - replace (sin (s / 200)) with (200 * (0 - - sin (s / 200) * (1 / 200))) by field.
    apply (derivable_pt_lim_scal (fun x => 1 - cos (x / 200)) 200). apply (derivable_pt_lim_minus (fun _ => 1) (fun x => cos (x / 200))); [apply derivable_pt_lim_const|exact C].
  - apply derivable_pt_lim_const.
  - replace (cos (s / 200)) with (200 * (cos (s / 200) * (1 / 200))) by field. apply (derivable_pt_lim_scal (fun x => sin (x / 200)) 200), S.
Qed.
Lemma build_turns : turns_at_most (1 / 200) build_dir.
Proof.
  intros s s' L. destruct (Rle_dec (1 / 200 * (s' - s)) PI) as [B|B].
  - exists (1 / 200 * (s' - s)). split; [|lra]. split; [lra|]. unfold dot, build_dir. simpl.
    replace (1 / 200 * (s' - s)) with (s' / 200 - s / 200) by field. rewrite cos_minus. ring.
  - pose proof (COS_bound (1 / 200 * (s' - s))) as [B1 B2]. exists (acos (dot (build_dir s) (build_dir s'))).
    assert (E : dot (build_dir s) (build_dir s') = cos (1 / 200 * (s' - s))).
    { replace (1 / 200 * (s' - s)) with (s' / 200 - s / 200) by field. rewrite cos_minus. unfold dot, build_dir. simpl. ring. }
    rewrite E. pose proof (acos_bound (cos (1 / 200 * (s' - s)))). split; [|lra]. split; [assumption|]. rewrite cos_acos by (split; assumption). symmetry. exact E.
Qed.
Lemma build_measured : exists s, surveyed s /\ spacing s 100 /\ measures s build_pos build_dir /\ length (sv_rows s) = 3%nat.
Proof.
  destruct build_survey as (s & H & R). exists s. destruct build_ok as [F N].
  split. { split; [repeat eexists; exact H|]. rewrite R. split; [simpl; lra|]. rewrite <- R in N. intros k a b A B. rewrite <- R in A, B. apply below_PI. apply (N k a b A B). }
  split. { unfold spacing. rewrite R. intros [|[|k]] a b A B; simpl in A, B; [| |destruct k; discriminate]; injection A as <-; injection B as <-; cbn; lra. }
  split; [|rewrite R; reflexivity]. split.
  - intros a p A P. pose proof (Survey_intervals _ _ _ _ _ _ _ H) as (_ & Z & _). rewrite Z in P. injection P as <-. rewrite R in A. simpl in A. injection A as <-. cbn [st_md].
    unfold build_pos, vzero. replace (0 / 200) with 0 by field. rewrite cos_0, sin_0. f_equal; ring.
  - rewrite R. intros k a A. unfold heading, direction_nev, build_dir.
    destruct k as [|[|[|k]]]; simpl in A; [| | |destruct k; discriminate]; injection A as <-; cbn [st_md st_inc st_azi];
      [replace (0 / 200) with 0 by field|replace (100 / 200) with (1 / 2) by field|replace (200 / 200) with 1 by field]; rewrite cos_0, sin_0; f_equal; ring.
Qed.
