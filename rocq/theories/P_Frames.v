(** C124: clearance does not depend on the frame. *)
Require Import Reals Lra Psatz Lia ZArith Bool String List FunctionalExtensionality.
Require Import Verif.Base Verif.NumPy Verif.P_Trig Verif.Spec Verif.Spec_Lists Verif.M_Utils Verif.P_Utils
  Verif.P_Utils2 Verif.M_Survey Verif.P_Survey Verif.P_Survey2 Verif.M_Error Verif.M_Clearance Verif.M_MaxCurve Verif.M_Refine
  Verif.Spec_Refine Verif.P_Refine Verif.P_Refine2 Verif.Spec_Frames.
Import ListNotations.
Local Open Scope R_scope.

Lemma mv_add : forall Q u v, mv Q (vadd u v) = vadd (mv Q u) (mv Q v).
Proof. intros [[] [] []] [] []; unf; apply V3_eq; simpl; ring. Qed.
Lemma mv_scale : forall Q k v, mv Q (vscale k v) = vscale k (mv Q v).
Proof. intros [[] [] []] k []; unf; apply V3_eq; simpl; ring. Qed.
Lemma mv_zero : forall Q, mv Q vzero = vzero.
Proof. intros [[] [] []]; unf; apply V3_eq; simpl; ring. Qed.
Lemma mv_trans : forall Q u v, dot (mv (mtrans Q) u) v = dot u (mv Q v).
Proof. intros [[] [] []] [] []; unf; simpl; ring. Qed.
Lemma iso_back : forall Q v, isometry Q -> mv (mtrans Q) (mv Q v) = v.
Proof.
  intros Q v I.
  assert (H : forall w, dot (mv (mtrans Q) (mv Q v)) w = dot v w) by (intro w; rewrite mv_trans; apply I).
  pose proof (H (mkV 1 0 0)) as H1. pose proof (H (mkV 0 1 0)) as H2. pose proof (H (mkV 0 0 1)) as H3. clear H.
  destruct (mv (mtrans Q) (mv Q v)) as [a b c], v as [x y z]. unfold dot in *; simpl in *. apply V3_eq; simpl; lra.
Qed.
Lemma iso_norm : forall Q v, isometry Q -> norm (mv Q v) = norm v.
Proof. intros Q v I. unfold norm. rewrite I. reflexivity. Qed.
Lemma moved_sub : forall Q t p q, vsub (moved Q t p) (moved Q t q) = mv Q (vsub p q).
Proof. intros [[] [] []] [] [] []; unfold moved; unf; apply V3_eq; simpl; ring. Qed.
Lemma moved_add : forall Q t p d, vadd (moved Q t p) (mv Q d) = moved Q t (vadd p d).
Proof. intros [[] [] []] [] [] []; unfold moved; unf; apply V3_eq; simpl; ring. Qed.
Lemma mm_mv : forall A B v, mv (mm A B) v = mv A (mv B v).
Proof. intros [[] [] []] [[] [] []] []; unf; apply V3_eq; simpl; ring. Qed.
Lemma cov_iso : forall Q m v, isometry Q -> qform (mm (mm Q m) (mtrans Q)) (mv Q v) = qform m v.
Proof.
  intros Q m v I. unfold qform. rewrite !mm_mv, (iso_back Q v I), I. reflexivity.
Qed.
Lemma conj_add : forall Q a b, mm (mm Q (madd a b)) (mtrans Q) = madd (mm (mm Q a) (mtrans Q)) (mm (mm Q b) (mtrans Q)).
Proof. intros [[a1 a2 a3] [b1 b2 b3] [c1 c2 c3]] [[] [] []] [[] [] []]. unfold mm, mtrans, madd, vrow_m, dot, vadd, col1, col2, col3; simpl.
  f_equal; f_equal; ring. Qed.
Lemma conj_scale : forall Q k a, mm (mm Q (mscale k a)) (mtrans Q) = mscale k (mm (mm Q a) (mtrans Q)).
Proof. intros [[a1 a2 a3] [b1 b2 b3] [c1 c2 c3]] k [[] [] []]. unfold mm, mtrans, mscale, vrow_m, dot, vscale, col1, col2, col3; simpl.
  f_equal; f_equal; ring. Qed.
Lemma msub_add : forall a b, msub a b = madd a (mscale (-1) b).
Proof. intros [[] [] []] [[] [] []]. unfold msub, madd, mscale, vsub, vadd, vscale; simpl. f_equal; f_equal; ring. Qed.
Lemma cov_interp : forall Q a b t, interpolate_cov (mm (mm Q a) (mtrans Q)) (mm (mm Q b) (mtrans Q)) t
  = mm (mm Q (interpolate_cov a b t)) (mtrans Q).
Proof. intros. unfold interpolate_cov. rewrite !msub_add, conj_add, conj_scale, conj_add, conj_scale. reflexivity. Qed.
Lemma cov_zero : forall Q, mm (mm Q mzero) (mtrans Q) = mzero.
Proof. intros [[] [] []]. unfold mm, mtrans, mzero, vzero, vrow_m, dot, col1, col2, col3; simpl. f_equal; f_equal; ring. Qed.

(** ** stations *)
Lemma moved_dir : forall Q a a', moved_station Q a a' -> dir a' = mv Q (dir a).
Proof. intros Q a a' [_ H]. exact H. Qed.
Lemma moved_dogleg : forall Q a a' b b', isometry Q -> moved_station Q a a' -> moved_station Q b b' ->
  pair_dogleg a' b' = pair_dogleg a b.
Proof.
  intros Q a a' b b' I A B. unfold pair_dogleg. apply (angle_between_unique (dir a') (dir b')); [apply dogleg_angle|].
  destruct (dogleg_angle (st_inc a) (st_azi a) (st_inc b) (st_azi b)) as [H E]. split; auto.
  rewrite (moved_dir _ _ _ A), (moved_dir _ _ _ B), I. exact E.
Qed.
Lemma moved_disp : forall Q d t u v, mc_disp d t (mv Q u) (mv Q v) = mv Q (mc_disp d t u v).
Proof. intros. unfold mc_disp. rewrite <- mv_add, mv_scale. reflexivity. Qed.
Lemma moved_step : forall Q a a' b b', isometry Q -> moved_station Q a a' -> moved_station Q b b' ->
  step_between a' b' = mv Q (step_between a b).
Proof.
  intros Q a a' b b' I A B. rewrite !step_between_disp, (moved_dogleg Q a a' b b') by auto.
  rewrite (moved_dir _ _ _ A), (moved_dir _ _ _ B), moved_disp. destruct A as [-> _], B as [-> _]. reflexivity.
Qed.
Lemma bend_iso : forall Q u v t, bend_normal (mv Q u) (mv Q v) t = mv Q (bend_normal u v t).
Proof.
  intros. unfold bend_normal. rewrite mv_scale. f_equal. rewrite <- mv_scale. 
  destruct Q as [[] [] []], v, (vscale (cos t) u); unf; apply V3_eq; simpl; ring.
Qed.
Lemma tangent_iso : forall Q u n t, arc_tangent (mv Q u) (mv Q n) t = mv Q (arc_tangent u n t).
Proof. intros. unfold arc_tangent. rewrite mv_add, !mv_scale. reflexivity. Qed.
