(** Dispatch, hold and minimum-curvature connections. *)
Require Import Reals ZArith Bool String List Lra Lia Psatz.
Require Import Verif.Base Verif.NumPy Verif.P_Trig Verif.Spec Verif.M_Utils Verif.P_Utils
  Verif.M_Survey Verif.M_Torque Verif.M_Connector Verif.Spec_Connector Verif.Spec_Connector2 Verif.P_Connector
  Verif.P_Connector2.
Import ListNotations.
Open Scope R_scope.

(** ** acceptance *)
Ltac acc_tail a :=
  cbn -[truthy];
  repeat match goal with
  | |- context [Rle_dec (a_md1 a) ?m] => destruct (Rle_dec (a_md1 a) m); cbn -[truthy]
  | |- context [Rlt_dec 0 ?d] => destruct (Rlt_dec 0 d); cbn -[truthy]
  | |- context [Rlt_dec (a_min_error a) 1] => destruct (Rlt_dec (a_min_error a) 1); cbn -[truthy]
  end;
  first
  [ solve [split; [discriminate |
      intros (_ & A & B & C & M & D & E); exfalso;
      solve [ destruct (B ltac:(discriminate)); congruence
            | destruct C; congruence
            | apply A; repeat split
            | specialize (M _ eq_refl); lra
            | specialize (D _ eq_refl); lra
            | lra ]]]
  | split; [intros _ | reflexivity];
    (split; [first [left; repeat split; congruence | right; repeat split; congruence]|]);
    (split; [intros (? & ? & ? & ? & ?); congruence|]);
    (split; [intro; repeat split; congruence|]);
    (split; [first [left; reflexivity | right; reflexivity]|]);
    (split; [intros ? X; first [discriminate | injection X as <-; auto]|]);
    (split; [intros ? X; first [discriminate | injection X as <-; auto]|]); auto ].
Lemma acceptance : forall a, check_args a = None <->
  ((a_vec1 a <> None /\ a_inc1 a = None /\ a_azi1 a = None) \/
   (a_vec1 a = None /\ a_inc1 a <> None /\ a_azi1 a <> None)) /\
  ~ (a_md2 a = None /\ a_pos2 a = None /\ a_vec2 a = None /\ a_inc2 a = None /\ a_azi2 a = None) /\
  (a_vec2 a <> None -> a_inc2 a = None /\ a_azi2 a = None) /\
  (a_md2 a = None \/ a_pos2 a = None) /\
  (forall m, a_md2 a = Some m -> a_md1 a <= m) /\
  (forall d, a_dls a = Some d -> 0 < d) /\
  a_min_error a < 1.
Proof.
  intro a. unfold check_args.
  destruct (a_vec1 a) as [v1|], (a_inc1 a) as [i1|], (a_azi1 a) as [z1|]; cbn -[truthy];
    (* wrong start: both sides are false *)
    try (split; [discriminate | intros ([[? [? ?]]|[? [? ?]]] & _); congruence]);
  destruct (a_md2 a) as [m2|], (a_pos2 a) as [p2|], (a_vec2 a) as [v2|];
  destruct (a_inc2 a) as [i2|], (a_azi2 a) as [z2|]; change (truthy None) with false; cbn -[truthy];
  try (match goal with |- context [truthy ?x] => destruct (truthy x) end; cbn -[truthy]);
  try (match goal with |- context [truthy ?x] => destruct (truthy x) end; cbn -[truthy]);
  destruct (a_dls a) as [d|]; acc_tail a.
Qed.

(** ** the method *)
Lemma vsub_zero : forall p q, norm (vsub q p) = 0 <-> q = p.
Proof.
  intros p q. split.
  - intro H. apply norm_eq0 in H. rewrite <- (vadd_vsub p q), H. apply vadd_0_r.
  - intros ->. rewrite vsub_self. apply norm_vzero.
Qed.
Lemma straight_test : forall a m,
  (if v3_eq_dec (target_vec a) (start_vec a) then
     match a_pos2 a with
     | None => inl "hold"%string
     | Some p =>
         match normalised (vsub p (a_pos1 a)) with
         | Some u => if allclose_dec (target_vec a) u then inl "hold"%string else inl m
         | None => inl m
         end
     end
   else inl m : string + cexn) = inl "hold"%string /\ straight a \/
  (if v3_eq_dec (target_vec a) (start_vec a) then
     match a_pos2 a with
     | None => inl "hold"%string
     | Some p =>
         match normalised (vsub p (a_pos1 a)) with
         | Some u => if allclose_dec (target_vec a) u then inl "hold"%string else inl m
         | None => inl m
         end
     end
   else inl m : string + cexn) = inl m /\ ~ straight a.
Proof.
  intros a m. unfold straight, normalised.
  destruct (v3_eq_dec (target_vec a) (start_vec a)) as [E|E]; [|right; tauto].
  destruct (a_pos2 a) as [p|].
  - destruct (Req_EM_T (norm (vsub p (a_pos1 a))) 0) as [Z|Z].
    + right. split; auto. intros (_ & H). destruct (H p eq_refl) as [N _]. apply N, vsub_zero, Z.
    + rewrite E. destruct (allclose_dec (start_vec a) (vunit (vsub p (a_pos1 a)))) as [A|A].
      * left. split; auto. split; auto. intros q H. injection H as <-. split; auto.
        intro Y. apply Z, vsub_zero, Y.
      * right. split; auto. intros (_ & H). destruct (H p eq_refl). tauto.
  - left. repeat split; auto; discriminate.
Qed.
Lemma only_md_straight : forall a, is_unit (start_vec a) -> a_pos2 a = None -> a_vec2 a = None ->
  a_inc2 a = None -> a_azi2 a = None -> straight a.
Proof.
  intros a U P V I Z. split; [|rewrite P; discriminate].
  unfold target_vec, target_vec0. rewrite V, I, Z.
  destruct (v3_eq_dec (start_vec a) (vneg (start_vec a))) as [Y|Y]; [|reflexivity].
  exfalso. unfold is_unit in U.
  assert (dot (start_vec a) (start_vec a) = - dot (start_vec a) (start_vec a))
    by (rewrite Y at 1; rewrite dot_vneg_l; reflexivity). lra.
Qed.
(** C32 *)
Lemma dispatch : forall a, check_args a = None -> is_unit (start_vec a) ->
  (straight a -> ~ never_hold a -> get_method a = inl "hold"%string) /\
  (~ straight a \/ never_hold a -> get_method a = inl (base_method a)).
Proof.
  intros a C U. apply acceptance in C. destruct C as (_ & T & VI & MP & _ & _ & _).
  unfold get_method, initial_method, base_method, never_hold, target_input.
  destruct (a_force a) eqn:F.
  - cbn -[v3_eq_dec allclose_dec normalised target_vec].
    destruct (straight_test a "min_curve") as [[-> S]|[-> S]]; split; intros; auto;
      try tauto; try (destruct H; [tauto|destruct H; discriminate]).
  - destruct (a_md2 a) as [m2|] eqn:M, (a_pos2 a) as [p2|] eqn:P, (a_vec2 a) as [v2|] eqn:V,
      (a_inc2 a) as [i2|] eqn:I, (a_azi2 a) as [z2|] eqn:Z;
    try (exfalso; destruct (VI ltac:(discriminate)); congruence);
    try (exfalso; destruct MP; congruence); try (exfalso; apply T; tauto);
    cbn -[v3_eq_dec allclose_dec normalised target_vec];
    try (pose proof (straight_test a "min_curve") as X);
    try (pose proof (straight_test a "curve_hold") as X1);
    try (pose proof (straight_test a "curve_hold_curve") as X2);
    rewrite P in X, X1, X2; unfold given;
    (split; intros; [| destruct H as [H|(H & H1 & H2 & H3)]]; auto; try congruence;
     try (destruct X as [[X Y]|[X Y]]; rewrite X; auto; tauto);
     try (destruct X1 as [[X1 Y]|[X1 Y]]; rewrite X1; auto; tauto);
     try (destruct X2 as [[X2 Y]|[X2 Y]]; rewrite X2; auto; tauto)).
    all: try (exfalso; apply H0; repeat split; congruence).
    exfalso. apply H. apply only_md_straight; auto.
Qed.
