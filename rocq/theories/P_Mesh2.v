(** Rings, their alignment, the assembled mesh and slices. *)
Require Import Reals ZArith Bool String List Permutation Lra Lia Psatz.
Require Import Verif.Base Verif.NumPy Verif.Spec Verif.P_Trig Verif.M_Utils Verif.M_Mesh Verif.Spec_Mesh Verif.P_Mesh.
Import ListNotations.
Open Scope R_scope.

Lemma place_across : forall inc azi nev x y, place inc azi nev (x, y) = across inc azi nev x y.
Proof.
  intros. unfold place, across, HLA_to_NEV_vec, get_transform, high_side, lateral. destruct nev. unf. apply V3_eq; simpl; ring.
Qed.
Lemma hs_unit : forall i a, dot (high_side i a) (high_side i a) = 1.
Proof.
  intros. unfold high_side. unf. simpl. pose proof (sin2_cos2 i) as P. pose proof (sin2_cos2 a) as Q. unfold Rsqr in *.
  replace (cos i * cos a * (cos i * cos a) + cos i * sin a * (cos i * sin a) + - sin i * - sin i) with
    (cos i * cos i * (sin a * sin a + cos a * cos a) + sin i * sin i) by ring. rewrite Q. lra.
Qed.
Lemma lat_unit : forall a, dot (lateral a) (lateral a) = 1.
Proof. intros. unfold lateral. unf. simpl. pose proof (sin2_cos2 a) as Q. unfold Rsqr in *. lra. Qed.
Lemma hs_lat : forall i a, dot (high_side i a) (lateral a) = 0.
Proof. intros. unfold high_side, lateral. unf. simpl. ring. Qed.
Lemma hs_dir : forall i a, dot (high_side i a) (direction_nev i a) = 0.
Proof.
  intros. unfold high_side, direction_nev. unf. simpl. pose proof (sin2_cos2 a) as Q. unfold Rsqr in *.
  replace (cos i * cos a * (sin i * cos a) + cos i * sin a * (sin i * sin a) + - sin i * cos i) with
   (cos i * sin i * (sin a * sin a + cos a * cos a) - sin i * cos i) by ring. rewrite Q. ring.
Qed.
Lemma lat_dir : forall i a, dot (lateral a) (direction_nev i a) = 0.
Proof. intros. unfold lateral, direction_nev. unf. simpl. ring. Qed.
Lemma across_dist : forall inc azi nev x y x' y',
  dist (across inc azi nev x y) (across inc azi nev x' y') = sqrt ((x - x') ^ 2 + (y - y') ^ 2).
Proof.
  intros. unfold dist, norm. f_equal. unfold across. pose proof (hs_unit inc azi) as A. pose proof (lat_unit azi) as B. pose proof (hs_lat inc azi) as C.
  destruct (high_side inc azi) as [a b c], (lateral azi) as [d e f], nev as [u v w]. unf. simpl in *.
  transitivity ((x - x') ^ 2 * (a * a + b * b + c * c) + (y - y') ^ 2 * (d * d + e * e + f * f) + 2 * (x - x') * (y - y') * (a * d + b * e + c * f)).
  ring. rewrite A, B, C. ring.
Qed.
Lemma across_0 : forall inc azi nev, across inc azi nev 0 0 = nev.
Proof. intros. unfold across. destruct nev. unf. apply V3_eq; simpl; ring. Qed.
Lemma across_dir : forall inc azi nev x y, dot (vsub (across inc azi nev x y) nev) (direction_nev inc azi) = 0.
Proof.
  intros. unfold across. pose proof (hs_dir inc azi) as A. pose proof (lat_dir inc azi) as B.
  destruct (high_side inc azi) as [a b c], (lateral azi) as [d e f], nev as [u v w], (direction_nev inc azi) as [p q r]. unf. simpl in *.
  transitivity (x * (a * p + b * q + c * r) + y * (d * p + e * q + f * r)). ring. rewrite A, B. ring.
Qed.

Lemma linspace_nth : forall a b n k, (k < n)%nat -> nth_error (linspace a b n) k = Some (a + INR k * ((b - a) / INR n)).
Proof.
  intros. unfold linspace. rewrite nth_error_map. rewrite (nth_error_nth' _ 0%nat) by (rewrite seq_length; auto).
  rewrite seq_nth by auto. reflexivity.
Qed.
Lemma linspace_len : forall a b n, length (linspace a b n) = n.
Proof. intros. unfold linspace. rewrite map_length, seq_length. reflexivity. Qed.
Lemma circle_spec : forall n radius inc azi nev, length (circle_ring n radius inc azi nev) = n /\
  forall k, (k < n)%nat -> exists p q,
    nth_error (circle_ring n radius inc azi nev) k = Some p /\
    nth_error (circle_ring n radius inc azi nev) (if (S k =? n)%nat then 0%nat else S k) = Some q /\
    dist p nev = Rabs radius /\ dot (vsub p nev) (direction_nev inc azi) = 0 /\
    dist q p = 2 * Rabs radius * sin (PI / INR n).
Proof.
  intros. unfold circle_ring. split. rewrite map_length. apply linspace_len.
  intros k Hk. set (f := fun lam => place inc azi nev (radius * cos lam, radius * sin lam)).
  assert (N : forall m, (m < n)%nat -> nth_error (map f (linspace 0 (2 * PI) n)) m = Some (f (0 + INR m * ((2 * PI - 0) / INR n)))).
  { intros m Hm. rewrite nth_error_map, linspace_nth by auto. reflexivity. }
  set (k' := if (S k =? n)%nat then 0%nat else S k).
  assert (Hk' : (k' < n)%nat). { unfold k'. destruct (Nat.eqb_spec (S k) n); lia. }
  exists (f (0 + INR k * ((2 * PI - 0) / INR n))), (f (0 + INR k' * ((2 * PI - 0) / INR n))).
  split; [apply N; auto|]. split; [apply N; auto|]. unfold f. rewrite !place_across.
  split; [|split].
  - rewrite <- (across_0 inc azi nev) at 2. rewrite across_dist. rewrite !Rminus_0_r.
    set (t := 0 + INR k * (2 * PI / INR n)). replace ((radius * cos t) ^ 2 + (radius * sin t) ^ 2) with (Rsqr radius).
    apply sqrt_Rsqr_abs. unfold Rsqr. pose proof (sin2_cos2 t) as P. unfold Rsqr in P.
    transitivity (radius * radius * (sin t * sin t + cos t * cos t)). rewrite P; ring. ring.
  - apply across_dir.
  - rewrite across_dist. set (t := 0 + INR k * ((2 * PI - 0) / INR n)). set (t' := 0 + INR k' * ((2 * PI - 0) / INR n)).
    assert (Np : 0 < INR n) by (apply lt_0_INR; lia).
    assert (E : cos (t' - t) = cos (2 * (PI / INR n))).
    { unfold t', t, k'. destruct (Nat.eqb_spec (S k) n) as [e|e].
      - replace (INR k) with (INR n - 1) by (rewrite <- e, S_INR; ring).
        transitivity (cos (2 * (PI / INR n) + 2 * INR 0 * PI - 2 * PI)). f_equal. simpl. field. lra.
        replace (2 * (PI / INR n) + 2 * INR 0 * PI - 2 * PI) with (2 * (PI / INR n) - 2 * PI) by (simpl; ring).
        rewrite <- (cos_period _ 1). simpl INR. f_equal. ring.
      - f_equal. rewrite S_INR. field. lra. }
    assert (S0 : 0 <= sin (PI / INR n)).
    { apply sin_ge_0. apply Rlt_le, Rdiv_lt_0_compat; [apply PI_RGT_0|auto].
      apply (Rmult_le_reg_r (INR n)); auto. unfold Rdiv. rewrite Rmult_assoc, Rinv_l by lra.
      pose proof PI_RGT_0. assert (1 <= INR n) by (apply (le_INR 1); lia). nra. }
    replace ((radius * cos t' - radius * cos t) ^ 2 + (radius * sin t' - radius * sin t) ^ 2)
      with (Rsqr (2 * Rabs radius * sin (PI / INR n))).
    apply sqrt_Rsqr. pose proof (Rabs_pos radius). apply Rmult_le_pos; [lra|auto].
    rewrite cos_minus, cos_2a_sin in E. unfold Rsqr.
    pose proof (sin2_cos2 t) as P. pose proof (sin2_cos2 t') as P'. unfold Rsqr in P, P'.
    assert (Ab : Rabs radius * Rabs radius = radius * radius). { rewrite <- Rabs_mult. apply Rabs_right. nra. }
    set (s := sin (PI / INR n)) in *. clearbody s t t'.
    transitivity (4 * (Rabs radius * Rabs radius) * s * s). ring. rewrite Ab.
    transitivity (radius * radius * ((sin t' * sin t' + cos t' * cos t') + (sin t * sin t + cos t * cos t) - 2 * (cos t' * cos t + sin t' * sin t))).
    rewrite E, P, P'. ring. ring.
Qed.

Lemma ellipse_spec : forall n h l e0 e1 inc azi nev p, e0 ^ 2 + e1 ^ 2 = 1 -> In p (ellipse_ring n h l e0 e1 inc azi nev) ->
  exists x y, p = across inc azi nev x y /\
    l ^ 2 * (x * e0 + y * e1) ^ 2 + h ^ 2 * (y * e0 - x * e1) ^ 2 = h ^ 2 * l ^ 2.
Proof.
  intros n h l e0 e1 inc azi nev p U I. apply in_map_iff in I. destruct I as (lam & <- & _).
  unfold ellipse_point. 
  assert (CS : cos (arctan2 e1 e0) = e0 /\ sin (arctan2 e1 e0) = e1).
  { destruct (arctan2_cos_sin e1 e0) as [A B].
    replace (e0 * e0 + e1 * e1) with 1 in * by (rewrite <- U; ring). rewrite sqrt_1 in *. lra. }
  destruct CS as [-> ->]. eexists; eexists. split; [apply place_across|].
  pose proof (sin2_cos2 lam) as P. unfold Rsqr in P. set (c := cos lam) in *; set (s := sin lam) in *; clearbody c s.
  transitivity (h ^ 2 * l ^ 2 * (s * s + c * c) * ((e0 ^ 2 + e1 ^ 2) ^ 2)). ring. rewrite P, U. ring.
Qed.

(** ** pedal curve *)
Lemma pedal_den : forall h l c s, 0 < h -> 0 < l -> s * s + c * c = 1 -> 0 < l ^ 2 * c ^ 2 + h ^ 2 * s ^ 2.
Proof.
  intros h l c s Hh Hl E. assert (0 < h ^ 2) by (apply pow_lt; auto). assert (0 < l ^ 2) by (apply pow_lt; auto).
  destruct (Req_dec c 0) as [->|N]. assert (s ^ 2 = 1) by (simpl; lra). rewrite H1. nra.
  assert (0 < c ^ 2) by (simpl; rewrite Rmult_1_r; apply Rlt_0_sqr; auto). pose proof (pow2_ge_0 s). nra.
Qed.
Lemma pedal_ring_spec : forall n h l inc azi nev p, 0 < h -> 0 < l -> In p (pedal_ring n h l inc azi nev) ->
  exists x y lam, p = across inc azi nev x y /\
    (* the foot of the perpendicular on the tangent of the ellipse at lam *)
    (exists t, x = h * cos lam - t * (h * sin lam) /\ y = l * sin lam + t * (l * cos lam)) /\
    x * (h * sin lam) = y * (l * cos lam) /\
    (* the furthest the ellipse reaches in that direction, attained at lam *)
    (forall u v, in_ellipse h l u v -> x * u + y * v <= x ^ 2 + y ^ 2) /\
    x * (h * cos lam) + y * (l * sin lam) = x ^ 2 + y ^ 2 /\
    0 < x ^ 2 + y ^ 2 /\
    (x ^ 2 + y ^ 2) ^ 2 = (h * x) ^ 2 + (l * y) ^ 2.
Proof.
  intros n h l inc azi nev p Hh Hl I. apply in_map_iff in I. destruct I as (lam & <- & _).
  unfold pedal_point. pose proof (sin2_cos2 lam) as P. unfold Rsqr in P.
  pose proof (pedal_den h l (cos lam) (sin lam) Hh Hl P) as D.
  eexists; eexists; exists lam. split; [apply place_across|].
  set (c := cos lam) in *; set (s := sin lam) in *; clearbody c s.
  set (d := l ^ 2 * c ^ 2 + h ^ 2 * s ^ 2) in *.
  assert (Hd : l ^ 2 * c ^ 2 + h ^ 2 * s ^ 2 = d) by reflexivity. clearbody d.
  assert (N : h * (l ^ 2 * c / d) * (h * (l ^ 2 * c / d)) + l * (h ^ 2 * s / d) * (l * (h ^ 2 * s / d)) = h ^ 2 * l ^ 2 / d).
  { replace (h * (l ^ 2 * c / d) * (h * (l ^ 2 * c / d)) + l * (h ^ 2 * s / d) * (l * (h ^ 2 * s / d)))
      with (h ^ 2 * l ^ 2 * (l ^ 2 * c ^ 2 + h ^ 2 * s ^ 2) / (d * d)) by (field; lra). rewrite Hd. field. lra. }
  assert (N' : (h * (l ^ 2 * c / d)) ^ 2 + (l * (h ^ 2 * s / d)) ^ 2 = h ^ 2 * l ^ 2 / d) by (rewrite <- N; ring).
  rewrite N'. split; [|split; [|split; [|split; [|split]]]].
  - exists ((h ^ 2 - l ^ 2) * c * s / d). split.
    + apply (Rmult_eq_reg_r d); [|lra]. field_simplify; [|lra|lra].
      rewrite <- Hd. replace (c ^ 3) with (c * (1 - s * s)) by (rewrite <- P; ring). ring_simplify.
      replace (c ^ 3) with (c * (1 - s * s)) by (rewrite <- P; ring). ring.
    + apply (Rmult_eq_reg_r d); [|lra]. field_simplify; [|lra|lra].
      rewrite <- Hd. ring_simplify. replace (s ^ 3) with (s * (1 - c * c)) by (rewrite <- P; ring). ring.
  - field. lra.
  - intros u v E. unfold in_ellipse in E. set (a := u / h) in *. set (b := v / l) in *.
    assert (Eu : u = h * a) by (unfold a; field; lra). assert (Ev : v = l * b) by (unfold b; field; lra). clearbody a b. subst u v.
    replace (h * (l ^ 2 * c / d) * (h * a) + l * (h ^ 2 * s / d) * (l * b)) with ((c * a + s * b) * (h ^ 2 * l ^ 2 / d)) by (field; lra).
    assert (c * a + s * b <= 1) by (pose proof (pow2_ge_0 (c - a)); pose proof (pow2_ge_0 (s - b)); nra).
    assert (0 < h ^ 2 * l ^ 2 / d). { apply Rdiv_lt_0_compat; auto. apply Rmult_lt_0_compat; apply pow_lt; auto. }
    nra.
  - transitivity (h ^ 2 * l ^ 2 / d * (s * s + c * c)). field. lra. rewrite P. ring.
  - apply Rdiv_lt_0_compat; auto. apply Rmult_lt_0_compat; apply pow_lt; auto.
  - transitivity (h ^ 4 * l ^ 4 / d ^ 2 * (s * s + c * c)). rewrite P. field. lra. field. lra.
Qed.

(** ** alignment *)
Open Scope nat_scope.
Lemma align_ring_cycle : forall A (query : list A -> list A -> A -> nat) prev verts out,
  (forall p v x, query p v x < length v) -> align_ring query prev verts = Some out -> same_cycle verts out.
Proof.
  intros A query prev verts out Q H. unfold align_ring in H.
  destruct (nth_error prev 0) as [key|]; [|discriminate]. destruct (nth_error prev 3) as [ro|]; [|discriminate].
  injection H; intro E; clear H. exists (query prev verts key). split. apply Nat.lt_le_incl, Q.
  destruct (_ && _)%bool; subst out; auto.
Qed.
Lemma align_from_cycle : forall A (query : list A -> list A -> A -> nat), (forall p v x, query p v x < length v) ->
  forall rings prev out, align_from query prev rings = Some out -> Forall2 same_cycle rings out.
Proof.
  intros A query Q. induction rings as [|v r IH]; intros prev out H; simpl in H.
  - injection H; intros; subst. constructor.
  - destruct (align_ring query prev v) as [v'|] eqn:E; [|discriminate].
    destruct (align_from query v' r) as [r'|] eqn:E'; [|discriminate]. injection H; intro; subst. constructor.
    eapply align_ring_cycle; eauto. eapply IH; eauto.
Qed.
Lemma same_cycle_refl : forall A (l : list A), same_cycle l l.
Proof. intros. exists 0. split; [lia|]. left. simpl. rewrite app_nil_r. reflexivity. Qed.
Lemma align_cycles : forall A (query : list A -> list A -> A -> nat) rings out,
  (forall p v x, query p v x < length v) -> align_verts query rings = Some out -> Forall2 same_cycle rings out.
Proof.
  intros A query [|v r] out Q H; simpl in H. injection H; intros; subst; constructor.
  destruct (align_from query v r) as [r'|] eqn:E; [|discriminate]. injection H; intro; subst. constructor.
  apply same_cycle_refl. eapply align_from_cycle; eauto.
Qed.
Lemma same_cycle_perm : forall A (a b : list A), same_cycle a b -> Permutation a b.
Proof.
  intros A a b (k & _ & [-> | ->]).
  - rewrite <- (firstn_skipn k a) at 1. apply Permutation_app_comm.
  - eapply Permutation_trans; [|apply Permutation_rev]. rewrite <- (firstn_skipn k a) at 1. apply Permutation_app_comm.
Qed.
Lemma align_ring_len : forall A (query : list A -> list A -> A -> nat) prev verts,
  (align_ring query prev verts = None <-> length prev < 4).
Proof.
  intros. unfold align_ring. destruct prev as [|a [|b [|c [|d r]]]]; simpl; split; intro H; auto; try lia; discriminate.
Qed.
Lemma align_fails : forall A (query : list A -> list A -> A -> nat) n rings,
  (forall p v x, query p v x < length v) -> Forall (fun v => length v = n) rings ->
  (align_verts query rings = None <-> n < 4 /\ 2 <= length rings).
Proof.
  intros A query n rings Q F.
  assert (G : forall r prev, length prev = n -> Forall (fun v => length v = n) r -> (align_from query prev r = None <-> n < 4 /\ 1 <= length r)).
  { clear F. induction r as [|v r IH]; intros prev L F; simpl.
    - split; [discriminate|lia].
    - inversion F; subst. destruct (align_ring query prev v) as [v'|] eqn:E.
      + assert (~ length prev < 4) by (rewrite <- (align_ring_len _ query prev v), E; discriminate).
        assert (Lv : length v' = length prev).
        { apply align_ring_cycle in E; auto. apply same_cycle_perm, Permutation_length in E. lia. }
        destruct (align_from query v' r) eqn:E'; [split; [discriminate|lia]|].
        apply (IH v') in E'; auto. lia.
      + apply align_ring_len in E. split; [lia|auto]. }
  destruct rings as [|v r]; simpl. split; [discriminate|lia].
  inversion F as [|? ? Lv Fr]; subst. specialize (G r v eq_refl Fr).
  destruct (align_from query v r).
  - split; [discriminate|]. intros [X Y]. assert (Z : length v < 4 /\ 1 <= length r) by lia. apply G in Z. discriminate.
  - split; auto. intros _. destruct G as [G _]. specialize (G eq_refl). lia.
Qed.
Lemma align_direction : forall A (query : list A -> list A -> A -> nat) prev verts key rot k r,
  nth_error prev 0 = Some key -> nth_error prev 3 = Some rot ->
  query prev verts key = k -> query prev verts rot = r -> k < length verts ->
  (r = (k + 3) mod length verts -> 6 <= length verts -> align_ring query prev verts = Some (skipn k verts ++ firstn k verts)) /\
  (r = (k + 3) mod length verts -> 4 <= length verts < 6 -> length verts <= k + 3 ->
     align_ring query prev verts = Some (rev (skipn k verts ++ firstn k verts))) /\
  (r = (k + length verts - 3) mod length verts -> 7 <= length verts ->
     align_ring query prev verts = Some (if 3 <=? k then rev (skipn k verts ++ firstn k verts) else skipn k verts ++ firstn k verts)).
Proof.
  intros A query prev verts key rot k r Hk Hr Ek Er Lk. unfold align_ring. rewrite Hk, Hr, Ek, Er.
  assert (M : forall x, length verts <= x < 2 * length verts -> x mod length verts = x - length verts).
  { intros x Hx. symmetry. apply (Nat.mod_unique _ _ 1); lia. }
  split; [|split].
  - intros -> L. replace (_ && _)%bool with false; auto. symmetry. apply andb_false_iff.
    destruct (Nat.lt_ge_cases (k + 3) (length verts)).
    + left. rewrite Nat.mod_small by auto. apply Z.ltb_ge. lia.
    + right. rewrite M by lia. apply Z.ltb_ge. lia.
  - intros -> L1 L2. rewrite M by lia. replace (_ && _)%bool with true; auto. symmetry. apply andb_true_iff.
    split; apply Z.ltb_lt; lia.
  - intros -> L. destruct (Nat.leb_spec 3 k).
    + rewrite M by lia. replace (_ && _)%bool with true; auto. symmetry. apply andb_true_iff. split; apply Z.ltb_lt; lia.
    + rewrite Nat.mod_small by lia. replace (_ && _)%bool with false; auto. symmetry. apply andb_false_iff. left. apply Z.ltb_ge. lia.
Qed.

(** ** the assembled mesh *)
Lemma concat_len : forall A n (l : list (list A)), Forall (fun v => length v = n) l -> length (concat l) = n * length l.
Proof. induction l; simpl; intros H; [lia|]. inversion H; subst. rewrite app_length, IHl by auto. lia. Qed.
Lemma concat_nth : forall A n (l : list (list A)), Forall (fun v => length v = n) l -> forall r ring a,
  nth_error l r = Some ring -> a < n -> nth_error (concat l) (r * n + a) = nth_error ring a.
Proof.
  induction l as [|v l IH]; intros F r ring a H La. destruct r; discriminate. inversion F; subst.
  destruct r; simpl in *.
  - injection H; intro; subst. rewrite nth_error_app1 by lia. reflexivity.
  - rewrite nth_error_app2 by lia. rewrite <- (IH H3 r ring a H La). f_equal. lia.
Qed.
Lemma mesh_vertices : forall A n (rings : list (list A)) nevs faces verts,
  3 <= n -> Forall (fun v => length v = n) rings -> length nevs = length rings -> 2 <= length rings ->
  make_mesh n rings nevs = Some (faces, verts) ->
  faces = get_faces n (length rings) /\ length verts = n * length rings + 2 /\
  (forall r ring a, nth_error rings r = Some ring -> a < n -> nth_error verts (r * n + a) = nth_error ring a) /\
  nth_error verts (n * length rings) = nth_error nevs 0 /\
  nth_error verts (n * length rings + 1) = nth_error nevs (length nevs - 1) /\
  (forall f v, In f faces -> In v (corners f) -> exists p, nth_error verts v = Some p).
Proof.
  intros A n rings nevs faces verts Hn F L R H. unfold make_mesh in H. destruct nevs as [|nev0 rest] eqn:En; [discriminate|].
  rewrite <- En in *. injection H; intros E1 E2; clear H.
  assert (Lc := concat_len _ _ _ F). 
  assert (Ed : length (concat rings) / n = length rings) by (rewrite Lc, Nat.mul_comm; apply Nat.div_mul; lia).
  rewrite Ed in E2. subst faces.
  assert (Lv : length verts = n * length rings + 2). { subst verts. rewrite app_length, Lc. reflexivity. }
  split; [reflexivity|]. split; [exact Lv|]. split; [|split; [|split]].
  - intros r ring a Hr La. subst verts. assert (r < length rings) by (apply nth_error_Some; congruence).
    rewrite nth_error_app1 by (rewrite Lc; nia). eapply concat_nth; eauto.
  - subst verts. rewrite nth_error_app2 by lia. rewrite Lc, Nat.sub_diag. rewrite En. reflexivity.
  - subst verts. rewrite nth_error_app2 by lia. rewrite Lc. replace (n * length rings + 1 - n * length rings) with 1 by lia.
    simpl. assert (G : forall (l : list A) d, l <> [] -> Some (last l d) = nth_error l (length l - 1)).
    { induction l as [|a [|b l] IH]; intros d N; [congruence|reflexivity|].
      specialize (IH d ltac:(discriminate)). simpl in *. rewrite Nat.sub_0_r in IH. exact IH. }
    apply G. rewrite En. discriminate.
  - intros f v I C. destruct (mesh_indices n (length rings) Hn R) as (_ & _ & X & _). destruct (X f I) as [_ Y].
    specialize (Y v C). destruct (nth_error verts v) as [p|] eqn:E; eauto. apply nth_error_None in E. lia.
Qed.
Lemma pedal_len : forall n h l inc azi nev, length (pedal_ring n h l inc azi nev) = 2 * (n / 2).
Proof. intros. unfold pedal_ring, pedal_lams. rewrite map_length, app_length, !map_length, linspace_len. lia. Qed.
Lemma odd_pedal_mesh : forall A n (rings : list (list A)) nevs faces verts,
  Nat.Odd n -> Forall (fun v => length v = 2 * (n / 2)) rings -> 3 <= length rings -> length rings + 1 < n ->
  make_mesh n rings nevs = Some (faces, verts) ->
  faces = get_faces n (length rings - 1) /\
  forall f v, In f faces -> In v (corners f) -> v < length (concat rings).
Proof.
  intros A n rings nevs faces verts [m Hm] F R L H. assert (E : n / 2 = m).
  { rewrite Hm. rewrite Nat.add_comm, Nat.mul_comm, Nat.div_add by lia. reflexivity. }
  rewrite E in F. unfold make_mesh in H. destruct nevs as [|nev0 rest]; [discriminate|].
  injection H; intros E1 E2; clear H. assert (Lc := concat_len _ _ _ F).
  assert (Ed : length (concat rings) / n = length rings - 1).
  { symmetry. apply (Nat.div_unique _ _ _ (n - length rings)); [lia|]. rewrite Lc. nia. }
  rewrite Ed in E2. split; auto. intros f v I C. subst faces.
  destruct (mesh_indices n (length rings - 1) ltac:(lia) ltac:(lia)) as (_ & _ & X & _). destruct (X f I) as [_ Y].
  specialize (Y v C). rewrite Lc. nia.
Qed.

(** ** slices *)
Open Scope Z_scope.
Inductive chain (step stop : Z) : Z -> list (Z * Z) -> Prop :=
| ch_last : forall i, stop <= i + step + 1 -> chain step stop i [(i, stop)]
| ch_next : forall i ws, i + step + 1 < stop -> chain step stop (i + step) ws -> chain step stop i ((i, i + step + 1) :: ws).
Lemma slice_chain : forall meth step stop fuel i ms, valid_method meth = true -> 1 <= step -> i + 2 <= stop ->
  (Z.to_nat (stop - i) <= fuel)%nat -> exists ws, chain step stop i ws /\ slice_loop fuel meth step stop i ms = Done (rev ms ++ ws).
Proof.
  intros meth step stop. induction fuel as [|fuel IH]; intros i ms V Hs Hi Hf. lia. simpl. rewrite V. simpl negb.
  destruct (Z.ltb_spec stop (i + step + 1)).
  - destruct (Z.ltb_spec (stop - i) 2); [lia|]. simpl. rewrite Z.eqb_refl. exists [(i, stop)]. split. constructor; lia. reflexivity.
  - destruct (Z.ltb_spec (i + step + 1 - i) 2); [lia|]. simpl. destruct (Z.eqb_spec (i + step + 1) stop).
    + exists [(i, stop)]. split. constructor; lia. rewrite e. reflexivity.
    + destruct (IH (i + step) ((i, i + step + 1) :: ms) V Hs ltac:(lia) ltac:(lia)) as (ws & C & E).
      exists ((i, i + step + 1) :: ws). split. constructor; auto. lia. rewrite E. simpl. rewrite <- app_assoc. reflexivity.
Qed.
Lemma chain_props : forall step stop i ws, 1 <= step -> i + 2 <= stop -> chain step stop i ws ->
  (exists j ws', ws = (i, j) :: ws') /\ (exists ws' k, ws = ws' ++ [(k, stop)]) /\
  (forall a b, In (a, b) ws -> i <= a /\ b <= stop /\ 2 <= b - a <= step + 1) /\
  (forall k a b c d, nth_error ws k = Some (a, b) -> nth_error ws (S k) = Some (c, d) -> c = b - 1) /\
  each_interval_once i stop ws.
Proof.
  intros step stop i ws Hs Hi C. induction C as [i H|i ws H C IH].
  - split; [eauto|]. split; [exists [], i; reflexivity|]. split; [|split].
    + intros a b [E|[]]. injection E; intros; subst. lia.
    + intros k a b c d _ X. destruct k as [|[|]]; discriminate.
    + intros s H1 H2. simpl. unfold holds_interval. simpl.
      destruct (Z.leb_spec i s), (Z.ltb_spec (s + 1) stop); simpl; auto; lia.
  - destruct IH as ((j & ws' & E) & (ws2 & k0 & E2) & B & A & O); [lia|].
    split; [eauto|]. split; [exists ((i, i + step + 1) :: ws2), k0; rewrite E2; reflexivity|]. split; [|split].
    + intros a b [X|X]. injection X; intros; subst; lia. specialize (B a b X). lia.
    + intros [|k] a b c d X Y. simpl in X, Y. rewrite E in Y. simpl in Y. injection X; injection Y; intros; subst; lia.
      simpl in X. eapply A; eauto.
    + intros s H1 H2. simpl. unfold holds_interval at 1. simpl.
      assert (Z0 : s < i + step -> filter (holds_interval s) ws = []).
      { intro Ls. assert (G : forall w, In w ws -> holds_interval s w = false).
        { intros [a b] I. unfold holds_interval. simpl. specialize (B a b I). destruct (Z.leb_spec a s); auto. lia. }
        clear -G. induction ws as [|w ws IHw]; auto. simpl. rewrite G by (left; auto). apply IHw. intros; apply G; right; auto. }
      destruct (Z.leb_spec i s); [|lia]. destruct (Z.ltb_spec (s + 1) (i + step + 1)); simpl.
      * rewrite Z0 by lia. reflexivity.
      * apply O; lia.
Qed.
Lemma slices_cover : forall fuel n start stop step meth, valid_method meth = true -> 1 <= step ->
  let last := if stop =? -1 then n else stop in
  stop <= n -> start + 2 <= last -> (Z.to_nat (last - start) <= fuel)%nat ->
  exists ws, sliced_mesh fuel n start stop step meth = Done ws /\
    (exists j rest, ws = (start, j) :: rest) /\ (exists front k, ws = front ++ [(k, last)]) /\
    (forall i j, In (i, j) ws -> start <= i /\ j <= last /\ 2 <= j - i <= step + 1) /\
    (forall k i j i' j', nth_error ws k = Some (i, j) -> nth_error ws (S k) = Some (i', j') -> i' = j - 1) /\
    each_interval_once start last ws.
Proof.
  intros fuel n start stop step meth V Hs last Hn Hl Hf. unfold sliced_mesh. destruct (Z.ltb_spec n stop); [lia|].
  fold last. destruct (slice_chain meth step last fuel start [] V Hs Hl Hf) as (ws & C & E).
  exists ws. split; [exact E|]. exact (chain_props step last start ws Hs Hl C).
Qed.
Lemma slices_default : forall fuel n start stop step,
  sliced_mesh (S fuel) n start stop step "mesh_ellipse" = Raised.
Proof.
  intros. unfold sliced_mesh. destruct (n <? stop); auto. simpl. destruct (_ && _)%bool; reflexivity.
Qed.
