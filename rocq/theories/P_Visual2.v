(** Proofs about figures, lines between wells and repaired meshes (C163-C166). *)
Require Import Reals ZArith Bool String List Permutation Lra Lia.
Require Import Verif.Base Verif.NumPy Verif.Spec Verif.M_Utils Verif.M_Survey Verif.M_Clearance Verif.M_Refine Verif.M_Mesh Verif.M_Visual Verif.Spec_Mesh Verif.Spec_Visual Verif.Spec_Lists Verif.Spec_Clearance.
Require Import Verif.P_Clearance3 Verif.P_Mesh.
Import ListNotations.
Open Scope list_scope.
Local Open Scope R_scope.

Lemma all_there_some : forall A (l : list (option A)) q, all_there l = Some q <-> l = map Some q.
Proof.
  intros A. induction l as [|[a|] l IH]; intros q; cbn.
  - split; [intros [= <-]; reflexivity|]. intros H. destruct q; [reflexivity|discriminate].
  - split.
    + destruct (all_there l) as [r|] eqn:E; [|discriminate]. intros [= <-]. cbn. f_equal. apply IH. reflexivity.
    + intros H. destruct q as [|b q]; [discriminate|]. cbn in H. injection H as -> H. apply IH in H. rewrite H. reflexivity.
  - split; [discriminate|]. intros H. destruct q; discriminate.
Qed.
Lemma all_there_none : forall A (l : list (option A)), all_there l = None <-> In None l.
Proof.
  intros A. induction l as [|[a|] l IH]; cbn.
  - split; [discriminate|intros []].
  - destruct (all_there l) as [r|] eqn:E.
    + split; [discriminate|]. intros [H|H]; [discriminate|]. apply IH in H. discriminate.
    + split; [intros _; right; apply IH; reflexivity|reflexivity].
  - split; [intros _; left; reflexivity|reflexivity].
Qed.
Lemma rings_len : forall A n (rings : list (list A)), Forall (fun r => length r = n) rings -> length (concat rings) = (length rings * n)%nat.
Proof. intros A n. induction rings as [|r rings IH]; intros F; [reflexivity|]. inversion F; subst. cbn. rewrite app_length, IH by assumption. lia. Qed.

(** ** the figure of a mesh *)
Lemma filter_all : forall A (f : A -> bool) l, (forall x, In x l -> f x = true) -> filter f l = l.
Proof. intros A f. induction l as [|a l IH]; intros H; [reflexivity|]. cbn. rewrite (H a (or_introl eq_refl)). f_equal. apply IH. intros x Hx. apply H. right. exact Hx. Qed.
Lemma filter_none : forall A (f : A -> bool) l, (forall x, In x l -> f x = false) -> filter f l = [].
Proof. intros A f. induction l as [|a l IH]; intros H; [reflexivity|]. cbn. rewrite (H a (or_introl eq_refl)). apply IH. intros x Hx. apply H. right. exact Hx. Qed.
Lemma caps_lack : forall n rows, (3 <= n)%nat -> (2 <= rows)%nat ->
  length (filter (lacks_corner (rows * n)) (get_faces n rows)) = (2 * n)%nat.
Proof.
  intros n rows Hn Hr. rewrite (faces_enc n rows Hn Hr). unfold tris. rewrite !map_app, !filter_app, !app_length.
  rewrite (filter_all _ _ (map (enc3 n rows) (map (f_top n) (seq 0 n)))).
  2:{ intros x Hx. apply in_map_iff in Hx. destruct Hx as (t & <- & Ht). apply in_map_iff in Ht. destruct Ht as (a & <- & _).
      unfold lacks_corner, f_top, enc3, corners, enc. cbn [existsb]. rewrite Nat.leb_refl. reflexivity. }
  rewrite (filter_none _ _ (map (enc3 n rows) (flat_map _ _))).
  2:{ intros x Hx. apply in_map_iff in Hx. destruct Hx as (t & <- & Ht). apply in_flat_map in Ht. destruct Ht as (r & Ir & Ht). apply in_seq in Ir.
      apply in_flat_map in Ht. destruct Ht as (a & Ia & Ht). apply in_seq in Ia. assert (La : (nxt n a < n)%nat) by (destruct (nxt_spec n a); lia).
      assert (B : forall r' a', (r' < rows)%nat -> (a' < n)%nat -> (rows * n <=? r' * n + a')%nat = false).
      { intros r' a' B1 B2. apply Nat.leb_gt. apply ring_lt; assumption. }
      destruct Ht as [<-|[<-|[]]]; unfold lacks_corner, f_one, f_two, enc3, corners, enc; cbn [existsb]; rewrite !B by lia; reflexivity. }
  rewrite (filter_all _ _ (map (enc3 n rows) (map (f_bot n rows) (seq 0 n)))).
  2:{ intros x Hx. apply in_map_iff in Hx. destruct Hx as (t & <- & Ht). apply in_map_iff in Ht. destruct Ht as (a & <- & _).
      unfold lacks_corner, f_bot, enc3, corners, enc. cbn [existsb]. replace (rows * n <=? rows * n + 1)%nat with true by (symmetry; apply Nat.leb_le; lia). reflexivity. }
  rewrite !map_length, seq_length. cbn. lia.
Qed.
Lemma figure_caps : forall n rings fig, (3 <= n)%nat -> (2 <= length rings)%nat -> Forall (fun r => length r = n) rings -> mesh3d n rings false = Some fig ->
  mf_points fig = map (fun v => mkV (vy v) (vx v) (vz v)) (concat rings) /\
  mf_triangles fig = get_faces n (length rings) /\
  length (filter (lacks_corner (length (mf_points fig))) (mf_triangles fig)) = (2 * n)%nat /\
  length (mf_triangles fig) = (2 * n * length rings)%nat.
Proof.
  intros n rings fig Hn Hr F H. unfold mesh3d in H. injection H as <-. cbn [mf_points mf_triangles]. rewrite map_length, (rings_len _ n) by exact F.
  rewrite Nat.div_mul by lia. split; [reflexivity|]. split; [reflexivity|]. split; [apply caps_lack; assumption|]. apply (proj1 (mesh_indices n (length rings) Hn Hr)).
Qed.
Lemma figure_edges : forall n rings, (3 <= n)%nat -> (2 <= length rings)%nat -> Forall (fun r => length r = n) rings -> mesh3d n rings true = None.
Proof.
  intros n rings Hn Hr F. unfold mesh3d. rewrite (rings_len _ n) by exact F. rewrite Nat.div_mul by lia.
  replace (all_there _) with (@None (list V3)); [reflexivity|]. symmetry. apply all_there_none. apply in_map_iff. exists (length rings * n)%nat.
  split; [apply nth_error_None; rewrite (rings_len _ n) by exact F; lia|]. apply in_flat_map.
  exists (enc3 n (length rings) (f_top n 0)). split.
  - rewrite (faces_enc n _ Hn Hr). apply in_map. unfold tris. apply in_or_app. left. apply in_map. apply in_seq. lia.
  - left. reflexivity.
Qed.

(** ** the figure of a survey *)
Lemma markers_spec : forall flag nev flags rows, length flags = length nev -> length rows = length nev ->
  let l := map (fun i => mkMarker (plotted (nth i nev vzero)) (st_md (nth i rows (mkSt 0 0 0))) (degrees (st_inc (nth i rows (mkSt 0 0 0)))) (degrees (st_azi (nth i rows (mkSt 0 0 0)))))
             (filter (fun i => Bool.eqb (nth i flags false) flag) (seq 0 (length nev))) in
  (l <> [] -> markers flag nev flags rows = Some l) /\ (l = [] -> markers flag nev flags rows = None).
Proof.
  intros flag nev flags rows H1 H2 l.
  assert (E : map (fun x : V3 * bool * station => mkMarker (plotted (fst (fst x))) (st_md (snd x)) (degrees (st_inc (snd x))) (degrees (st_azi (snd x))))
     (filter (fun x => Bool.eqb (snd (fst x)) flag) (combine (combine nev flags) rows)) = l).
  { unfold l. clear l. revert flags rows H1 H2. induction nev as [|v nev IH]; intros flags rows H1 H2; [reflexivity|].
    destruct flags as [|b flags]; [discriminate|]. destruct rows as [|st rows]; [discriminate|]. cbn [combine filter length seq nth fst snd].
    rewrite <- seq_shift. cbn in H1, H2. specialize (IH flags rows ltac:(lia) ltac:(lia)).
    assert (G : forall f : nat -> bool, forall l, filter f (map S l) = map S (filter (fun i => f (S i)) l)).
    { intros f. induction l as [|a l IHl]; [reflexivity|]. cbn. destruct (f (S a)); cbn; rewrite IHl; reflexivity. }
    rewrite G. destruct (Bool.eqb b flag); cbn [map fst snd nth]; rewrite IH, map_map; reflexivity. }
  clearbody l. unfold markers. destruct (filter _ _) as [|x xs]; cbn [map] in E; subst l; split; intros K.
  - exfalso. apply K. reflexivity.
  - reflexivity.
  - reflexivity.
  - discriminate.
Qed.
Lemma scatter_spec : forall s flags, length (sv_nev s) = length (sv_rows s) -> (forall l, flags = Some l -> length l = length (sv_rows s)) ->
  exists fl, (flags = Some fl \/ (flags = None /\ fl = repeat false (length (sv_rows s)))) /\ snd (scatter3d s flags) = fl /\
    let fig := fst (scatter3d s flags) in
    let here b i := Bool.eqb (nth i fl false) b in
    let mark i := let a := nth i (sv_rows s) (mkSt 0 0 0) in let v := nth i (sv_nev s) vzero in
      mkMarker (mkV (vy v) (vx v) (vz v)) (st_md a) (degrees (st_inc a)) (degrees (st_azi a)) in
    let shows b (t : option (list marker)) :=
      match t with
      | Some l => l <> [] /\ l = map mark (filter (here b) (seq 0 (length (sv_rows s))))
      | None => forall i, (i < length (sv_rows s))%nat -> here b i = false
      end in
    sf_line fig = map (fun v => mkV (vy v) (vx v) (vz v)) (sv_nev s) /\ shows true (sf_interpolated fig) /\ shows false (sf_points fig).
Proof.
  intros s flags HL HF. unfold scatter3d. set (fl := match flags with Some l => l | None => repeat false (length (sv_rows s)) end). exists fl.
  split. { unfold fl. destruct flags; [left; reflexivity|right; split; reflexivity]. }
  split; [reflexivity|]. cbn [fst snd sf_line sf_interpolated sf_points].
  assert (Lf : length fl = length (sv_nev s)). { rewrite HL. unfold fl. destruct flags; [apply HF; reflexivity|apply repeat_length]. }
  split; [reflexivity|].
  assert (G : forall b, match markers b (sv_nev s) fl (sv_rows s) with
      | Some l => l <> [] /\ l = map (fun i => let a := nth i (sv_rows s) (mkSt 0 0 0) in let v := nth i (sv_nev s) vzero in
      mkMarker (mkV (vy v) (vx v) (vz v)) (st_md a) (degrees (st_inc a)) (degrees (st_azi a))) (filter (fun i => Bool.eqb (nth i fl false) b) (seq 0 (length (sv_rows s))))
      | None => forall i, (i < length (sv_rows s))%nat -> Bool.eqb (nth i fl false) b = false end).
  { intros b. destruct (markers_spec b (sv_nev s) fl (sv_rows s) Lf (eq_sym HL)) as (A & B). rewrite HL in A, B.
    set (l := filter (fun i => Bool.eqb (nth i fl false) b) (seq 0 (length (sv_rows s)))) in *. destruct l as [|x xs] eqn:E.
    - rewrite (B eq_refl). intros i Hi. destruct (Bool.eqb (nth i fl false) b) eqn:K; [|reflexivity]. exfalso.
      assert (In i l). { unfold l. apply filter_In. split; [apply in_seq; lia|exact K]. } rewrite E in H. destruct H.
    - rewrite A by discriminate. split; [discriminate|reflexivity]. }
  split; apply G.
Qed.

(** ** lines *)
Lemma lines_spec : forall opt c ref off st en, length (sv_nev (w_survey ref)) = length (sv_rows (w_survey ref)) ->
  clearance_lines opt (w_survey ref) (w_survey off) = Some (st, en) ->
  st = sv_nev (w_survey ref) /\ length en = length st /\ length (clearance_run opt c ref off) = length st /\
  forall i p q r, nth_error st i = Some p -> nth_error en i = Some q -> nth_error (clearance_run opt c ref off) i = Some (Some r) ->
    ru_distance r = dist p q.
Proof.
  intros opt c ref off st en HL H. unfold clearance_lines in H.
  destruct (all_there _) as [l|] eqn:E; [|discriminate]. apply all_there_some in E.
  assert (K : st = map fst l /\ en = map snd l) by (destruct l; [discriminate|injection H as <- <-; split; reflexivity]). destruct K as (-> & ->). clear H.
  assert (P : map fst l = sv_nev (w_survey ref)).
  { revert E. generalize (sv_nev (w_survey ref)) as vs. revert l. intros l vs. revert l. induction vs as [|v vs IH]; intros l E; destruct l as [|[p q] l]; try discriminate; [reflexivity|].
    cbn [map] in E. injection E as E1 E2. cbn. f_equal; [|apply IH; exact E2]. destruct (closest_point opt (w_survey off) v _) as [[[[k x] f] q']|]; [|discriminate]. injection E1 as -> _. reflexivity. }
  split; [exact P|]. split; [rewrite !map_length; reflexivity|]. split.
  { unfold clearance_run. rewrite map_length, seq_length, P. symmetry. exact HL. }
  intros i p q r Hp Hq Hr. unfold clearance_run in Hr.
  assert (Li : (i < length (sv_rows (w_survey ref)))%nat) by (rewrite <- HL, <- P; apply nth_error_Some; congruence).
  rewrite (map_nth_error (station_rule opt c ref off) i (seq 0 (length (sv_rows (w_survey ref)))) (d := i)) in Hr.
  2:{ rewrite (nth_error_nth' _ 0%nat) by (rewrite seq_length; exact Li). rewrite seq_nth by exact Li. reflexivity. }
  injection Hr as Hr. assert (Hn : nth_error (sv_nev (w_survey ref)) i = Some p) by (rewrite <- P; exact Hp).
  assert (C : exists k x f, closest_point opt (w_survey off) p (nearest_station (sv_nev (w_survey off)) p) = Some (k, x, f, q)).
  { pose proof (map_nth_error (fun p => match closest_point opt (w_survey off) p (nearest_station (sv_nev (w_survey off)) p) with Some (_, _, _, q) => Some (p, q) | None => None end) i _ Hn) as M.
    rewrite E in M. assert (N : nth_error l i = Some (p, q)).
    { rewrite nth_error_map in Hp, Hq. destruct (nth_error l i) as [[p' q']|]; [|discriminate]. cbn in Hp, Hq. congruence. }
    rewrite (map_nth_error Some i l N) in M. injection M as M. destruct (closest_point opt (w_survey off) p _) as [[[[k x] f] q']|]; [|discriminate]. injection M as <-. exists k, x, f. reflexivity. }
  destruct C as (k & x & f & C). unfold station_rule in Hr. rewrite Hn, C in Hr.
  destruct (nth_error (sv_rows (w_survey ref)) i) as [a|]; [|discriminate]. destruct (nth_error (w_cov ref) i); [|discriminate]. destruct (nth_error (w_radius ref) i); [|discriminate].
  destruct (nth_error (w_radius off) _); [|discriminate]. destruct (nth_error (w_cov off) k); [|discriminate]. destruct (nth_error (w_cov off) (S k)); [|discriminate].
  unfold iscwsa_rule in Hr. destruct (pcr _ _); [|discriminate]. destruct (pcr _ _); [|discriminate]. injection Hr as <-. cbn [ru_distance dl_distance delta_vectors].
  apply norm_vsub_dist.
Qed.

(** ** repair *)
Lemma flat_proper : forall f, flat f = false <-> proper f.
Proof.
  intros [[a b] c]. unfold flat, proper. rewrite !orb_false_iff, !Nat.eqb_neq. tauto.
Qed.
Lemma fixed_mesh : forall unique rewind vertices faces, picks_rows unique -> (forall v l, Forall2 same_corners l (rewind v l)) ->
  exists out kept, fix_mesh unique rewind vertices faces = Some (vertices, out) /\ Forall2 same_corners kept out /\ NoDup kept /\
    (forall f, In f kept <-> In f faces /\ proper f) /\ Forall proper out.
Proof.
  intros unique rewind vertices faces Hu Hw. unfold fix_mesh. destruct (Hu faces) as (q & Q1 & Q2 & Q3).
  match goal with |- context [all_there ?x] => assert (X : all_there x = Some q) by (apply all_there_some; exact Q1); rewrite X; clear X end. set (kept := filter (fun f => negb (flat f)) q). exists (rewind vertices kept), kept.
  split; [reflexivity|]. split; [apply Hw|]. split; [apply NoDup_filter; exact Q2|].
  assert (K : forall f, In f kept <-> In f faces /\ proper f).
  { intros f. unfold kept. rewrite filter_In, negb_true_iff, flat_proper, Q3. tauto. }
  split; [exact K|].
  assert (G : forall l m, Forall2 same_corners l m -> Forall proper l -> Forall proper m).
  { induction 1 as [|f g l m Hfg _ IH]; intros F; constructor.
    - inversion F; subst. unfold same_corners in Hfg. destruct f as [[a b] c], g as [[a' b'] c']. cbn in Hfg. unfold proper in *.
      assert (N : NoDup [a; b; c]) by (repeat constructor; cbn; intuition congruence). apply (Permutation_NoDup Hfg) in N.
      inversion N as [|? ? N1 N2]; subst. inversion N2 as [|? ? N3 N4]; subst. cbn in N1, N3. intuition congruence.
    - apply IH. inversion F; subst. assumption. }
  apply (G kept _ (Hw _ _)). apply Forall_forall. intros f Hf. apply K. exact Hf.
Qed.
Lemma fixed_well : forall unique rewind vertices n rows out, picks_rows unique -> (forall v l, Forall2 same_corners l (rewind v l)) ->
  (3 <= n)%nat -> (2 <= rows)%nat -> fix_mesh unique rewind vertices (get_faces n rows) = Some (vertices, out) ->
  length out = (2 * n * rows)%nat.
Proof.
  intros unique rewind vertices n rows out Hu Hw Hn Hr H. destruct (fixed_mesh unique rewind vertices (get_faces n rows) Hu Hw) as (o & k & E & F & N & K & _).
  rewrite E in H. injection H as <-. destruct (mesh_indices n rows Hn Hr) as (L & D & C & _). rewrite <- L.
  assert (Le : length k = length o) by (clear - F; induction F; cbn; [reflexivity|f_equal; assumption]). rewrite <- Le.
  assert (P : Permutation k (get_faces n rows)).
  { apply NoDup_Permutation; [exact N|exact D|]. intros f. rewrite K. split; [tauto|]. intros I. split; [exact I|].
    destruct (C f I) as (ND & _). destruct f as [[a b] c]. cbn in ND. inversion ND as [|? ? N1 N2]; subst. inversion N2 as [|? ? N3 N4]; subst. cbn in N1, N3. unfold proper. intuition congruence. }
  apply Permutation_length. exact P.
Qed.

(** the lines of an offset well as it is surveyed end on its path *)
Lemma lines_on_well : forall h rows deg sx sn unit s opt ref,
  Survey h rows deg sx sn unit = Some s -> strictly_increasing (map st_md (sv_rows s)) ->
  (forall i a b, nth_error (sv_rows s) i = Some a -> nth_error (sv_rows s) (S i) = Some b ->
     get_dogleg (st_inc a) (st_azi a) (st_inc b) (st_azi b) < PI) ->
  never_worse opt -> sv_nev ref <> [] ->
  exists st en, clearance_lines opt ref s = Some (st, en) /\ st = sv_nev ref /\ length en = length st /\
    forall i p, nth_error st i = Some p -> exists q md n h', nth_error en i = Some q /\
      survey_interpolate_md s md = NodeOk n h' /\ nd_md n = md /\ nd_pos n = q /\
      forall k o, nth_error (sv_nev s) k = Some o -> dist p q <= dist p o.
Proof.
  intros h rows deg sx sn unit s opt ref HS HI HD HO HN. unfold clearance_lines.
  set (g := fun p => match closest_point opt s p (nearest_station (sv_nev s) p) with Some (_, _, _, q) => Some (p, q) | None => None end).
  assert (G : forall p, exists q md n h', g p = Some (p, q) /\ survey_interpolate_md s md = NodeOk n h' /\ nd_md n = md /\ nd_pos n = q /\
     forall k o, nth_error (sv_nev s) k = Some o -> dist p q <= dist p o).
  { intros p. destruct (closest_on_well h rows deg sx sn unit s opt p HS HI HD HO) as (index & x & f & q & a & b & n & h' & C & _ & _ & _ & _ & I & M & P & _ & L).
    exists q, (st_md a + x), n, h'. unfold g. rewrite C. repeat split; assumption. }
  assert (A : forall l, exists q, all_there (map g l) = Some q /\ map fst q = l /\
     forall i p, nth_error l i = Some p -> exists e, nth_error q i = Some (p, e) /\ g p = Some (p, e)).
  { induction l as [|p l IH]; [exists []; repeat split; intros i p H; destruct i; discriminate|].
    destruct IH as (q & Q1 & Q2 & Q3). destruct (G p) as (e & _ & _ & _ & E & _). exists ((p, e) :: q). cbn. rewrite E, Q1. split; [reflexivity|]. split; [cbn; f_equal; exact Q2|].
    intros [|i] p' H; cbn in *; [injection H as <-; exists e; split; [reflexivity|exact E]|apply Q3; exact H]. }
  destruct (A (sv_nev ref)) as (q & Q1 & Q2 & Q3). rewrite Q1. destruct q as [|pq q]; [cbn in Q2; congruence|].
  eexists _, _. split; [reflexivity|]. split; [exact Q2|]. split; [rewrite !map_length; reflexivity|].
  intros i p Hp. rewrite Q2 in Hp. destruct (Q3 i p Hp) as (e & E1 & E2). destruct (G p) as (e' & md & n & h' & E3 & E4). rewrite E2 in E3. injection E3 as <-.
  exists e, md, n, h'. split; [|exact E4]. exact (map_nth_error snd i (pq :: q) E1).
Qed.

Lemma first_rows_ok : forall all seen l k, (forall i f, nth_error l i = Some f -> nth_error all (k + i) = Some f) ->
  exists q, map (nth_error all) (first_rows_from k seen l) = map Some q /\ NoDup q /\ (forall f, In f q <-> In f l /\ ~ In f seen).
Proof.
  intros all seen l. revert seen. induction l as [|f l IH]; intros seen k H; cbn.
  - exists []. split; [reflexivity|]. split; [constructor|]. cbn. tauto.
  - assert (H' : forall i g, nth_error l i = Some g -> nth_error all (S k + i) = Some g). { intros i g E. replace (S k + i)%nat with (k + S i)%nat by lia. apply H. exact E. }
    destruct (in_dec tri_dec f seen) as [I|N].
    + destruct (IH seen (S k) H') as (q & Q1 & Q2 & Q3). exists q. split; [exact Q1|]. split; [exact Q2|]. intros g. rewrite Q3. split; [tauto|]. intros ([<-|G] & K); [tauto|tauto].
    + destruct (IH (f :: seen) (S k) H') as (q & Q1 & Q2 & Q3). exists (f :: q). cbn [map]. rewrite Q1. replace (nth_error all k) with (Some f). 2:{ symmetry. rewrite <- (Nat.add_0_r k). apply H. reflexivity. }
      split; [reflexivity|]. split; [constructor; [|exact Q2]; rewrite Q3; cbn; tauto|]. intros g. cbn. rewrite Q3. cbn. destruct (tri_dec f g) as [E|E]; [subst; tauto|tauto].
Qed.
Lemma first_rows_pick : picks_rows first_rows.
Proof. intros l. destruct (first_rows_ok l [] l 0) as (q & Q1 & Q2 & Q3); [intros; assumption|]. exists q. split; [exact Q1|]. split; [exact Q2|]. intros f. rewrite Q3. cbn. tauto. Qed.
(** a triangle listed again from another of its corners stays *)
Lemma fixed_turned : forall unique vertices a b c, picks_rows unique -> a <> b -> a <> c -> b <> c ->
  exists out, fix_mesh unique (fun _ l => l) vertices [(a, b, c); (b, c, a)] = Some (vertices, out) /\ length out = 2%nat /\ same_corners (a, b, c) (b, c, a).
Proof.
  intros unique vertices a b c Hu H1 H2 H3.
  destruct (fixed_mesh unique (fun _ l => l) vertices [(a, b, c); (b, c, a)] Hu) as (o & k & E & F & N & K & _).
  { intros v l. induction l; constructor; [apply Permutation_refl|assumption]. }
  exists o. split; [exact E|]. split.
  - assert (Le : length k = length o) by (clear - F; induction F; cbn; [reflexivity|f_equal; assumption]). rewrite <- Le.
    assert (P : Permutation k [(a, b, c); (b, c, a)]).
    { apply NoDup_Permutation; [exact N| |].
      - constructor; [intros [X|[]]; congruence|]. constructor; [intros []|constructor].
      - intros f. rewrite K. split; [tauto|]. intros I. split; [exact I|]. destruct I as [<-|[<-|[]]]; unfold proper; auto. }
    apply Permutation_length in P. exact P.
  - unfold same_corners, corners. apply (Permutation_cons_append [b; c] a).
Qed.
