(** Proofs about the pointer, figures and lines of a plot (C162-C166). *)
Require Import Reals ZArith Bool String List Permutation Lra Lia.
Require Import Verif.Base Verif.NumPy Verif.Spec Verif.M_Utils Verif.M_Survey Verif.M_Clearance Verif.M_Refine Verif.M_Mesh Verif.M_Visual Verif.Spec_Mesh Verif.Spec_Visual.
Require Import Verif.P_Clearance3 Verif.P_Mesh.
Import ListNotations.
Open Scope list_scope.
Local Open Scope R_scope.

Lemma V3_dec : forall u v : V3, u = v \/ u <> v.
Proof.
  intros [a b c] [d e f]. destruct (Req_EM_T a d) as [->|N]; [|right; congruence]. destruct (Req_EM_T b e) as [->|N]; [|right; congruence].
  destruct (Req_EM_T c f) as [->|N]; [left; reflexivity|right; congruence].
Qed.
(** ** the pointer *)
Lemma shown_filter : forall objs wells w, In w (filter (fun w => existsb (Nat.eqb (d_mesh w)) objs) wells) <-> In w wells /\ on_screen objs w.
Proof.
  intros. rewrite filter_In. unfold on_screen. rewrite existsb_exists. split; intros (H & K); split; try exact H.
  - destruct K as (x & Hx & E). apply Nat.eqb_eq in E. rewrite E. exact Hx.
  - exists (d_mesh w). split; [exact K|apply Nat.eqb_refl].
Qed.
Lemma concat_vertex : forall w v, In v (concat (d_rings w)) <-> vertex_of w v.
Proof. intros. unfold vertex_of. rewrite in_concat. split; intros (r & A & B); exists r; split; assumption. Qed.
Lemma filter_split : forall A (f : A -> bool) l k x, nth_error (filter f l) k = Some x ->
  exists a b, l = a ++ x :: b /\ filter f a = firstn k (filter f l).
Proof.
  intros A f. induction l as [|y l IH]; intros k x H; cbn in H; [destruct k; discriminate|]. cbn [filter]. destruct (f y) eqn:E.
  - destruct k as [|k]; cbn in H.
    + injection H as <-. exists [], l. split; reflexivity.
    + destruct (IH k x H) as (a & b & -> & F). exists (y :: a), b. split; [reflexivity|]. cbn [filter firstn]. rewrite E, F. reflexivity.
  - destruct (IH k x H) as (a & b & -> & F). exists (y :: a), b. split; [reflexivity|]. cbn [filter]. rewrite E. exact F.
Qed.
Lemma closest_cases : forall query wells objs pos r, closest_well query wells objs pos = Some r ->
  exists a b, wells = a ++ pt_well r :: b /\ on_screen objs (pt_well r) /\
    (pt_distance r, pt_vertex r) = query (concat (d_rings (pt_well r))) pos /\
    pt_n_verts r = d_n_verts (pt_well r) /\ pt_station r = Nat.div (pt_vertex r) (d_n_verts (pt_well r)) /\
    (forall w, In w wells -> on_screen objs w -> pt_distance r <= fst (query (concat (d_rings w)) pos)) /\
    (forall w, In w a -> on_screen objs w -> pt_distance r < fst (query (concat (d_rings w)) pos)).
Proof.
  intros query wells objs pos r H. unfold closest_well in H. set (ws := filter (fun w => existsb (Nat.eqb (d_mesh w)) objs) wells) in *.
  set (q := fun w => query (concat (d_rings w)) pos) in *. destruct ws as [|w0 ws'] eqn:E; [discriminate|]. rewrite <- E in H.
  destruct (argmin_spec (map fst (map q ws))) as (m & Hm & M1 & M2). { rewrite E. discriminate. }
  set (k := argmin (map fst (map q ws))) in *. rewrite map_map in Hm.
  destruct (nth_error ws k) as [w|] eqn:W; [|discriminate]. rewrite (map_nth_error q k ws W) in H. rewrite (map_nth_error _ k ws W) in Hm.
  injection Hm as Hm. destruct (q w) as [d i] eqn:Q. injection H as <-. cbn [pt_well pt_distance pt_vertex pt_n_verts pt_station]. cbn in Hm. subst m.
  destruct (filter_split _ _ _ k w W) as (a & b & S1 & S2). exists a, b. fold ws in S2.
  assert (Iw : In w (filter (fun w => existsb (Nat.eqb (d_mesh w)) objs) wells)) by (fold ws; eapply nth_error_In; exact W).
  apply shown_filter in Iw. split; [exact S1|]. split; [exact (proj2 Iw)|]. split; [symmetry; exact Q|]. split; [reflexivity|]. split; [reflexivity|]. split.
  - intros v Hv Sv. assert (Iv : In v ws) by (apply shown_filter; split; assumption). apply In_nth_error in Iv. destruct Iv as (j & Hj).
    apply (M1 j). rewrite map_map. exact (map_nth_error (fun w => fst (q w)) j ws Hj).
  - intros v Hv Sv. assert (Iv : In v (firstn k ws)) by (rewrite <- S2; apply shown_filter; split; assumption). apply In_nth_error in Iv. destruct Iv as (j & Hj).
    assert (L : (j < length (firstn k ws))%nat) by (apply nth_error_Some; congruence). rewrite firstn_length in L.
    apply (M2 j); [lia|]. rewrite map_map. apply (map_nth_error (fun w => fst (q w))). rewrite <- (firstn_skipn k ws). rewrite nth_error_app1; [exact Hj|]. rewrite firstn_length. lia.
Qed.
Lemma pointer_none : forall query wells objs pos, closest_well query wells objs pos = None <-> forall w, In w wells -> ~ on_screen objs w.
Proof.
  intros. unfold closest_well. set (ws := filter (fun w => existsb (Nat.eqb (d_mesh w)) objs) wells). set (q := fun w => query (concat (d_rings w)) pos). split.
  - intros H w Hw So. assert (I : In w ws) by (apply shown_filter; split; assumption). destruct ws as [|w0 r] eqn:E; [destruct I|]. rewrite <- E in *.
    destruct (argmin_spec (map fst (map q ws))) as (m & Hm & _). { rewrite E. discriminate. }
    set (k := argmin (map fst (map q ws))) in *. rewrite map_map in Hm.
    destruct (nth_error ws k) as [v|] eqn:W.
    + rewrite (map_nth_error q k ws W) in H. destruct (q v). discriminate.
    + rewrite (proj2 (nth_error_None _ _)) in Hm; [discriminate|]. rewrite map_length. apply nth_error_None. exact W.
  - intros H. destruct ws as [|w0 r] eqn:E; [reflexivity|]. exfalso. assert (I : In w0 ws) by (rewrite E; left; reflexivity).
    apply shown_filter in I. exact (H w0 (proj1 I) (proj2 I)).
Qed.
Lemma pointer_nearest : forall query wells objs pos r, finds_nearest query ->
  (forall w, In w wells -> exists v, vertex_of w v) -> closest_well query wells objs pos = Some r ->
  exists a b v, wells = a ++ pt_well r :: b /\ on_screen objs (pt_well r) /\ vertex_of (pt_well r) v /\ pt_distance r = dist pos v /\
    (forall w v', In w wells -> on_screen objs w -> vertex_of w v' -> dist pos v <= dist pos v') /\
    (forall w v', In w a -> on_screen objs w -> vertex_of w v' -> dist pos v < dist pos v').
Proof.
  intros query wells objs pos r Hq Hv H. destruct (closest_cases _ _ _ _ _ H) as (a & b & E & So & Q & _ & _ & M1 & M2).
  assert (Iw : In (pt_well r) wells) by (rewrite E; apply in_elt).
  assert (N : forall w, In w wells -> concat (d_rings w) <> []).
  { intros w Hw K. destruct (Hv w Hw) as (v & V). apply concat_vertex in V. rewrite K in V. destruct V. }
  destruct (Hq _ pos (N _ Iw)) as (v & V1 & V2 & V3). rewrite <- Q in V1, V2. cbn [fst snd] in V1, V2.
  exists a, b, v. split; [exact E|]. split; [exact So|]. split; [apply concat_vertex; eapply nth_error_In; exact V1|]. split; [exact V2|]. rewrite <- V2. split.
  - intros w v' Hw Sw V'. apply Rle_trans with (fst (query (concat (d_rings w)) pos)); [exact (M1 w Hw Sw)|].
    destruct (Hq _ pos (N w Hw)) as (u & _ & U2 & U3). rewrite U2. apply U3. apply concat_vertex. exact V'.
  - intros w v' Hw Sw V'. apply Rlt_le_trans with (fst (query (concat (d_rings w)) pos)); [exact (M2 w Hw Sw)|].
    assert (Hw' : In w wells) by (rewrite E; apply in_or_app; left; exact Hw).
    destruct (Hq _ pos (N w Hw')) as (u & _ & U2 & U3). rewrite U2. apply U3. apply concat_vertex. exact V'.
Qed.
(** vertex i of rings of n is vertex i mod n of ring i / n *)
Lemma concat_nth : forall A n (rings : list (list A)) i v, (0 < n)%nat -> Forall (fun r => length r = n) rings -> nth_error (concat rings) i = Some v ->
  exists ring, nth_error rings (Nat.div i n) = Some ring /\ nth_error ring (Nat.modulo i n) = Some v.
Proof.
  intros A n rings. induction rings as [|r rings IH]; intros i v Hn F H; cbn in H; [destruct i; discriminate|]. inversion F; subst.
  destruct (Nat.lt_ge_cases i (length r)) as [L|L].
  - rewrite nth_error_app1 in H by exact L. exists r. rewrite Nat.div_small, Nat.mod_small by exact L. split; [reflexivity|exact H].
  - rewrite nth_error_app2 in H by exact L. destruct (IH _ _ Hn H3 H) as (ring & R1 & R2). exists ring.
    assert (E : i = ((i - length r) + 1 * length r)%nat) by lia. rewrite E at 1. rewrite E at 2. rewrite Nat.div_add, Nat.mod_add by lia.
    replace ((i - length r) / length r + 1)%nat with (S ((i - length r) / length r)) by lia. split; [exact R1|exact R2].
Qed.
Lemma pointer_station : forall query wells objs pos r, finds_nearest query -> closest_well query wells objs pos = Some r -> regular (pt_well r) ->
  exists ring v a, nth_error (d_rings (pt_well r)) (pt_station r) = Some ring /\ In v ring /\ pt_distance r = dist pos v /\
    (forall v', vertex_of (pt_well r) v' -> dist pos v <= dist pos v') /\ nth_error (d_rows (pt_well r)) (pt_station r) = Some a.
Proof.
  intros query wells objs pos r Hq H (Hn & F & L & Ne). destruct (closest_cases _ _ _ _ _ H) as (a & b & E & So & Q & _ & Hs & _).
  assert (N : concat (d_rings (pt_well r)) <> []).
  { destruct (d_rings (pt_well r)) as [|x xs]; [congruence|]. inversion F; subst. cbn. destruct x; [cbn in *; lia|discriminate]. }
  destruct (Hq _ pos N) as (v & V1 & V2 & V3). rewrite <- Q in V1, V2. cbn [fst snd] in V1, V2.
  destruct (concat_nth _ _ _ _ _ Hn F V1) as (ring & R1 & R2). rewrite <- Hs in R1.
  assert (B : (pt_station r < length (d_rows (pt_well r)))%nat) by (rewrite L; apply nth_error_Some; congruence).
  destruct (nth_error (d_rows (pt_well r)) (pt_station r)) as [st|] eqn:St; [|apply nth_error_None in St; lia].
  exists ring, v, st. split; [exact R1|]. split; [eapply nth_error_In; exact R2|]. split; [exact V2|]. split; [|reflexivity].
  intros v' K. apply V3. apply concat_vertex. exact K.
Qed.
(** rings of one vertex fewer than n_verts, as the pedal curve makes them for odd n_verts *)
Lemma short_rings : forall n i k, (2 <= n)%nat -> (k < n - 1)%nat -> (Nat.div (i * (n - 1) + k) n = i <-> (i <= k)%nat).
Proof.
  intros n i k Hn Hk. assert (D := Nat.div_mod (i * (n - 1) + k) n ltac:(lia)). assert (M := Nat.mod_upper_bound (i * (n - 1) + k) n ltac:(lia)).
  set (d := ((i * (n - 1) + k) / n)%nat) in *. set (m := ((i * (n - 1) + k) mod n)%nat) in *.
  assert (P : (i * (n - 1) + i = i * n)%nat) by nia. split.
  - intros Hd. rewrite Hd in D. nia.
  - intros Hi. nia.
Qed.
Lemma concat_at : forall A m (rings : list (list A)) i k ring v, Forall (fun r => length r = m) rings -> nth_error rings i = Some ring -> nth_error ring k = Some v ->
  nth_error (concat rings) (i * m + k) = Some v.
Proof.
  intros A m. induction rings as [|r rings IH]; intros i k ring v F H K; [destruct i; discriminate|]. inversion F; subst. destruct i as [|i]; cbn in H.
  - injection H as ->. cbn. rewrite nth_error_app1; [exact K|]. apply nth_error_Some. congruence.
  - cbn [concat]. rewrite nth_error_app2 by (cbn; lia). replace (S i * length r + k - length r)%nat with (i * length r + k)%nat by (cbn; lia). eapply IH; eassumption.
Qed.
Lemma pointer_pedal : forall query wells objs pos r i k ring v, finds_nearest query -> closest_well query wells objs pos = Some r ->
  (2 <= d_n_verts (pt_well r))%nat -> Forall (fun ring => length ring = (d_n_verts (pt_well r) - 1)%nat) (d_rings (pt_well r)) -> NoDup (concat (d_rings (pt_well r))) ->
  nth_error (d_rings (pt_well r)) i = Some ring -> nth_error ring k = Some v -> pt_distance r = dist pos v ->
  (forall v', vertex_of (pt_well r) v' -> v' <> v -> dist pos v < dist pos v') ->
  (pt_station r = i <-> (i <= k)%nat).
Proof.
  intros query wells objs pos r i k ring v Hq H Hn F ND Hi Hk Hd Hu. destruct (closest_cases _ _ _ _ _ H) as (a & b & E & So & Q & _ & Hs & _).
  pose proof (concat_at _ _ _ _ _ _ _ F Hi Hk) as Hc.
  assert (N : concat (d_rings (pt_well r)) <> []) by (intros K; rewrite K in Hc; destruct (i * (d_n_verts (pt_well r) - 1) + k)%nat; discriminate).
  destruct (Hq _ pos N) as (u & U1 & U2 & U3). rewrite <- Q in U1, U2. cbn [fst snd] in U1, U2.
  assert (u = v).
  { destruct (V3_dec u v) as [X|X]; [exact X|]. assert (vertex_of (pt_well r) u) by (apply concat_vertex; eapply nth_error_In; exact U1).
    specialize (Hu u H0 X). rewrite <- Hd, U2 in Hu. lra. }
  subst u. assert (Ei : pt_vertex r = (i * (d_n_verts (pt_well r) - 1) + k)%nat).
  { apply (proj1 (NoDup_nth_error _) ND); [apply nth_error_Some; congruence|congruence]. }
  rewrite Hs, Ei. apply short_rings; [exact Hn|]. rewrite Forall_forall in F. rewrite <- (F ring (nth_error_In _ _ Hi)). apply nth_error_Some. congruence.
Qed.
(** the text and the point depend on the last event only *)
Lemma callback_any : forall query wells objs p s, finds_nearest query -> Forall regular wells -> (pl_pointer s = None -> pl_text s = NoText) ->
  exists s', pointer_callback query wells objs p s = Some s' /\ (pl_pointer s' = None -> pl_text s' = NoText) /\
    (norm p < 1 / 100 -> s' = plotter_shown) /\
    (1 / 100 <= norm p -> pl_pointer s' = Some p /\
       ((forall w, In w wells -> ~ on_screen objs w) -> pl_text s' = Coordinates p) /\
       (forall r, closest_well query wells objs p = Some r -> exists a, nth_error (d_rows (pt_well r)) (pt_station r) = Some a /\
          pl_text s' = StationOf (d_name (pt_well r)) (st_md a) (degrees (st_inc a)) (degrees (st_azi a)) p)).
Proof.
  intros query wells objs p s Hq F I. unfold pointer_callback. destruct (Rlt_dec (norm p) (1 / 100)) as [L|L].
  - destruct s as [[q|] t]; cbn [pl_pointer pl_text] in *.
    + exists plotter_shown. repeat split; try lra; reflexivity.
    + rewrite (I eq_refl). exists plotter_shown. repeat split; try lra; reflexivity.
  - destruct (closest_well query wells objs p) as [r|] eqn:E.
    + assert (Rg : regular (pt_well r)).
      { destruct (closest_cases _ _ _ _ _ E) as (a & b & W & _). rewrite Forall_forall in F. apply F. rewrite W. apply in_elt. }
      destruct (pointer_station _ _ _ _ _ Hq E Rg) as (ring & v & a & _ & _ & _ & _ & St). rewrite St.
      eexists. split; [reflexivity|]. cbn [pl_pointer pl_text]. split; [discriminate|]. split; [intros; lra|]. intros _. split; [reflexivity|]. split.
      * intros N. exfalso. rewrite (proj2 (pointer_none query wells objs p) N) in E. discriminate.
      * intros r' [= <-]. exists a. split; [exact St|reflexivity].
    + eexists. split; [reflexivity|]. cbn [pl_pointer pl_text]. split; [discriminate|]. split; [intros; lra|]. intros _. split; [reflexivity|]. split; [reflexivity|]. intros; discriminate.
Qed.
Lemma moves_app : forall query wells e1 e2 s, moves query wells (e1 ++ e2) s = match moves query wells e1 s with Some s => moves query wells e2 s | None => None end.
Proof. intros query wells. induction e1 as [|[o p] e1 IH]; intros; [reflexivity|]. cbn. destruct (pointer_callback query wells o p s); [apply IH|reflexivity]. Qed.
Lemma pointer_history : forall query wells events objs p, finds_nearest query -> Forall regular wells ->
  exists s, moves query wells (events ++ [(objs, p)]) plotter_shown = Some s /\
    (norm p < 1 / 100 -> s = plotter_shown) /\
    (1 / 100 <= norm p -> pl_pointer s = Some p /\
       ((forall w, In w wells -> ~ on_screen objs w) -> pl_text s = Coordinates p) /\
       (forall r, closest_well query wells objs p = Some r -> exists a, nth_error (d_rows (pt_well r)) (pt_station r) = Some a /\
          pl_text s = StationOf (d_name (pt_well r)) (st_md a) (degrees (st_inc a)) (degrees (st_azi a)) p)).
Proof.
  intros query wells events objs p Hq F. rewrite moves_app.
  assert (G : forall ev s, (pl_pointer s = None -> pl_text s = NoText) -> exists s', moves query wells ev s = Some s' /\ (pl_pointer s' = None -> pl_text s' = NoText)).
  { induction ev as [|[o q] ev IH]; intros s I; [exists s; split; [reflexivity|exact I]|]. cbn.
    destruct (callback_any query wells o q s Hq F I) as (s' & E & I' & _). rewrite E. apply IH. exact I'. }
  destruct (G events plotter_shown) as (s & E & I); [reflexivity|]. rewrite E. cbn.
  destruct (callback_any query wells objs p s Hq F I) as (s' & E' & _ & A & B). rewrite E'. exists s'. split; [reflexivity|]. split; [exact A|exact B].
Qed.
Lemma first_nearest_finds : finds_nearest first_nearest.
Proof.
  intros l p. induction l as [|a r IH]; intros N; [congruence|]. destruct r as [|b r].
  - exists a. cbn. split; [reflexivity|]. split; [reflexivity|]. intros q' [<-|[]]. lra.
  - destruct IH as (q & Q1 & Q2 & Q3); [discriminate|].
    change (first_nearest (a :: b :: r) p) with (let '(d, i) := first_nearest (b :: r) p in if Rle_dec (dist p a) d then (dist p a, O) else (d, S i)).
    destruct (first_nearest (b :: r) p) as [d i]. cbn [fst snd] in *. subst d. destruct (Rle_dec (dist p a) (dist p q)) as [L|L]; cbn [fst snd].
    + exists a. split; [reflexivity|]. split; [reflexivity|]. intros q' [<-|H]; [lra|]. specialize (Q3 q' H). lra.
    + exists q. split; [exact Q1|]. split; [reflexivity|]. intros q' [<-|H]; [lra|]. exact (Q3 q' H).
Qed.
