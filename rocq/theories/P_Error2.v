(** Totals of ToolError, scaling, causality, JSON tool models: C24, C26, C27, C52, C53. *)
Require Import Reals Lra Psatz Lia Bool String List.
Require Import Verif.Base Verif.NumPy Verif.Spec Verif.M_Utils Verif.M_Error Verif.Spec_Error.
Require Import Verif.P_Utils2 Verif.P_Error.
Import ListNotations.
Open Scope R_scope.

(** * totals *)
Definition at_ (l : list M3) (k : nat) : M3 := nth k l mzero.
(** the sum, over the sources selected by [f], of the covariance at station k *)
Definition sum_at (f : error -> bool) (l : list error) (k : nat) : M3 :=
  msum (map (fun e => at_ (er_cov_NEV e) k) (filter f l)).
Definition is_prop (s : string) (e : error) : bool := String.eqb (er_propagation e) s.

Lemma at_nth : forall l k c, nth_error l k = Some c -> at_ l k = c.
Proof. intros. unfold at_. apply nth_error_nth; auto. Qed.
Lemma at_map2 : forall l m k, length l = length m -> at_ (map2 madd l m) k = madd (at_ l k) (at_ m k).
Proof.
  unfold at_. induction l; destruct m; simpl; intros; try discriminate.
  - destruct k; simpl; vring.
  - destruct k; simpl; auto. unfold map2 in IHl. apply IHl. lia.
Qed.
Lemma at_zeros : forall n k, at_ (zeros n) k = mzero.
Proof. unfold at_, zeros. induction n; destruct k; simpl; auto. Qed.

Lemma msum_app : forall l m, msum (l ++ m) = madd (msum l) (msum m).
Proof.
  induction l; simpl; intros. rewrite madd_0_l. reflexivity.
  unfold msum in *. simpl. rewrite IHl. apply madd_assoc.
Qed.

Section Totals.
  Variable n : nat.
  Definition ok_err (e : error) := length (er_cov_NEV e) = n.
  Definition ok_tot (t : totals) := length (t_all t) = n /\ length (t_random t) = n /\
    length (t_systematic t) = n /\ length (t_global t) = n /\ length (t_within_pad t) = n.
  Lemma add_ok : forall t e, ok_tot t -> ok_err e -> ok_tot (add_error t e).
  Proof.
    intros t e (A & B & C & D & E) H. unfold ok_err in H.
    unfold add_error, ok_tot; simpl.
    repeat match goal with |- context[if ?b then _ else _] => destruct b end;
    rewrite ?map2_length; rewrite ?H; auto 10.
  Qed.
  Lemma add_at : forall t e k, ok_tot t -> ok_err e ->
    let c := at_ (er_cov_NEV e) k in
    at_ (t_all (add_error t e)) k = madd (at_ (t_all t) k) c /\
    at_ (t_random (add_error t e)) k = madd (at_ (t_random t) k) (if is_prop "random" e then c else mzero) /\
    at_ (t_systematic (add_error t e)) k = madd (at_ (t_systematic t) k) (if is_prop "systematic" e then c else mzero) /\
    at_ (t_global (add_error t e)) k = madd (at_ (t_global t) k) (if is_prop "global" e then c else mzero) /\
    at_ (t_within_pad (add_error t e)) k = madd (at_ (t_within_pad t) k) (if is_prop "within_pad" e then c else mzero).
  Proof.
    intros t e k (A & B & C & D & E) H c. unfold ok_err in H. unfold is_prop, add_error; simpl.
    destruct (String.eqb_spec (er_propagation e) "random") as [E1|N1]; rewrite ?E1; simpl;
    [|destruct (String.eqb_spec (er_propagation e) "systematic") as [E2|N2]; rewrite ?E2; simpl;
      [|destruct (String.eqb_spec (er_propagation e) "global") as [E3|N3]; rewrite ?E3; simpl;
        [|destruct (String.eqb_spec (er_propagation e) "within_pad") as [E4|N4]; rewrite ?E4; simpl]]];
    rewrite ?madd_0_r, ?at_map2 by congruence; auto 10.
  Qed.
End Totals.

Lemma sum_errors_some : forall n l t0, ok_tot n t0 -> Forall (ok_err n) l ->
  exists t, sum_errors t0 (map Some l) = Some t /\ ok_tot n t /\
  forall k, at_ (t_all t) k = madd (at_ (t_all t0) k) (sum_at (fun _ => true) l k) /\
    at_ (t_random t) k = madd (at_ (t_random t0) k) (sum_at (is_prop "random") l k) /\
    at_ (t_systematic t) k = madd (at_ (t_systematic t0) k) (sum_at (is_prop "systematic") l k) /\
    at_ (t_global t) k = madd (at_ (t_global t0) k) (sum_at (is_prop "global") l k) /\
    at_ (t_within_pad t) k = madd (at_ (t_within_pad t0) k) (sum_at (is_prop "within_pad") l k).
Proof.
  induction l; simpl; intros t0 H0 HF.
  - exists t0. split; [reflexivity|split; [auto|]]. intro k. unfold sum_at; simpl. rewrite !madd_0_r. auto.
  - inversion HF as [|? ? H1 H2]; subst. destruct (IHl (add_error t0 a)) as (t & T & O & K); auto using add_ok.
    exists t. split; auto. split; auto. intro k. destruct (K k) as (A & B & C & D & E).
    destruct (add_at n t0 a k H0 H1) as (A' & B' & C' & D' & E').
    unfold sum_at in *. simpl.
    rewrite A, B, C, D, E, A', B', C', D', E'.
    destruct (is_prop "random" a), (is_prop "systematic" a), (is_prop "global" a), (is_prop "within_pad" a);
    simpl; rewrite ?madd_0_r, ?madd_assoc; auto 10.
Qed.
Lemma sum_errors_none : forall l t0, In None l <-> sum_errors t0 l = None.
Proof.
  induction l as [|[e|] l IH]; simpl; intros.
  - split; [tauto|discriminate].
  - rewrite <- IH. split; [intros [H|H]; [discriminate|auto]|auto].
  - tauto.
Qed.
Lemma all_some : forall (l : list (option error)), ~ In None l -> exists m, l = map Some m.
Proof.
  induction l as [|[e|] l IH]; simpl; intros.
  - exists []; auto.
  - destruct IH as [m ->]. tauto. exists (e :: m). reflexivity.
  - tauto.
Qed.
Lemma zeros_ok : forall n, ok_tot n (mkTotals (zeros n) (zeros n) (zeros n) (zeros n) (zeros n)).
Proof. intro. unfold ok_tot, zeros; simpl. rewrite repeat_length. auto. Qed.

Lemma nth_at : forall l k, (k < length l)%nat -> nth_error l k = Some (at_ l k).
Proof. intros. unfold at_. apply nth_error_nth'; auto. Qed.

(** the sources of a survey: errors with one of the four propagations *)
Definition known_prop (e : error) : Prop :=
  In (er_propagation e) ["random"; "systematic"; "global"; "within_pad"]%string.
Lemma split_props : forall l k, Forall known_prop l ->
  sum_at (fun _ => true) l k =
  madd (madd (sum_at (is_prop "random") l k) (sum_at (is_prop "systematic") l k))
       (madd (sum_at (is_prop "global") l k) (sum_at (is_prop "within_pad") l k)).
Proof.
  intros l k. unfold sum_at. induction l; simpl; intro F.
  - unfold msum; simpl. vring.
  - inversion F as [|? ? H1 H2]; subst. rewrite IHl by auto. unfold is_prop. unfold known_prop in H1; simpl in H1.
    destruct H1 as [E|[E|[E|[E|[]]]]]; rewrite <- E; simpl;
    set (c := at_ (er_cov_NEV a) k);
    set (x := msum (map _ (filter (fun e => (er_propagation e =? "random")%string) l)));
    set (y := msum (map _ (filter (fun e => (er_propagation e =? "systematic")%string) l)));
    set (z := msum (map _ (filter (fun e => (er_propagation e =? "global")%string) l)));
    set (w := msum (map _ (filter (fun e => (er_propagation e =? "within_pad")%string) l)));
    clearbody c x y z w; vring.
Qed.

Lemma from_generate_ok : forall rev4 sv e, (0 < length sv)%nat ->
  from_generate (drdp rev4 sv) (length sv) (Some e) ->
  ok_err (length sv) e /\ known_prop e /\
  (forall k c, nth_error (er_cov_NEV e) k = Some c -> symmetric c /\ psd c).
Proof.
  intros rev4 sv e H0 (code & ed & p & given & G & L). symmetry in G.
  destruct (generate_cases _ _ _ _ _ _ G) as (P & _ & E & K).
  assert (LL : length (er_e_NEV e) = length sv /\ length (er_e_NEV_star e) = length sv).
  { destruct given as [[a b]|].
    - injection E; intros -> ->. auto.
    - destruct (e_NEV_length rev4 sv ed H0 L). injection E; intros -> ->. auto. }
  destruct LL as [L1 L2].
  split; [|split].
  - unfold ok_err. rewrite (cov_length _ _ _ _ _ _ G); lia.
  - unfold known_prop. rewrite P. destruct K as [[I _]|[-> _]]; simpl in *; intuition.
  - intros k c Hc. eapply source_valid; eauto. congruence.
Qed.
Lemma totals_valid : forall rev4 sv l t,
  (0 < length sv)%nat -> Forall (from_generate (drdp rev4 sv) (length sv)) l ->
  tool_totals (length sv) l = Some t ->
  exists errs, l = map Some errs /\
  length (t_all t) = length sv /\ length (t_random t) = length sv /\
  length (t_systematic t) = length sv /\ length (t_global t) = length sv /\
  length (t_within_pad t) = length sv /\
  forall k, (k < length sv)%nat ->
    exists a r s g w,
      nth_error (t_all t) k = Some a /\ nth_error (t_random t) k = Some r /\
      nth_error (t_systematic t) k = Some s /\ nth_error (t_global t) k = Some g /\
      nth_error (t_within_pad t) k = Some w /\
      a = msum (map (fun e => nth k (er_cov_NEV e) mzero) errs) /\
      a = madd (madd r s) (madd g w) /\
      (symmetric a /\ psd a) /\ (symmetric r /\ psd r) /\ (symmetric s /\ psd s) /\
      (symmetric g /\ psd g) /\ (symmetric w /\ psd w).
Proof.
  intros rev4 sv l t H0 HF T.
  assert (NN : ~ In None l). { intro I. apply (sum_errors_none l (mkTotals (zeros (length sv)) (zeros (length sv)) (zeros (length sv)) (zeros (length sv)) (zeros (length sv)))) in I. unfold tool_totals in T. congruence. }
  destruct (all_some l NN) as [errs ->]. exists errs. split; auto.
  assert (OK : forall e, In e errs -> ok_err (length sv) e /\ known_prop e /\
            (forall k c, nth_error (er_cov_NEV e) k = Some c -> symmetric c /\ psd c)).
  { intros e He. apply (from_generate_ok rev4 sv e H0). rewrite Forall_forall in HF. apply HF. apply in_map; auto. }
  destruct (sum_errors_some (length sv) errs _ (zeros_ok (length sv))) as (t' & T' & (O1 & O2 & O3 & O4 & O5) & K).
  { apply Forall_forall. intros; apply OK; auto. }
  unfold tool_totals in T. rewrite T' in T. injection T; intro; subst t'.
  repeat (split; [assumption|]).
  intros k Hk. destruct (K k) as (A & B & C & D & E). cbn [t_all t_random t_systematic t_global t_within_pad] in A, B, C, D, E.
  rewrite at_zeros, madd_0_l in A, B, C, D, E.
  exists (at_ (t_all t) k), (at_ (t_random t) k), (at_ (t_systematic t) k), (at_ (t_global t) k), (at_ (t_within_pad t) k).
  rewrite !nth_at by congruence.
  do 5 (split; [reflexivity|]).
  assert (V : forall f, psd (sum_at f errs k) /\ symmetric (sum_at f errs k)).
  { intro f. apply psd_msum. intros m Hm. apply in_map_iff in Hm. destruct Hm as (e & <- & He).
    apply filter_In in He. destruct (OK e (proj1 He)) as (L & _ & V).
    destruct (V k (at_ (er_cov_NEV e) k)); auto. apply nth_at. unfold ok_err in L. congruence. }
  split. { rewrite A. unfold sum_at. f_equal. replace (filter (fun _ : error => true) errs) with errs; auto.
           clear. induction errs; simpl; congruence. }
  split. { rewrite A, B, C, D, E. apply split_props. apply Forall_forall. intros; apply OK; auto. }
  rewrite A, B, C, D, E.
  pose proof (V (fun _ => true)). pose proof (V (is_prop "random")). pose proof (V (is_prop "systematic")).
  pose proof (V (is_prop "global")). pose proof (V (is_prop "within_pad")). tauto.
Qed.

(** * scaling the magnitude *)
Lemma map2_ext : forall A B C (f g : A -> B -> C) l m, (forall a b, f a b = g a b) -> map2 f l m = map2 g l m.
Proof. intros. unfold map2. apply map_ext. auto. Qed.
Lemma map2_map_r : forall A B B' C (f : A -> B' -> C) (g : B -> B') l m,
  map2 f l (map g m) = map2 (fun a b => f a (g b)) l m.
Proof. induction l; destruct m; simpl; auto. unfold map2 in *. simpl. f_equal. apply IHl. Qed.
Lemma map2_map_l : forall A A' B C (f : A' -> B -> C) (g : A -> A') l m,
  map2 f (map g l) m = map2 (fun a b => f (g a) b) l m.
Proof. induction l; destruct m; simpl; auto. unfold map2 in *. simpl. f_equal. apply IHl. Qed.
Lemma map_map2 : forall A B C D (f : A -> B -> C) (h : C -> D) l m,
  map h (map2 f l m) = map2 (fun a b => h (f a b)) l m.
Proof. intros. unfold map2. rewrite map_map. reflexivity. Qed.
Lemma zero_first_scale : forall c l, zero_first (map (vscale c) l) = map (vscale c) (zero_first l).
Proof. destruct l; simpl; auto. f_equal. vring. Qed.
Lemma e_NEV_scale : forall c d e,
  M_Error.e_NEV d (map (vscale c) e) = map (vscale c) (M_Error.e_NEV d e) /\
  M_Error.e_NEV_star d (map (vscale c) e) = map (vscale c) (M_Error.e_NEV_star d e).
Proof.
  intros. unfold M_Error.e_NEV, M_Error.e_NEV_star.
  rewrite <- !zero_first_scale, !map2_map_r, !map_map2.
  split; f_equal; apply map2_ext; intros; unfold e_NEV_row, e_NEV_star_row; destruct a; vring.
Qed.
Lemma vcumsum_scale : forall c l acc,
  vcumsum_from (vscale c acc) (map (vscale c) l) = map (vscale c) (vcumsum_from acc l).
Proof.
  induction l; simpl; intros; auto.
  replace (vadd (vscale c acc) (vscale c a)) with (vscale c (vadd acc a)) by vring. f_equal. apply IHl.
Qed.
Lemma mcumsum_scale : forall c l acc,
  mcumsum_from (mscale c acc) (map (mscale c) l) = map (mscale c) (mcumsum_from acc l).
Proof.
  induction l; simpl; intros; auto.
  replace (madd (mscale c acc) (mscale c a)) with (mscale c (madd acc a)) by vring. f_equal. apply IHl.
Qed.
Lemma removelast_map : forall A B (f : A -> B) l, removelast (map f l) = map f (removelast l).
Proof. induction l; auto. destruct l; auto. simpl in *. rewrite IHl. reflexivity. Qed.
Lemma cov_scale : forall c l,
  map cov_from_vec (map (vscale c) l) = map (mscale (c * c)) (map cov_from_vec l).
Proof. intros. rewrite !map_map. apply map_ext. intros. unfold cov_from_vec. vring. Qed.
Lemma sigma_scale : forall c e s,
  sigma_systematic (map (vscale c) e) (map (vscale c) s) = map (vscale c) (sigma_systematic e s).
Proof.
  intros. unfold sigma_systematic. rewrite map_map2, map2_map_l.
  destruct e as [|e0 e].
  - simpl. unfold map2. rewrite !combine_nil. reflexivity.
  - assert (Q : vcumsum (map (vscale c) (e0 :: e)) = map (vscale c) (vcumsum (e0 :: e))).
    { unfold vcumsum. rewrite <- vcumsum_scale. f_equal. vring. }
    rewrite Q, removelast_map. change (map (vscale c) (e0 :: e)) with (vscale c e0 :: map (vscale c) e).
    cbv iota.
    change (vscale c e0 :: map (vscale c) (removelast (vcumsum (e0 :: e))))
      with (map (vscale c) (e0 :: removelast (vcumsum (e0 :: e)))).
    rewrite map2_map_r. apply map2_ext. vring.
Qed.
Lemma random_scale : forall c e s,
  cov_random (map (vscale c) e) (map (vscale c) s) = map (mscale (c * c)) (cov_random e s).
Proof.
  intros. unfold cov_random. rewrite map_map2, !cov_scale, map2_map_l.
  assert (Q : forall l, mcumsum (map (mscale (c*c)) l) = map (mscale (c*c)) (mcumsum l)).
  { intro. unfold mcumsum. rewrite <- mcumsum_scale. f_equal. vring. }
  rewrite Q, removelast_map.
  replace (mzero :: map (mscale (c*c)) (removelast (mcumsum (map cov_from_vec e))))
    with (map (mscale (c*c)) (mzero :: removelast (mcumsum (map cov_from_vec e)))).
  2: { simpl. f_equal. vring. }
  rewrite map2_map_r. apply map2_ext. vring.
Qed.
Lemma magnitude_scale : forall d code e p c er,
  generate_error d code e p None = Some er ->
  exists er', generate_error d code (map (vscale c) e) p None = Some er' /\
    er_cov_NEV er' = map (mscale (c * c)) (er_cov_NEV er).
Proof.
  intros d code e p c er G. unfold generate_error in *.
  destruct (e_NEV_scale c d e) as [-> ->].
  destruct ((p =? "systematic")%string || (p =? "global")%string || (p =? "within_pad")%string)%bool.
  - injection G; intro; subst er. eexists. split; [reflexivity|]. simpl.
    rewrite sigma_scale, cov_scale. reflexivity.
  - destruct (p =? "random")%string; [|discriminate].
    injection G; intro; subst er. eexists. split; [reflexivity|]. simpl. apply random_scale.
Qed.

(** * causality *)
Lemma firstn_nth : forall A m (l l' : list A), firstn m l = firstn m l' ->
  forall j, (j < m)%nat -> nth_error l j = nth_error l' j.
Proof.
  induction m; intros l l' H j Hj. lia.
  destruct l, l'; simpl in H; try discriminate; auto.
  destruct j; simpl. congruence. apply IHm. congruence. lia.
Qed.
Lemma nth_firstn : forall A m (l l' : list A),
  (forall j, (j < m)%nat -> nth_error l j = nth_error l' j) -> firstn m l = firstn m l'.
Proof.
  induction m; intros l l' H; auto.
  pose proof (H 0%nat ltac:(lia)) as H1. destruct l, l'; simpl in H1; try discriminate; auto.
  simpl. f_equal. congruence. apply IHm. intros j Hj. apply (H (S j)). lia.
Qed.
Lemma e_NEV_agree : forall rev4 sv sv' e e' k,
  firstn (S k) sv = firstn (S k) sv' -> firstn (S k) e = firstn (S k) e' ->
  (k < length sv)%nat -> (k < length sv')%nat -> (k < length e)%nat -> (k < length e')%nat ->
  nth_error (M_Error.e_NEV_star (drdp rev4 sv) e) k = nth_error (M_Error.e_NEV_star (drdp rev4 sv') e') k /\
  firstn k (M_Error.e_NEV (drdp rev4 sv) e) = firstn k (M_Error.e_NEV (drdp rev4 sv') e').
Proof.
  intros rev4 sv sv' e e' k Hs He L1 L2 L3 L4.
  pose proof (firstn_nth _ _ _ _ Hs) as NS. pose proof (firstn_nth _ _ _ _ He) as NE.
  assert (G : forall l j, (j < length l)%nat -> exists s : station, nth_error l j = Some s).
  { intros l j Hj. destruct (nth_error l j) eqn:E; eauto. apply nth_error_None in E. lia. }
  assert (D0 : forall sv : list station, (k < length sv)%nat -> exists r l, drdp rev4 sv = r :: l).
  { intros s Hl. pose proof (drdp_length rev4 s ltac:(lia)). destruct (drdp rev4 s); simpl in *; [lia|eauto]. }
  split.
  - destruct k as [|k].
    + destruct (D0 sv L1) as (r & l & D). destruct (D0 sv' L2) as (r' & l' & D').
      unfold M_Error.e_NEV_star. rewrite D, D'.
      destruct e, e'; simpl in *; try lia. reflexivity.
    + unfold M_Error.e_NEV_star. rewrite !zero_first_nth, !map2_nth.
      destruct (G sv (S k) L1) as [s E]. assert (E' : nth_error sv' (S k) = Some s) by (rewrite <- NS; auto).
      rewrite (drdp_nth _ _ _ _ E), (drdp_nth _ _ _ _ E'), <- NE by lia.
      unfold before. rewrite <- NS by lia.
      destruct (nth_error e (S k)); auto.
  - apply nth_firstn. intros j Hj.
    destruct j as [|j].
    + destruct (D0 sv L1) as (r & l & D). destruct (D0 sv' L2) as (r' & l' & D').
      unfold M_Error.e_NEV. rewrite D, D'.
      destruct e, e'; simpl in *; try lia. reflexivity.
    + unfold M_Error.e_NEV. rewrite !zero_first_nth, !map2_nth.
      destruct (G sv (S j) ltac:(lia)) as [s E]. assert (E' : nth_error sv' (S j) = Some s) by (rewrite <- NS; auto; lia).
      rewrite (drdp_nth _ _ _ _ E), (drdp_nth _ _ _ _ E'), <- NE by lia.
      unfold before. rewrite <- !NS by lia. reflexivity.
Qed.
Lemma causality : forall rev4 sv sv' code e e' p er er' k,
  length e = length sv -> length e' = length sv' ->
  (k < length sv)%nat -> (k < length sv')%nat ->
  firstn (S k) sv = firstn (S k) sv' -> firstn (S k) e = firstn (S k) e' ->
  generate_error (drdp rev4 sv) code e p None = Some er ->
  generate_error (drdp rev4 sv') code e' p None = Some er' ->
  nth_error (er_cov_NEV er) k = nth_error (er_cov_NEV er') k.
Proof.
  intros rev4 sv sv' code e e' p er er' k L L' K K' S1 S2 G G'.
  assert (P0 : (0 < length sv)%nat) by lia. assert (P0' : (0 < length sv')%nat) by lia.
  destruct k as [|k].
  { destruct (source_first _ _ _ _ _ _ P0 L G) as [_ ->].
    destruct (source_first _ _ _ _ _ _ P0' L' G') as [_ ->]. reflexivity. }
  destruct (e_NEV_agree rev4 sv sv' e e' (S k) S1 S2) as [A B]; try lia.
  destruct (generate_cases _ _ _ _ _ _ G) as (_ & _ & E & _). injection E; intros E2 E1.
  destruct (generate_cases _ _ _ _ _ _ G') as (_ & _ & E' & _). injection E'; intros E2' E1'.
  destruct (e_NEV_length rev4 sv e P0 L) as [X1 X2].
  destruct (e_NEV_length rev4 sv' e' P0' L') as [X1' X2'].
  rewrite <- E1 in *. rewrite <- E1' in *. rewrite <- E2 in *. rewrite <- E2' in *.
  destruct (nth_error (er_e_NEV_star er) (S k)) as [a|] eqn:Ha.
  2: { apply nth_error_None in Ha. lia. }
  symmetry in A.
  destruct (string_dec p "random") as [->|N].
  - rewrite (random_law _ _ _ _ _ _ a G); auto; [|congruence].
    rewrite (random_law _ _ _ _ _ _ a G'); auto; [|congruence]. rewrite B. reflexivity.
  - rewrite (systematic_law _ _ _ _ _ _ _ a G N); auto; [|congruence].
    rewrite (systematic_law _ _ _ _ _ _ _ a G' N); auto; [|congruence].
    replace (Nat.max 1 (S k)) with (S k) by lia. rewrite B. reflexivity.
Qed.

(** * JSON tool models *)
Lemma json_propagation_known : forall m,
  (m = "Well"%string /\ json_propagation m = "well"%string) \/
  (m <> "Well"%string /\ In (json_propagation m) ["random"; "systematic"; "global"]%string).
Proof.
  intro m. unfold json_propagation.
  destruct (String.eqb_spec m "Random") as [->|]; [right; split; [discriminate|simpl; auto]|].
  destruct (String.eqb_spec m "Systematic") as [->|]; [right; split; [discriminate|simpl; auto]|].
  destruct (String.eqb_spec m "Global") as [->|]; [right; split; [discriminate|simpl; auto]|].
  destruct (String.eqb_spec m "Well") as [->|]; [left; auto|right; simpl; auto].
Qed.
Lemma interp_none : forall d t, call_interpreter d t = None <-> tm_mode t = "Well"%string.
Proof.
  intros. unfold call_interpreter, generate_error.
  destruct (json_propagation_known (tm_mode t)) as [[E ->]|[E [<-|[<-|[<-|[]]]]]]; simpl;
  split; intro; auto; try discriminate; try (exfalso; auto; fail).
Qed.
Lemma dict_set_new : forall A k (v : A) d, ~ In k (map fst d) -> dict_set k v d = d ++ [(k, v)].
Proof.
  induction d as [|[k' v'] d IH]; simpl; intros; auto.
  destruct (String.eqb_spec k k') as [->|]. tauto. rewrite IH by tauto. reflexivity.
Qed.
Lemma dict_set_in : forall A k (v : A) d x, NoDup (map fst d) ->
  In x (dict_set k v d) <-> (x = (k, v) \/ (In x d /\ fst x <> k)).
Proof.
  induction d as [|[k' v'] d IH]; simpl; intros x ND.
  - intuition.
  - inversion ND as [|? ? N1 N2]; subst. destruct (String.eqb_spec k k') as [->|E]; simpl.
    + split.
      * intros [<-|H]; auto. right. split; auto. intro. apply N1. rewrite <- H0. apply in_map; auto.
      * intros [->|[[<-|H] Hn]]; auto. simpl in Hn; congruence.
    + rewrite IH by auto. split.
      * intros [<-|[->|[H Hn]]]; auto.
      * intros [->|[[<-|H] Hn]]; auto.
Qed.
Lemma dict_set_keys : forall A k (v : A) d,
  map fst (dict_set k v d) = if in_dec string_dec k (map fst d) then map fst d else map fst d ++ [k].
Proof.
  induction d as [|[k' v'] d IH]; simpl; auto.
  destruct (String.eqb_spec k k') as [->|E]; simpl.
  - destruct (string_dec k' k') as [|Q]; [reflexivity|elim Q; reflexivity].
  - rewrite IH. destruct (string_dec k' k) as [Q|]; [elim E; auto|].
    destruct (in_dec string_dec k (map fst d)); reflexivity.
Qed.
Lemma json_codes_spec : forall terms,
  NoDup (map fst (json_codes terms)) /\
  (forall n t, In (n, t) (json_codes terms) <->
     exists a b, terms = a ++ t :: b /\ tm_name t = n /\ forall u, In u b -> tm_name u <> n).
Proof.
  unfold json_codes. induction terms as [|t terms IH] using rev_ind; simpl.
  - split. constructor. intros n t. split; [tauto|]. intros (a & b & H & _). destruct a; discriminate.
  - rewrite fold_left_app. simpl. destruct IH as [ND IH].
    set (d := fold_left (fun d t => dict_set (tm_name t) t d) terms []) in *.
    split.
    + rewrite dict_set_keys. destruct (in_dec string_dec (tm_name t) (map fst d)); auto.
      apply NoDup_Add with (a := tm_name t) (l := map fst d).
      * rewrite <- (app_nil_r (map fst d)) at 1. apply Add_app.
      * auto.
    + intros n u. rewrite dict_set_in by auto. rewrite IH. split.
      * intros [E|[(a & b & E & N & F) Hn]].
        -- injection E; intros; subst. exists terms, []. simpl. auto.
        -- exists a, (b ++ [t]). subst terms. rewrite <- app_assoc. simpl. split; [auto|split; [auto|]].
           intros w Hw. apply in_app_iff in Hw. destruct Hw as [Hw|[<-|[]]]; auto.
      * intros (a & b & E & N & F).
        destruct b as [|x b] using rev_ind.
        -- apply app_inj_tail in E. destruct E as [-> ->]. subst n. auto.
        -- clear IHb. right. rewrite app_comm_cons, app_assoc in E.
           apply app_inj_tail in E. destruct E as [-> ->]. simpl. split.
           ++ exists a, b. split; auto. split; auto. intros w Hw. apply F. apply in_app_iff; auto.
           ++ intro. apply (F x). apply in_app_iff; simpl; auto. auto.
Qed.
Lemma json_codes_nodup : forall terms, NoDup (map tm_name terms) ->
  json_codes terms = map (fun t => (tm_name t, t)) terms.
Proof.
  unfold json_codes. induction terms as [|t terms IH] using rev_ind; simpl; intros ND; auto.
  rewrite fold_left_app, map_app. simpl. rewrite map_app in ND. simpl in ND.
  apply NoDup_remove in ND. rewrite app_nil_r in ND. destruct ND as [N1 N2].
  rewrite IH by auto. apply dict_set_new. rewrite map_map. simpl. auto.
Qed.
Lemma inc_check : forall (sv : list station) m,
  fold_right (fun s b => andb (if Rlt_dec (st_inc s) m then true else false) b) true sv = true
  <-> forall s, In s sv -> st_inc s < m.
Proof.
  induction sv; simpl; intros.
  - split; auto. intros _ s [].
  - rewrite andb_true_iff, IHsv. split.
    + intros [A B] s [<-|H]; auto. destruct (Rlt_dec (st_inc a) m); auto. discriminate.
    + intros H. split; auto. destruct (Rlt_dec (st_inc a) m); auto.
Qed.
Lemma tool_none : forall n l, tool_totals n l = None <-> In None l.
Proof. intros. unfold tool_totals. rewrite <- sum_errors_none. tauto. Qed.
Lemma json_fails : forall rev4 m sv terms,
  json_tool_error rev4 m sv terms = None <->
  (exists s, In s sv /\ m <= st_inc s) \/
  (exists a t b, terms = a ++ t :: b /\ tm_mode t = "Well"%string /\
     forall u, In u b -> tm_name u <> tm_name t).
Proof.
  intros. unfold json_tool_error.
  destruct (fold_right _ true sv) eqn:E.
  - rewrite inc_check in E. rewrite tool_none, in_map_iff. split.
    + intros ((n & t) & I & H). right. apply interp_none in I. simpl in I.
      apply (proj2 (json_codes_spec terms)) in H. destruct H as (a & b & -> & N & F). subst n. eauto 6.
    + intros [(s & Hs & L)|(a & t & b & -> & W & F)].
      * specialize (E s Hs). lra.
      * exists (tm_name t, t). split. apply interp_none; auto.
        apply (proj2 (json_codes_spec _)). eauto 6.
  - split; auto. intros _. left.
    clear terms. revert E. induction sv; simpl; intros; [discriminate|].
    destruct (Rlt_dec (st_inc a) m).
    + destruct IHsv as (s & Hs & L); eauto.
    + exists a. split; auto. lra.
Qed.
Lemma json_totals_valid : forall rev4 m sv terms t,
  (0 < length sv)%nat -> (forall x l, In x terms -> tm_dpde x = Some l -> length l = length sv) ->
  json_tool_error rev4 m sv terms = Some t ->
  forall k, (k < length sv)%nat ->
  exists a r s g w,
      nth_error (t_all t) k = Some a /\ nth_error (t_random t) k = Some r /\
      nth_error (t_systematic t) k = Some s /\ nth_error (t_global t) k = Some g /\
      nth_error (t_within_pad t) k = Some w /\
      a = madd (madd r s) (madd g w) /\
      (symmetric a /\ psd a) /\ (symmetric r /\ psd r) /\ (symmetric s /\ psd s) /\
      (symmetric g /\ psd g) /\ (symmetric w /\ psd w) /\
      (k = 0%nat -> a = mzero).
Proof.
  intros rev4 m sv terms t H0 HL J k Hk. unfold json_tool_error in J.
  destruct (fold_right _ true sv); [|discriminate].
  assert (HT : forall x, In x (json_codes terms) -> exists y, x = (tm_name y, y) /\ In y terms).
  { intros [n y] Hy. apply (proj2 (json_codes_spec terms)) in Hy. destruct Hy as (a & b & -> & <- & _).
    exists y. split; auto. apply in_app_iff. simpl; auto. }
  assert (HE : forall x, In x terms -> length (map (vscale (tm_value x * mag_unit_to_base (tm_unit x)))
       (match tm_dpde x with Some l => l | None => repeat vzero (length (drdp rev4 sv)) end)) = length sv).
  { intros x Hx. rewrite map_length. destruct (tm_dpde x) eqn:E; eauto.
    rewrite repeat_length. apply drdp_length; auto. }
  assert (HF : Forall (from_generate (drdp rev4 sv) (length sv))
    (map (fun kt : string * term => call_interpreter (drdp rev4 sv) (snd kt)) (json_codes terms))).
  { apply Forall_forall. intros o Ho. apply in_map_iff in Ho. destruct Ho as (x & <- & Hx).
    destruct (HT x Hx) as (y & -> & Hy). simpl.
    unfold from_generate, call_interpreter. do 4 eexists. split; [reflexivity|]. simpl. apply HE; auto. }
  destruct (totals_valid rev4 sv _ t H0 HF J) as (errs & EM & L1 & L2 & L3 & L4 & L5 & K).
  destruct (K k Hk) as (a & r & s & g & w & A & B & C & D & E & S1 & S2 & V).
  exists a, r, s, g, w. do 6 (split; [assumption|]).
  destruct V as (V1 & V2 & V3 & V4 & V5). do 5 (split; [assumption|]).
  intros ->. rewrite S1.
  assert (Z : forall e, In e errs -> nth 0 (er_cov_NEV e) mzero = mzero).
  { intros e He. assert (I : In (Some e) (map Some errs)) by (apply in_map; auto).
    rewrite <- EM in I. apply in_map_iff in I. destruct I as (x & G & Hx).
    destruct (HT x Hx) as (y & -> & Hy). simpl in G. unfold call_interpreter in G.
    destruct (source_first _ _ _ _ _ _ H0 (HE y Hy) G) as [_ F].
    apply nth_error_nth. auto. }
  clear -Z. induction errs; simpl; auto. unfold msum. simpl. fold (msum (map (fun e => nth 0 (er_cov_NEV e) mzero) errs)).
  rewrite IHerrs by (intros; apply Z; simpl; auto). rewrite (Z a) by (simpl; auto). vring.
Qed.
Lemma unit_effect : forall d t er, tm_unit t = "deg.nT"%string ->
  call_interpreter d t = Some er ->
  exists er', call_interpreter d (mkTerm (tm_name t) (tm_value t) (tm_mode t) "deg/nT" (tm_dpde t)) = Some er' /\
  er_cov_NEV er' = map (mscale ((PI / 180) * (PI / 180))) (er_cov_NEV er).
Proof.
  intros d t er U G. unfold call_interpreter in *. simpl. rewrite U in G.
  replace (mag_unit_to_base "deg.nT") with 1 in G by reflexivity.
  change (mag_unit_to_base "deg/nT") with (PI / 180).
  destruct (magnitude_scale _ _ _ _ (PI/180) _ G) as (er' & G' & C).
  exists er'. split; auto. rewrite <- G'. f_equal.
  rewrite map_map. apply map_ext. intros. vring.
Qed.

Lemma source_first_given : forall d code e p a b er,
  length a = length b -> nth_error a 0 = Some vzero -> nth_error b 0 = Some vzero ->
  generate_error d code e p (Some (a, b)) = Some er ->
  nth_error (er_cov_NEV er) 0 = Some mzero.
Proof.
  intros d code e p a b er L A B G.
  destruct (generate_cases _ _ _ _ _ _ G) as (_ & _ & E & _). injection E; intros E2 E1.
  assert (L' : length (er_e_NEV er) = length (er_e_NEV_star er)) by congruence.
  assert (B' : nth_error (er_e_NEV_star er) 0 = Some vzero) by congruence.
  destruct (string_dec p "random") as [->|N].
  - rewrite (random_law _ _ _ _ _ _ _ G L' B'). simpl. f_equal. unfold msum. simpl. vring.
  - rewrite (systematic_law _ _ _ _ _ _ _ _ G N L' B'). rewrite E1. simpl.
    destruct a; simpl in A; [discriminate|]. injection A; intro; subst v. simpl. f_equal. unfold vsum. simpl. vring.
Qed.

Lemma json_mode_law : forall d t er, call_interpreter d t = Some er ->
  er_code er = tm_name t /\
  (tm_mode t = "Random"%string -> er_propagation er = "random"%string) /\
  (tm_mode t = "Global"%string -> er_propagation er = "global"%string) /\
  (tm_mode t = "Systematic"%string -> er_propagation er = "systematic"%string) /\
  (~ In (tm_mode t) ["Random"; "Global"; "Well"]%string -> er_propagation er = "systematic"%string).
Proof.
  intros d t er H. unfold call_interpreter in H. cbv zeta in H.
  destruct (generate_cases _ _ _ _ _ _ H) as (P & C & _). split; auto. rewrite P. unfold json_propagation.
  split; [intros ->; reflexivity|]. split; [intros ->; reflexivity|]. split; [intros ->; reflexivity|].
  intro N. simpl in N.
  destruct (String.eqb_spec (tm_mode t) "Random") as [E|_]; [rewrite E in N; tauto|].
  destruct (String.eqb_spec (tm_mode t) "Systematic"); auto.
  destruct (String.eqb_spec (tm_mode t) "Global") as [E|_]; [rewrite E in N; tauto|].
  destruct (String.eqb_spec (tm_mode t) "Well") as [E|_]; [rewrite E in N; tauto|]. reflexivity.
Qed.
