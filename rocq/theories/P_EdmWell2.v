(** C127, C128: sections, cases and profiles. *)
Require Import Reals Bool String List Sorted Lra Lia.
Require Import Verif.M_Edm Verif.Spec_Edm Verif.M_EdmWell Verif.Spec_EdmWell Verif.P_EdmWell.
Import ListNotations.
Open Scope string_scope.
Open Scope list_scope.

(** ** hole sections *)
Lemma hole_sections_in : forall d g, In g (hole_sections d) <->
  exists k rows row, In (k, rows) d /\ In row rows /\ In ("hole_sect_group_id", g) row.
Proof.
  intros d g. unfold hole_sections. rewrite nodup_In, in_flat_map. split.
  - intros ([k rows] & K & H). apply in_flat_map in H. destruct H as (row & RW & H). apply in_flat_map in H. destruct H as ([t p] & T & H).
    cbn in H. destruct (String.eqb_spec t "hole_sect_group_id") as [->|N]; [|destruct H]. destruct H as [->|[]]. exists k, rows, row. auto.
  - intros (k & rows & row & K & RW & T). exists (k, rows). split; [exact K|]. apply in_flat_map. exists row. split; [exact RW|].
    apply in_flat_map. exists ("hole_sect_group_id", g). split; [exact T|]. cbn. auto.
Qed.
Definition pick (g k : string) (acc : list (string * attrib)) (row : attrib) : list (string * attrib) :=
  match get "hole_sect_group_id" row with Some h => if String.eqb h g then put k row acc else acc | None => acc end.
Lemma pick_other : forall g k rows acc k', k' <> k -> get k' (fold_left (pick g k) rows acc) = get k' acc.
Proof.
  intros g k rows. induction rows as [|row rows IH]; intros acc k' N; [reflexivity|]. cbn [fold_left]. rewrite IH by exact N.
  unfold pick. destruct (get "hole_sect_group_id" row) as [h|]; [|reflexivity]. destruct (String.eqb h g); [|reflexivity].
  rewrite get_put. apply String.eqb_neq in N. rewrite N. reflexivity.
Qed.
Lemma last_row_cons : forall P r rows row, last_row P (r :: rows) row <-> last_row P rows row \/ (r = row /\ P row /\ forall x, In x rows -> ~ P x).
Proof.
  intros P r rows row. unfold last_row. split.
  - intros ([|x before] & after & E & H & F); injection E as -> ->; [auto|]. left. exists before, after. auto.
  - intros [(before & after & -> & H & F)|(-> & H & F)]; [exists (r :: before), after|exists [], rows]; auto.
Qed.
Lemma pick_same : forall g k rows acc row, get k (fold_left (pick g k) rows acc) = Some row <->
  last_row (of_group g) rows row \/ (get k acc = Some row /\ forall x, In x rows -> ~ of_group g x).
Proof.
  intros g k rows. induction rows as [|r rows IH]; intros acc row.
  { cbn. split; [intro H; right; split; [exact H|intros x []]|]. intros [(b & a & E & _)|[H _]]; [destruct b; discriminate E|exact H]. }
  cbn [fold_left]. rewrite IH, last_row_cons. unfold pick.
  destruct (get "hole_sect_group_id" r) as [h|] eqn:G; [destruct (String.eqb_spec h g) as [->|N]|].
  - rewrite get_put, String.eqb_refl. split.
    + intros [H|[H F]]; [auto|]. injection H as ->. left. right. auto.
    + intros [[H|(-> & H & F)]|[H F]]; [auto|auto|]. exfalso. apply (F r); [left; reflexivity|exact G].
  - split.
    + intros [H|[H F]]; [auto|]. right. split; [exact H|]. intros x [<-|X]; [unfold of_group; congruence|auto].
    + intros [[H|(-> & H & F)]|[H F]]; [auto|unfold of_group in H; congruence|]. right. split; [exact H|]. intros x X. apply F. right. exact X.
  - split.
    + intros [H|[H F]]; [auto|]. right. split; [exact H|]. intros x [<-|X]; [unfold of_group; congruence|auto].
    + intros [[H|(-> & H & F)]|[H F]]; [auto|unfold of_group in H; congruence|]. right. split; [exact H|]. intros x X. apply F. right. exact X.
Qed.
Lemma hole_from : forall g d acc k, a_dict d ->
  get k (fold_left (fun acc kv => fold_left (pick g (fst kv)) (snd kv) acc) d acc) =
  match get k d with Some rows => get k (fold_left (pick g k) rows acc) | None => get k acc end.
Proof.
  intros g d. induction d as [|[j rows] d IH]; intros acc k D; [reflexivity|]. unfold a_dict in D. cbn in D. inversion D as [|? ? D1 D2]; subst.
  cbn [fold_left fst snd get]. rewrite IH by exact D2. destruct (String.eqb_spec k j) as [->|N].
  - destruct (get j d) as [r|] eqn:G; [|reflexivity]. destruct D1. apply get_In in G. apply (in_map fst) in G. exact G.
  - destruct (get k d) as [r|]; [|apply pick_other; exact N].
    assert (EX : forall rows acc acc', get k acc = get k acc' -> get k (fold_left (pick g k) rows acc) = get k (fold_left (pick g k) rows acc')).
    { clear. induction rows as [|x rows IH]; intros acc acc' E; [exact E|]. cbn [fold_left]. apply IH. unfold pick.
      destruct (get "hole_sect_group_id" x) as [h|]; [|exact E]. destruct (String.eqb h g); [|exact E]. rewrite !get_put. destruct (String.eqb k k); [reflexivity|exact E]. }
    apply EX. apply pick_other. exact N.
Qed.
Lemma hole_section_rows : forall d g k row, a_dict d ->
  (get k (hole_section d g) = Some row <-> exists rows, get k d = Some rows /\ last_row (of_group g) rows row).
Proof.
  intros d g k row D. change (hole_section d g) with (fold_left (fun acc kv => fold_left (pick g (fst kv)) (snd kv) acc) d ([] : list (string * attrib))).
  rewrite hole_from by exact D. destruct (get k d) as [rows|].
  - rewrite pick_same. split; [intros [H|[H _]]; [eauto|discriminate]|]. intros (r & E & H). injection E as <-. auto.
  - split; [discriminate|intros (r & E & _); discriminate].
Qed.
Lemma hole_data_get : forall d l acc hs, get hs (fold_left (fun acc hs => put hs (hole_section d hs) acc) l acc) =
  if in_dec string_dec hs l then Some (hole_section d hs) else get hs acc.
Proof.
  intros d l. induction l as [|x l IH]; intros acc hs; [reflexivity|]. cbn [fold_left]. rewrite IH, get_put.
  destruct (in_dec string_dec hs l) as [I|I].
  - destruct (in_dec string_dec hs (x :: l)) as [J|J]; [reflexivity|destruct J; right; exact I].
  - destruct (String.eqb_spec hs x) as [->|N]; destruct (in_dec string_dec _ (_ :: l)) as [J|J]; try reflexivity.
    + destruct J; left; reflexivity. + destruct J as [J|J]; [congruence|contradiction].
Qed.
Lemma hole_sections_returned : forall d g s, get g (hole_section_data d None) = Some s <->
  s = hole_section d g /\ exists k rows row, In (k, rows) d /\ In row rows /\ In ("hole_sect_group_id", g) row.
Proof.
  intros d g s. unfold hole_section_data. rewrite hole_data_get, <- hole_sections_in. destruct (in_dec string_dec g (hole_sections d)) as [I|I].
  - split; [intro H; injection H as <-; auto|intros [-> _]; reflexivity].
  - split; [discriminate|intros [_ H]; contradiction].
Qed.
(** all rows but the last of a section are lost *)
Lemma hole_rows_lost : forall d g k before row mid row' after, a_dict d -> get k d = Some (before ++ row :: mid ++ row' :: after) ->
  of_group g row' -> row' <> row -> (forall r, In r after -> ~ of_group g r) -> get k (hole_section d g) <> Some row.
Proof.
  intros d g k before row mid row' after D G P N F H. apply (hole_section_rows d g k row D) in H. destruct H as (rows & G' & L). rewrite G in G'. injection G' as <-.
  assert (L2 : last_row (of_group g) (before ++ row :: mid ++ row' :: after) row').
  { exists (before ++ row :: mid), after. split; [rewrite <- app_assoc; reflexivity|auto]. }
  revert L L2 N. generalize (before ++ row :: mid ++ row' :: after). clear. intros l. induction l as [|x l IH]; intros L L2 N.
  - destruct L as ([|] & ? & E & _); discriminate E.
  - apply last_row_cons in L. apply last_row_cons in L2. destruct L as [L|(-> & _ & F)]; destruct L2 as [L2|(-> & _ & F2)]; [auto| | |congruence].
    + destruct L as (b & a & -> & P & _). apply (F2 row); [apply in_or_app; right; left; reflexivity|exact P].
    + destruct L2 as (b & a & -> & P & _). apply (F row'); [apply in_or_app; right; left; reflexivity|exact P].
Qed.

(** ** sorting *)
Local Open Scope R_scope.
Definition at_key {A} (key : A -> R) (t : R) (x : A) : bool := if Req_EM_T (key x) t then true else false.
Lemma place_in : forall A (key : A -> R) x l y, In y (place key x l) <-> y = x \/ In y l.
Proof. intros A key x l y. induction l as [|z l IH]; cbn; [intuition congruence|]. destruct (Rlt_dec _ _); cbn; [|rewrite IH]; intuition congruence. Qed.
Lemma place_sorted : forall A (key : A -> R) x l, StronglySorted (fun a b => key a <= key b) l -> StronglySorted (fun a b => key a <= key b) (place key x l).
Proof.
  intros A key x l. induction l as [|z l IH]; intro S1; cbn; [repeat constructor|]. apply StronglySorted_inv in S1. destruct S1 as [S1 S2].
  destruct (Rlt_dec (key x) (key z)) as [L|L].
  - constructor; [constructor; assumption|]. constructor; [lra|]. eapply Forall_impl; [|exact S2]. cbn. intros a Ha. lra.
  - constructor; [auto|]. apply Forall_forall. intros y Y. apply place_in in Y. destruct Y as [->|Y]; [lra|]. rewrite Forall_forall in S2. auto.
Qed.
Lemma place_filter : forall A (key : A -> R) x l t, StronglySorted (fun a b => key a <= key b) l ->
  filter (at_key key t) (place key x l) = filter (at_key key t) l ++ (if at_key key t x then [x] else []).
Proof.
  intros A key x l t. induction l as [|z l IH]; intro S1; [cbn; destruct (at_key key t x); reflexivity|]. apply StronglySorted_inv in S1. destruct S1 as [S1 S2].
  cbn [place]. destruct (Rlt_dec (key x) (key z)) as [L|L].
  - cbn [filter]. destruct (at_key key t x) eqn:AK; [|rewrite app_nil_r; reflexivity].
    assert (E : key x = t) by (unfold at_key in AK; destruct (Req_EM_T (key x) t); [assumption|discriminate]).
    assert (Z : forall y, In y (z :: l) -> at_key key t y = false).
    { intros y [<-|Y]; unfold at_key; [destruct (Req_EM_T _ _); [lra|reflexivity]|]. rewrite Forall_forall in S2. specialize (S2 y Y). destruct (Req_EM_T _ _); [lra|reflexivity]. }
    assert (N : filter (at_key key t) (z :: l) = []). { clear - Z. induction (z :: l) as [|a m IH]; [reflexivity|]. cbn. rewrite (Z a) by (left; reflexivity). apply IH. intros y Y. apply Z. right. exact Y. }
    cbn [filter] in N. rewrite N. reflexivity.
  - cbn [filter]. rewrite IH by exact S1. destruct (at_key key t z); reflexivity.
Qed.
Lemma sort_from : forall A (key : A -> R) l acc, StronglySorted (fun a b => key a <= key b) acc ->
  StronglySorted (fun a b => key a <= key b) (fold_left (fun acc x => place key x acc) l acc) /\
  forall t, filter (at_key key t) (fold_left (fun acc x => place key x acc) l acc) = filter (at_key key t) acc ++ filter (at_key key t) l.
Proof.
  intros A key l. induction l as [|x l IH]; intros acc S1; [split; [exact S1|intro t; cbn; rewrite app_nil_r; reflexivity]|]. cbn [fold_left].
  destruct (IH (place key x acc) (place_sorted _ _ _ _ S1)) as [H1 H2]. split; [exact H1|]. intro t. rewrite H2, place_filter by exact S1.
  rewrite <- app_assoc. f_equal. cbn [filter]. destruct (at_key key t x); reflexivity.
Qed.
Lemma sort_by_spec : forall A (key : A -> R) l, sorted_from key l (sort_by key l).
Proof. intros A key l. destruct (sort_from A key l [] (SSorted_nil _)) as [H1 H2]. split; [exact H1|]. intro t. exact (H2 t). Qed.
(** such a list is unique *)
Lemma sorted_unique : forall A (key : A -> R) l a b, sorted_from key l a -> sorted_from key l b -> a = b.
Proof.
  intros A key l a b [A1 A2] [B1 B2]. assert (E : forall t, filter (at_key key t) a = filter (at_key key t) b) by (intro t; etransitivity; [apply A2|symmetry; apply B2]).
  clear l A2 B2. revert b B1 E. induction a as [|x a IH]; intros b B1 E.
  - destruct b as [|y b]; [reflexivity|]. specialize (E (key y)). cbn in E. unfold at_key in E. destruct (Req_EM_T (key y) (key y)); [discriminate|lra].
  - apply StronglySorted_inv in A1. destruct A1 as [A1 A2]. destruct b as [|y b].
    { specialize (E (key x)). cbn in E. unfold at_key in E. destruct (Req_EM_T (key x) (key x)); [discriminate|lra]. }
    apply StronglySorted_inv in B1. destruct B1 as [B1 B2]. rewrite Forall_forall in A2, B2.
    assert (IN : forall (l m : list A), (forall t, filter (at_key key t) l = filter (at_key key t) m) -> forall z, In z l -> In z m).
    { intros l m Q z Z. specialize (Q (key z)). assert (In z (filter (at_key key (key z)) l)) by (apply filter_In; split; [exact Z|unfold at_key; destruct (Req_EM_T _ _); [reflexivity|lra]]).
      rewrite Q in H. apply filter_In in H. tauto. }
    assert (K1 : key y <= key x). { destruct (IN _ _ E x ltac:(left; reflexivity)) as [->|H]; [lra|auto]. }
    assert (K2 : key x <= key y). { destruct (IN _ _ (fun t => eq_sym (E t)) y ltac:(left; reflexivity)) as [->|H]; [lra|auto]. }
    assert (K : key x = key y) by lra.
    assert (X : x = y). { specialize (E (key x)). cbn in E. unfold at_key in E. destruct (Req_EM_T (key x) (key x)) as [_|N]; [|lra]. destruct (Req_EM_T (key y) (key x)) as [_|N]; [|lra]. congruence. }
    subst y. f_equal. apply IH; auto. intro t. specialize (E t). cbn [filter] in E. destruct (at_key key t x); [congruence|exact E].
Qed.
