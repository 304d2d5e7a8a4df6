(** The sheets of the error sources and the workbook. *)
Require Import Reals ZArith Ascii String List Bool Lra Lia.
Require Import Verif.Base Verif.NumPy Verif.M_Utils Verif.M_DmsText.
Require Import Verif.M_Text Verif.Spec_Text Verif.P_Text Verif.M_Ingest Verif.Spec_Ingest Verif.P_Ingest Verif.P_Ingest2 Verif.P_Ingest4 Verif.P_Ingest5.
Import ListNotations.
Open Scope list_scope.
Local Open Scope nat_scope.

Definition puts {K V : Type} (eqb : K -> K -> bool) (l : list (K * V)) (d : list (K * V)) : list (K * V) :=
  fold_left (fun d kv => dput eqb (fst kv) (snd kv) d) l d.
Lemma in_dget : forall (K V : Type) (eqb : K -> K -> bool) (spec : forall a b, eqb a b = true <-> a = b) (d : list (K * V)) k v,
  NoDup (map fst d) -> (In (k, v) d <-> dget eqb k d = Some v).
Proof.
  intros K V eqb spec d k v N. split; [|apply dget_in; exact spec]. revert N. induction d as [|[a w] d IH]; intros N I; [destruct I|]. cbn in N |- *. inversion_clear N as [|? ? NI N'].
  destruct I as [E|I].
  - injection E as -> ->. assert (T : eqb k k = true) by (apply spec; reflexivity). rewrite T. reflexivity.
  - destruct (eqb k a) eqn:E; [|apply IH; assumption]. apply spec in E. subst a. elim NI. apply (in_map fst _ _ I).
Qed.
Lemma puts_functional : forall (K V : Type) (eqb : K -> K -> bool) (spec : forall a b, eqb a b = true <-> a = b) (l : list (K * V)),
  (forall k v w, In (k, v) l -> In (k, w) l -> v = w) -> forall k v, In (k, v) (puts eqb l []) <-> In (k, v) l.
Proof.
  intros K V eqb spec l F k v. rewrite (in_dget K V eqb spec) by (apply (puts_nodup eqb spec); constructor).
  assert (G : forall w, dget eqb k (puts eqb l []) = Some w -> In (k, w) l).
  { intros w H. unfold puts in H. rewrite (puts_get eqb spec) in H. destruct H as [(a & b & -> & _)|[_ H]]; [apply in_or_app; right; left; reflexivity|discriminate]. }
  split; [apply G|]. intro I. destruct (dget eqb k (puts eqb l [])) as [w|] eqn:E.
  - f_equal. apply (F k); [apply G; reflexivity|exact I].
  - rewrite (dget_none eqb spec) in E. elim E. unfold puts. apply (puts_keys eqb spec). left. exact (in_map fst _ _ I).
Qed.

(** ** the groups of columns *)
Definition merged_entry (py : python) (s : sheet) (m : nat * nat * nat * nat) : list (nat * span) :=
  let '(r0, r1, c0, c1) := m in
  if (Nat.eqb r0 1 && Nat.eqb r1 1)%bool then
    match at_or_none (c0 - 1) (hd [] (sh_rows s)) with Blank => [] | l => [(c0 - 1, (str py l, c1 - c0 + 1))] end
  else [].
Lemma merged_puts : forall py s, merged_spans py s = puts Nat.eqb (flat_map (merged_entry py s) (sh_merged s)) [].
Proof.
  intros py s. unfold merged_spans, puts, span. generalize (@nil (nat * (text * nat))). induction (sh_merged s) as [|[[[r0 r1] c0] c1] l IH]; intro d; [reflexivity|].
  cbn [fold_left flat_map]. rewrite fold_left_app, IH. f_equal. unfold merged_entry. destruct (Nat.eqb r0 1 && Nat.eqb r1 1)%bool; [|reflexivity].
  destruct (at_or_none (c0 - 1) (hd [] (sh_rows s))); reflexivity.
Qed.
Lemma merged_entry_spec : forall py s g, In g (flat_map (merged_entry py s) (sh_merged s)) <-> merged_group py s g.
Proof.
  intros py s g. rewrite in_flat_map. unfold merged_group. split.
  - intros ([[[r0 r1] c0] c1] & I & H). unfold merged_entry in H. destruct (Nat.eqb_spec r0 1) as [->|]; [|destruct H]. destruct (Nat.eqb_spec r1 1) as [->|]; [|destruct H].
    cbn [andb] in H. exists c0, c1. split; [exact I|]. unfold col. fold (at_or_none (c0 - 1) (hd [] (sh_rows s))).
    destruct (at_or_none (c0 - 1) (hd [] (sh_rows s))); [destruct H| | | |]; destruct H as [<-|[]]; (split; [discriminate|reflexivity]).
  - intros (c0 & c1 & I & N & ->). exists (1, 1, c0, c1). split; [exact I|]. unfold merged_entry. cbn [Nat.eqb andb].
    unfold col in *. fold (at_or_none (c0 - 1) (hd [] (sh_rows s))) in *. destruct (at_or_none (c0 - 1) (hd [] (sh_rows s))); [contradiction| | | |]; left; reflexivity.
Qed.
Lemma merged_in : forall py s g, well_merged s -> (In g (merged_spans py s) <-> merged_group py s g).
Proof.
  intros py s [k v] [W U]. rewrite merged_puts, <- merged_entry_spec. apply (puts_functional nat span Nat.eqb Nat.eqb_eq).
  intros k' v' w' A B. apply merged_entry_spec in A, B. destruct A as (c0 & c1 & IA & _ & EA), B as (d0 & d1 & IB & _ & EB).
  injection EA as -> ->. injection EB as E ->. pose proof (W _ _ _ _ IA). pose proof (W _ _ _ _ IB). assert (c0 = d0) by lia. subst d0.
  rewrite (U _ _ _ _ IA IB eq_refl). reflexivity.
Qed.
Lemma inside_spec : forall i d, inside i d = true <-> exists g, In g d /\ covers g i.
Proof.
  intros i d. unfold inside, covers. rewrite existsb_exists. split; intros (g & I & H); exists g; (split; [exact I|]);
    [rewrite andb_true_iff, Nat.leb_le, Nat.ltb_lt in H|rewrite andb_true_iff, Nat.leb_le, Nat.ltb_lt]; exact H.
Qed.
Lemma singles_in : forall py (M : nat * span -> Prop) row i d,
  (forall g, M g -> 1 <= snd (snd g)) ->
  NoDup (map fst d) -> (forall g, M g -> In g d) -> (forall g, In g d -> M g \/ (fst g < i /\ snd (snd g) = 1)) ->
  NoDup (map fst (single_spans py i row d)) /\
  forall g, In g (single_spans py i row d) <-> In g d \/ exists j, col j row <> Blank /\ (forall m, M m -> ~ covers m (i + j)) /\ g = (i + j, (str py (col j row), 1)).
Proof.
  intros py M row. induction row as [|c row IH]; intros i d W N A B.
  - split; [exact N|]. intro g. split; [auto|]. intros [H|(j & H & _)]; [exact H|]. elim H. unfold col. destruct j; reflexivity.
  - assert (B' : forall g, In g d -> M g \/ (fst g < S i /\ snd (snd g) = 1)) by (intros g I; destruct (B g I) as [H|[H E]]; [auto|right; split; [lia|exact E]]).
    assert (Step : forall P : nat -> Prop, ((exists j, P (S j)) \/ P 0) <-> exists j, P j).
    { intro P. split; [intros [(j & H)|H]; eauto|]. intros ([|j] & H); eauto. }
    assert (NoNew : (c = Blank \/ exists m, M m /\ covers m i) ->
      NoDup (map fst (single_spans py (S i) row d)) /\
      forall g, In g (single_spans py (S i) row d) <-> In g d \/ exists j, col j (c :: row) <> Blank /\ (forall m, M m -> ~ covers m (i + j)) /\ g = (i + j, (str py (col j (c :: row)), 1))).
    { intro Z. destruct (IH (S i) d W N A B') as [ND H]. split; [exact ND|]. intro g. rewrite H. split; (intros [I|(j & J1 & J2 & J3)]; [left; exact I|right]).
      - exists (S j). rewrite <- Nat.add_succ_comm. auto.
      - destruct j as [|j]; [|exists j; rewrite Nat.add_succ_comm; auto]. exfalso. destruct Z as [->|(m & Mm & C)]; [apply J1; reflexivity|].
        apply (J2 m Mm). rewrite Nat.add_0_r. exact C. }
    assert (D : c = Blank \/ c <> Blank) by (destruct c; [left|right..]; congruence). destruct D as [->|NB]; [exact (NoNew (or_introl eq_refl))|].
    replace (single_spans py i (c :: row) d) with (single_spans py (S i) row
        (match dget Nat.eqb i d with Some _ => d | None => if inside i d then d else dput Nat.eqb i (str py c, 1) d end))
      by (destruct c; [contradiction| | | |]; reflexivity).
    destruct (dget Nat.eqb i d) as [v|] eqn:G.
    { apply NoNew. right. apply (dget_in Nat.eqb Nat.eqb_eq) in G. destruct (B _ G) as [H|[H _]]; [|cbn in H; lia].
      exists (i, v). split; [exact H|]. unfold covers. pose proof (W _ H). cbn in *. lia. }
    destruct (inside i d) eqn:IN.
    { apply NoNew. right. apply inside_spec in IN. destruct IN as (g & I & C). destruct (B _ I) as [H|[H E]]; [eauto|]. unfold covers in C. lia. }
    assert (NC : forall m, M m -> ~ covers m i).
    { intros m Mm C. assert (T : inside i d = true) by (apply inside_spec; exists m; split; [apply A; exact Mm|exact C]). congruence. }
    assert (ND' : NoDup (map fst (dput Nat.eqb i (str py c, 1) d))) by (apply (dput_nodup Nat.eqb Nat.eqb_eq); exact N).
    assert (IP : forall g, In g (dput Nat.eqb i (str py c, 1) d) <-> In g d \/ g = (i, (str py c, 1))).
    { intros [k v]. rewrite (in_dget _ _ Nat.eqb Nat.eqb_eq) by exact ND'. rewrite (dget_put Nat.eqb Nat.eqb_eq), (in_dget _ _ Nat.eqb Nat.eqb_eq) by exact N.
      destruct (Nat.eqb_spec k i) as [->|NE]; split.
      - intro H. injection H as <-. auto.
      - intros [H|H]; [exfalso; pose proof (eq_trans (eq_sym G) H) as X; discriminate X|]. injection H as ->. reflexivity.
      - auto.
      - intros [H|H]; [exact H|]. injection H as -> _. contradiction. }
    destruct (IH (S i) (dput Nat.eqb i (str py c, 1) d) W ND') as [NDR H].
    { intros g Mg. apply IP. left. apply A. exact Mg. }
    { intros g I. apply IP in I. destruct I as [I| ->]; [apply B'; exact I|]. right. cbn. split; [lia|reflexivity]. }
    split; [exact NDR|]. intro g. rewrite H, IP. split.
    + intros [[I| ->]|(j & J1 & J2 & J3)]; [auto|right; exists 0; rewrite Nat.add_0_r; auto|right; exists (S j); rewrite <- Nat.add_succ_comm; auto].
    + intros [I|([|j] & J1 & J2 & J3)]; [auto|left; right; rewrite Nat.add_0_r in J3; exact J3|right; exists j; rewrite Nat.add_succ_comm; auto].
Qed.
Lemma groups_in : forall py s, well_merged s -> NoDup (map fst (header_spans py s)) /\ forall g, In g (header_spans py s) <-> group_of py s g.
Proof.
  intros py s W. unfold header_spans.
  destruct (singles_in py (merged_group py s) (hd [] (sh_rows s)) 0 (merged_spans py s)) as [N H].
  - intros g (c0 & c1 & _ & _ & ->). cbn. lia.
  - rewrite merged_puts. apply (puts_nodup Nat.eqb Nat.eqb_eq). constructor.
  - intros g M. apply merged_in; assumption.
  - intros g I. left. apply merged_in in I; assumption.
  - split; [exact N|]. intro g. rewrite H, merged_in by exact W. unfold group_of, single_group. cbn [plus]. reflexivity.
Qed.

(** ** from left to right *)
Lemma insert_in : forall x l g, In g (insert_span x l) <-> g = x \/ In g l.
Proof.
  intros x l g. induction l as [|y l IH]; cbn; [intuition|]. destruct (Nat.leb (fst x) (fst y)); cbn; [intuition|]. rewrite IH. intuition.
Qed.
Lemma insert_ordered : forall x l, left_to_right l -> ~ In (fst x) (map fst l) -> left_to_right (insert_span x l).
Proof.
  intros x l. induction l as [|y l IH]; intros H N; cbn; [split; [intros ? []|exact I]|]. destruct H as [H1 H2]. cbn in N. destruct (Nat.leb_spec (fst x) (fst y)) as [L|L]; cbn.
  - split; [|auto]. intros g [<-|I]; [lia|]. specialize (H1 g I). lia.
  - split; [|apply IH; tauto]. intros g I. apply insert_in in I. destruct I as [->|I]; [exact L|exact (H1 g I)].
Qed.
Lemma sort_in : forall l g, In g (sort_spans l) <-> In g l.
Proof. intros l g. induction l as [|x l IH]; cbn; [tauto|]. rewrite insert_in, IH. intuition. Qed.
Lemma sort_ordered : forall l, NoDup (map fst l) -> left_to_right (sort_spans l).
Proof.
  intros l N. induction l as [|x l IH]; cbn in *; [exact I|]. inversion_clear N as [|? ? NI N']. apply insert_ordered; [auto|].
  intro H. apply NI. apply in_map_iff in H. destruct H as (g & E & H). apply (proj1 (sort_in l g)) in H. rewrite <- E. apply in_map. exact H.
Qed.

(** ** the columns of one group *)
Definition column_entry (py : python) (subcols : list cell) (data : list (list cell)) (i : nat) : list (text * list ext) :=
  match at_or_none i subcols with Blank => [] | c => [(str py c, column py data i)] end.
Lemma block_puts : forall py subcols data start width, read_block py subcols data start width = puts text_eqb (flat_map (column_entry py subcols data) (seq start width)) [].
Proof.
  intros py subcols data start width. unfold read_block, puts. generalize ([] : block). induction (seq start width) as [|i l IH]; intro d; [reflexivity|].
  cbn [fold_left flat_map]. rewrite fold_left_app, IH. f_equal. unfold column_entry. destruct (at_or_none i subcols); reflexivity.
Qed.
Lemma column_entry_spec : forall py subcols data i sub xs, In (sub, xs) (column_entry py subcols data i) <-> col i subcols <> Blank /\ str py (col i subcols) = sub /\ xs = column py data i.
Proof.
  intros py subcols data i sub xs. unfold column_entry, col. fold (at_or_none i subcols). split.
  - destruct (at_or_none i subcols); [intros []| | | |]; intros [E|[]]; injection E as <- <-; (split; [discriminate|auto]).
  - intros (N & <- & ->). destruct (at_or_none i subcols); [contradiction| | | |]; left; reflexivity.
Qed.
Lemma column_entry_short : forall py subcols data i, column_entry py subcols data i = [] \/ exists p, column_entry py subcols data i = [p].
Proof. intros py subcols data i. unfold column_entry. destruct (at_or_none i subcols); eauto. Qed.
(** the last of the entries made from a range of columns *)
Lemma seq_last : forall (V : Type) (f : nat -> list (text * V)), (forall i, f i = [] \/ exists p, f i = [p]) ->
  forall width start k v, (exists a b, flat_map f (seq start width) = a ++ (k, v) :: b /\ forall w, ~ In (k, w) b) <->
    exists i, start <= i < start + width /\ In (k, v) (f i) /\ forall j w, i < j < start + width -> ~ In (k, w) (f j).
Proof.
  intros V f S width. induction width as [|width IH]; intros start k v; cbn [seq flat_map].
  - split; [intros (a & b & E & _); destruct a; discriminate|]. intros (i & H & _). lia.
  - split.
    + intros (a & b & E & N).
      assert (Later : forall a', flat_map f (seq (1 + start) width) = a' ++ (k, v) :: b -> exists i, start <= i < start + Datatypes.S width /\ In (k, v) (f i) /\ forall j w, i < j < start + Datatypes.S width -> ~ In (k, w) (f j)).
      { intros a' E'. destruct (proj1 (IH (1 + start) k v)) as (i & R & I & L); [exists a', b; auto|]. exists i. split; [lia|]. split; [exact I|]. intros j w J. apply L. lia. }
      destruct (S start) as [Z|(p & Z)]; rewrite Z in E; cbn [app] in E; [exact (Later a E)|]. destruct a as [|q a]; cbn [app] in E.
      * injection E as E1 E2. exists start. split; [lia|]. split; [rewrite Z, E1; left; reflexivity|]. intros j w J I. apply (N w). rewrite <- E2.
        apply in_flat_map. exists j. split; [apply in_seq; lia|exact I].
      * injection E as _ E. exact (Later a E).
    + intros (i & R & I & L). destruct (Nat.eq_dec i start) as [->|NE].
      * destruct (S start) as [Z|(p & Z)]; rewrite Z in *; [destruct I|]. destruct I as [->|[]]. exists [], (flat_map f (seq (1 + start) width)). split; [reflexivity|].
        intros w J. apply in_flat_map in J. destruct J as (j & J1 & J2). apply in_seq in J1. apply (L j w); [lia|exact J2].
      * destruct (proj2 (IH (1 + start) k v)) as (a & b & E & N); [exists i; split; [lia|]; split; [exact I|]; intros j w J; apply L; lia|].
        exists (f start ++ a), b. cbn [plus] in E. rewrite E, app_assoc. auto.
Qed.
Lemma column_spec : forall py data i xs, column_values py data i xs <-> xs = column py data i.
Proof.
  intros py data i. unfold column_values, column. assert (C : forall r, match nth_error r i with Some c => to_float py c | None => NaN end = to_float py (col i r)).
  { intro r. unfold col. destruct (nth_error r i) as [c|] eqn:E; [rewrite (nth_error_nth _ _ _ E); reflexivity|]. apply nth_error_None in E. rewrite nth_overflow by exact E. reflexivity. }
  induction data as [|r data IH]; intro xs; cbn [map].
  - split; intro H; [inversion H; reflexivity|subst; constructor].
  - split; intro H.
    + inversion H as [|? x ? q E F]; subst. rewrite C. f_equal. apply IH. exact F.
    + subst xs. constructor; [apply C|apply IH; reflexivity].
Qed.
Lemma block_columns : forall py subcols data start label width, block_reads py subcols data (start, (label, width)) (read_block py subcols data start width).
Proof.
  intros py subcols data start label width sub xs. rewrite block_puts. unfold puts. rewrite (puts_get text_eqb text_eqb_spec). cbn [dget].
  rewrite (seq_last _ _ (column_entry_short py subcols data)). unfold column_of, covers. cbn [fst snd]. split.
  - intros [(i & R & I & L)|[_ H]]; [|discriminate]. apply column_entry_spec in I. destruct I as (N & E & X). exists i. split; [|apply column_spec; exact X].
    split; [exact R|]. split; [exact N|]. split; [exact E|]. intros j J R' N' E'. apply (L j (column py data j)); [lia|]. apply column_entry_spec. auto.
  - intros (i & (R & N & E & L) & X). left. exists i. split; [exact R|]. apply column_spec in X. split; [apply column_entry_spec; auto|].
    intros j w J I. apply column_entry_spec in I. destruct I as (N' & E' & _). apply (L j); auto; lia.
Qed.
Lemma block_empty : forall py subcols data start width, read_block py subcols data start width = [] <-> forall i, start <= i < start + width -> col i subcols = Blank.
Proof.
  intros py subcols data start width. rewrite block_puts. split.
  - intros H i R. destruct (col i subcols) as [| | | |] eqn:C; [reflexivity|exfalso..];
    assert (K : In (str py (col i subcols)) (map fst (puts text_eqb (flat_map (column_entry py subcols data) (seq start width)) [])));
    try (rewrite H in K; exact K);
    unfold puts; apply (puts_keys text_eqb text_eqb_spec); left; apply in_map_iff; exists (str py (col i subcols), column py data i); (split; [reflexivity|]);
    apply in_flat_map; exists i; (split; [apply in_seq; lia|apply column_entry_spec; rewrite C; split; [discriminate|auto]]).
  - intro H. replace (flat_map (column_entry py subcols data) (seq start width)) with ([] : list (text * list ext)); [reflexivity|].
    assert (G : forall i, In i (seq start width) -> column_entry py subcols data i = []).
    { intros i I. apply in_seq in I. unfold column_entry, at_or_none. fold (col i subcols). rewrite H by lia. reflexivity. }
    induction (seq start width) as [|i l IH]; [reflexivity|]. cbn. rewrite (G i (or_introl eq_refl)). apply IH. intros j J. apply G. right. exact J.
Qed.
