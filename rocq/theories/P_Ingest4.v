(** The Wellpath, TOTALS and Validation sheets. *)
Require Import Reals ZArith Ascii String List Bool Lra Lia.
Require Import Verif.Base Verif.NumPy Verif.M_Utils Verif.M_DmsText.
Require Import Verif.M_Text Verif.Spec_Text Verif.P_Text Verif.M_Ingest Verif.Spec_Ingest Verif.P_Ingest Verif.P_Ingest2.
Import ListNotations.
Open Scope list_scope.
Local Open Scope nat_scope.

Definition upd {A B : Type} (f : A -> option B) (v : B) (r : A) : B := match f r with Some w => w | None => v end.
Lemma fold_last : forall (A B : Type) (f : A -> option B) (F : A -> B -> Prop), (forall r v, f r = Some v <-> F r v) ->
  forall rows d, last_of F rows d (fold_left (upd f) rows d).
Proof.
  intros A B f F S rows. induction rows as [|r rows IH]; intro d; cbn.
  - right. split; [reflexivity|]. intros ? ? [].
  - destruct (IH (upd f d r)) as [(a & r' & b & -> & G & N)|[E N]]; [left; exists (r :: a), r', b; auto|].
    rewrite E. unfold upd. destruct (f r) as [w|] eqn:FR.
    + left. exists [], r, rows. split; [reflexivity|]. split; [apply S; exact FR|]. exact N.
    + right. split; [reflexivity|]. intros r' v' [<-|I]; [|exact (N r' v' I)]. intro G. apply S in G. congruence.
Qed.

Lemma number_holds : forall c x, number_of c = Some x <-> holds c x.
Proof.
  intros c x. unfold holds. destruct c as [|y|[]|t|t]; cbn; split; intro H; try discriminate;
    try (injection H as <-; auto; fail); destruct H as [H|[[H E]|[H E]]]; congruence.
Qed.
Lemma begins_spec : forall p t, starts_with (lit p) (lower_text t) = true <-> begins p t.
Proof.
  intros p t. unfold starts_with, begins. change (small_text t) with (lower_text t). destruct (prefix_rest (lit p) (lower_text t)) as [r|] eqn:E.
  - apply prefix_rest_spec in E. split; [eauto|reflexivity].
  - split; [discriminate|]. intros (r & H). change (small_text t) with (lower_text t) in H. apply prefix_rest_spec in H. congruence.
Qed.
Lemma not_begins : forall p t, starts_with (lit p) (lower_text t) = false <-> ~ begins p t.
Proof. intros p t. rewrite <- begins_spec. destruct (starts_with (lit p) (lower_text t)); split; congruence. Qed.
Lemma before_bracket : forall sep lab, exists name, hd [] (split_on sep lab) = name /\ ~ In sep name /\ (lab = name \/ exists r, lab = name ++ sep :: r).
Proof.
  intros sep lab. induction lab as [|c lab (name & E & N & H)]; cbn.
  - exists []. split; [reflexivity|]. split; [auto|left; reflexivity].
  - destruct (Ascii.eqb_spec c sep) as [->|NE].
    + exists []. split; [reflexivity|]. split; [auto|]. right. exists lab. reflexivity.
    + exists (c :: name). destruct (split_nonempty sep lab) as (f & fs & S). rewrite S in *. cbn in E |- *. subst f. split; [reflexivity|].
      split; [intros [->|I]; [apply NE; reflexivity|exact (N I)]|]. destruct H as [->|(r & ->)]; [left; reflexivity|right; exists r; reflexivity].
Qed.
Lemma bracket_unique : forall sep lab name, ~ In sep name -> (lab = name \/ exists r, lab = name ++ sep :: r) -> hd [] (split_on sep lab) = name.
Proof.
  intros sep lab name N [->|(r & ->)]; [rewrite split_none by exact N|rewrite split_app by exact N]; reflexivity.
Qed.

(** ** the loop over the first twelve rows, one value at a time *)
Definition on_label {B : Type} (py : python) (g : text -> cell -> option B) (row : list cell) : option B :=
  match row with
  | Blank :: _ => None
  | l :: v :: _ => g (strip (str py l)) v
  | _ => None
  end.
Lemma on_label_spec : forall B py (g : text -> cell -> option B) row x,
  on_label py g row = Some x <-> exists lab v, labelled py row lab v /\ g lab v = Some x.
Proof.
  intros B py g row x. unfold labelled. split.
  - intro H. destruct row as [|l [|v row]]; [discriminate|destruct l; discriminate|].
    assert (E : l <> Blank /\ g (strip (str py l)) v = Some x) by (destruct l; [discriminate| | | |]; split; try discriminate; exact H).
    exists (strip (str py l)), v. split; [|apply E]. exists l, row. split; [reflexivity|]. split; [apply E|]. apply strip_spec. reflexivity.
  - intros (lab & v & (l & rest & -> & N & S) & G). apply strip_spec in S. subst lab. destruct l; [contradiction| | | |]; exact G.
Qed.
Definition is_well (lab : text) : bool := text_eqb lab (lit "Well").
Definition is_units (lab : text) : bool := starts_with (lit "depth units") (lower_text lab).
Definition is_factor (lab : text) : bool := starts_with (lit "feet to metres") (lower_text lab).
Definition key_of (lab : text) : text := lower_text (strip (hd [] (split_on "("%char lab))).
Definition well_f (py : python) := on_label py (fun lab v => if is_well lab then Some (str_or_empty py v) else None).
Definition units_f (py : python) := on_label py (fun lab v =>
  if is_well lab then None else if is_units lab then match v with Blank => None | _ => Some (lower_text (strip (str py v))) end else None).
Definition factor_f (py : python) := on_label py (fun lab v => if is_well lab then None else if is_units lab then None else if is_factor lab then number_of v else None).
Definition ref_f (py : python) (k : text) := on_label py (fun lab v =>
  if is_well lab then None else if is_units lab then None else if is_factor lab then None
  else if text_eqb k (key_of lab) then option_map Fin (number_of v) else None).
Definition value_in (refs : list (text * R)) (k : text) : ext := match dget text_eqb k refs with Some x => Fin x | None => NaN end.
Lemma ref_row_step : forall py row n u f rs n' u' f' rs', ref_row py (n, u, f, rs) row = Some (n', u', f', rs') ->
  n' = upd (well_f py) n row /\ u' = upd (units_f py) u row /\ f' = upd (factor_f py) f row /\
  forall k, value_in rs' k = upd (ref_f py k) (value_in rs k) row.
Proof.
  intros py row n u f rs n' u' f' rs' H. unfold upd, well_f, units_f, factor_f, ref_f.
  assert (Z : row = [] \/ (exists r, row = Blank :: r) -> (n, u, f, rs) = (n', u', f', rs') ->
    n' = upd (well_f py) n row /\ u' = upd (units_f py) u row /\ f' = upd (factor_f py) f row /\ forall k, value_in rs' k = upd (ref_f py k) (value_in rs k) row).
  { intros [->|(r & ->)] E; injection E as <- <- <- <-; repeat split; destruct r; reflexivity. }
  destruct row as [|l row]; [apply Z; [auto|]; cbn in H; congruence|].
  assert (D : l = Blank \/ l <> Blank) by (destruct l; [left|right..]; congruence). destruct D as [->|NB].
  { apply Z; [right; eauto|]. cbn in H. congruence. }
  destruct row as [|v row]; [destruct l; [contradiction| | | |]; discriminate|].
  assert (OL : forall (B : Type) (g : text -> cell -> option B), on_label py g (l :: v :: row) = g (strip (str py l)) v)
    by (intros; destruct l; [contradiction| | | |]; reflexivity).
  rewrite !OL. assert (H' : (let label := strip (str py l) in
      if is_well label then Some (str_or_empty py v, u, f, rs)
      else if is_units label then Some (n, match v with Blank => u | _ => lower_text (strip (str py v)) end, f, rs)
      else if is_factor label then Some (n, u, match number_of v with Some x => x | None => f end, rs)
      else Some (n, u, f, match number_of v with Some x => dput text_eqb (key_of label) x rs | None => rs end)) = Some (n', u', f', rs'))
    by (destruct l; [contradiction| | | |]; exact H).
  cbv zeta in H'. destruct (is_well (strip (str py l))) eqn:W; [injection H' as <- <- <- <-; repeat split; intro k; rewrite OL, W; reflexivity|].
  destruct (is_units (strip (str py l))) eqn:U; [injection H' as <- <- <- <-; repeat split; [destruct v; reflexivity|intro k; rewrite OL, W, U; reflexivity]|].
  destruct (is_factor (strip (str py l))) eqn:FA; [injection H' as <- <- <- <-; repeat split; intro k; rewrite OL, W, U, FA; reflexivity|].
  injection H' as <- <- <- <-. split; [reflexivity|]. split; [reflexivity|]. split; [reflexivity|]. intro k. rewrite OL, W, U, FA. unfold value_in.
  destruct (number_of v) as [x|]; [|destruct (text_eqb k (key_of (strip (str py l)))); reflexivity].
  rewrite (dget_put text_eqb text_eqb_spec). destruct (text_eqb k (key_of (strip (str py l)))); reflexivity.
Qed.
Lemma ref_rows_fold : forall py rows n u f rs n' u' f' rs', ref_rows py rows (n, u, f, rs) = Some (n', u', f', rs') ->
  n' = fold_left (upd (well_f py)) rows n /\ u' = fold_left (upd (units_f py)) rows u /\ f' = fold_left (upd (factor_f py)) rows f /\
  forall k, value_in rs' k = fold_left (upd (ref_f py k)) rows (value_in rs k).
Proof.
  intros py rows. induction rows as [|row rows IH]; intros n u f rs n' u' f' rs' H.
  - cbn in H. injection H as <- <- <- <-. repeat split.
  - cbn [ref_rows] in H. destruct (ref_row py (n, u, f, rs) row) as [[[[n1 u1] f1] rs1]|] eqn:E; [|discriminate].
    destruct (ref_row_step _ _ _ _ _ _ _ _ _ _ E) as (-> & -> & -> & V). destruct (IH _ _ _ _ _ _ _ _ H) as (-> & -> & -> & V').
    cbn [fold_left]. repeat split. intro k. rewrite V', V. reflexivity.
Qed.
Lemma well_f_spec : forall py row t, well_f py row = Some t <-> well_named py row t.
Proof.
  intros py row t. unfold well_f, well_named. rewrite on_label_spec. split.
  - intros (lab & v & L & H). destruct (is_well lab) eqn:W; [|discriminate]. apply text_eqb_spec in W. subst. injection H as <-. exists v. split; [exact L|apply str_or_empty_spec].
  - intros (v & L & H). exists (lit "Well"), v. split; [exact L|]. change (is_well (lit "Well")) with true. cbv iota. f_equal.
    destruct H as [[-> ->]|[N ->]]; [reflexivity|]. destruct v; [contradiction| | | |]; reflexivity.
Qed.
Lemma well_not : forall lab, is_well lab = true -> is_units lab = false /\ is_factor lab = false.
Proof. intros lab H. apply text_eqb_spec in H. subst. split; reflexivity. Qed.
Lemma units_not : forall lab, is_units lab = true -> is_factor lab = false.
Proof.
  intros lab H. apply begins_spec in H. destruct H as (r & H). change (small_text lab) with (lower_text lab) in H. unfold is_factor. rewrite H. reflexivity.
Qed.
Lemma units_f_spec : forall py row t, units_f py row = Some t <-> units_named py row t.
Proof.
  intros py row t. unfold units_f, units_named. rewrite on_label_spec. split.
  - intros (lab & v & L & H). destruct (is_well lab); [discriminate|]. destruct (is_units lab) eqn:U; [|discriminate]. apply begins_spec in U.
    exists lab, v, (strip (str py v)). split; [exact L|]. split; [exact U|]. split; [destruct v; discriminate|]. split; [apply strip_spec; reflexivity|].
    destruct v; [discriminate| | | |]; injection H as <-; reflexivity.
  - intros (lab & v & s & L & B & N & S & ->). exists lab, v. split; [exact L|]. apply begins_spec in B. fold (is_units lab) in B.
    destruct (is_well lab) eqn:W; [apply well_not in W; destruct W; congruence|]. rewrite B. apply strip_spec in S. subst s.
    destruct v; [contradiction| | | |]; reflexivity.
Qed.
Lemma factor_f_spec : forall py row x, factor_f py row = Some x <-> factor_given py row x.
Proof.
  intros py row x. unfold factor_f, factor_given. rewrite on_label_spec. split.
  - intros (lab & v & L & H). destruct (is_well lab); [discriminate|]. destruct (is_units lab); [discriminate|]. destruct (is_factor lab) eqn:U; [|discriminate].
    apply begins_spec in U. apply number_holds in H. exists lab, v. auto.
  - intros (lab & v & L & B & H). exists lab, v. split; [exact L|]. apply begins_spec in B. fold (is_factor lab) in B.
    destruct (is_well lab) eqn:W; [apply well_not in W; destruct W; congruence|]. destruct (is_units lab) eqn:U; [apply units_not in U; congruence|].
    rewrite B. apply number_holds. exact H.
Qed.
Lemma ref_f_spec : forall py key row e, ref_f py (lit key) row = Some e <-> ref_given py key row e.
Proof.
  intros py key row e. unfold ref_f, ref_given. rewrite on_label_spec. split.
  - intros (lab & v & L & H). destruct (is_well lab) eqn:W; [discriminate|]. destruct (is_units lab) eqn:U; [discriminate|]. destruct (is_factor lab) eqn:F; [discriminate|].
    destruct (text_eqb (lit key) (key_of lab)) eqn:K; [|discriminate]. apply text_eqb_spec in K. destruct (number_of v) as [x|] eqn:N; [|discriminate]. injection H as <-.
    apply number_holds in N. apply text_eqb_neq in W. apply not_begins in U, F. destruct (before_bracket "("%char lab) as (name & E & NI & D).
    exists lab, v, x, name, (strip name). repeat (split; [assumption || reflexivity|]). split; [apply strip_spec; reflexivity|].
    rewrite K. unfold key_of. rewrite E. reflexivity.
  - intros (lab & v & x & name & s & L & H & -> & W & U & F & NI & D & S & K). exists lab, v. split; [exact L|].
    apply text_eqb_neq in W. apply not_begins in U, F. unfold is_well, is_units, is_factor. rewrite W, U, F.
    apply number_holds in H. rewrite H. unfold key_of. rewrite (bracket_unique _ _ _ NI D). apply strip_spec in S. subst s. change (small_text (strip name)) with (lower_text (strip name)) in K. rewrite K, text_eqb_same. reflexivity.
Qed.

(** ** stations *)
Lemma station_rows : forall py rows, stations_of py rows (flat_map (station_row py) rows).
Proof.
  intros py rows. induction rows as [|row rows IH]; [constructor|]. cbn [flat_map]. unfold station_row at 1, at_or_none at 1.
  destruct (number_of (nth 4 row Blank)) as [md|] eqn:N.
  - cbn [app]. apply a_station; [apply number_holds; exact N| |reflexivity|exact IH].
    intros k v I. assert (G : forall k, to_float py (at_or_zero k row) = if Nat.ltb k (length row) then to_float py (col k row) else Fin 0).
    { intro j. unfold at_or_zero, col. destruct (Nat.ltb_spec j (length row)) as [L|L]; [f_equal; apply nth_indep; exact L|]. rewrite nth_overflow by exact L. reflexivity. }
    destruct I as [E|[E|[E|[]]]]; injection E as <- <-; apply G.
  - cbn [app]. apply no_station; [|exact IH]. unfold col. intros [[x E]|[b E]]; rewrite E in N; discriminate.
Qed.
Lemma wellpath_stations : forall py rows w, parse_wellpath_sheet py rows = Some w -> stations_of py (skipn 2 rows) (wp_stations w).
Proof.
  intros py rows w H. unfold parse_wellpath_sheet in H. destruct (ref_rows py (firstn 12 rows) ([], lit "m", (3048 / 10000)%R, [])) as [[[[n u] f] rs]|]; [|discriminate].
  injection H as <-. apply station_rows.
Qed.
Lemma wellpath_references : forall py rows w, parse_wellpath_sheet py rows = Some w ->
  last_of (well_named py) (firstn 12 rows) [] (wp_name w) /\
  last_of (units_named py) (firstn 12 rows) (lit "m") (wp_units w) /\
  last_of (factor_given py) (firstn 12 rows) (3048 / 10000)%R (wp_ft_to_m w) /\
  last_of (ref_given py "latitude") (firstn 12 rows) NaN (wp_latitude w) /\
  last_of (ref_given py "g") (firstn 12 rows) NaN (wp_g w) /\
  last_of (ref_given py "btotal") (firstn 12 rows) NaN (wp_btotal w) /\
  last_of (ref_given py "dip") (firstn 12 rows) NaN (wp_dip w) /\
  last_of (ref_given py "declination") (firstn 12 rows) NaN (wp_declination w).
Proof.
  intros py rows w H. unfold parse_wellpath_sheet in H. destruct (ref_rows py (firstn 12 rows) ([], lit "m", (3048 / 10000)%R, [])) as [[[[n u] f] rs]|] eqn:E; [|discriminate].
  injection H as <-. cbn [wp_name wp_units wp_ft_to_m wp_latitude wp_g wp_btotal wp_dip wp_declination].
  destruct (ref_rows_fold _ _ _ _ _ _ _ _ _ _ E) as (-> & -> & -> & V).
  assert (RV : forall key, last_of (ref_given py key) (firstn 12 rows) NaN (ref_value rs key)).
  { intro key. change (ref_value rs key) with (value_in rs (lit key)). rewrite V. apply (fold_last _ _ (ref_f py (lit key))). intros r v. apply ref_f_spec. }
  split; [apply fold_last; intros; apply well_f_spec|]. split; [apply fold_last; intros; apply units_f_spec|]. split; [apply fold_last; intros; apply factor_f_spec|].
  auto using RV.
Qed.
(** a sheet that can be read has no label without a cell beside it in its first twelve rows *)
Lemma wellpath_readable : forall py rows, (exists w, parse_wellpath_sheet py rows = Some w) <-> (forall l, In [l] (firstn 12 rows) -> l = Blank).
Proof.
  intros py rows. unfold parse_wellpath_sheet. generalize (firstn 12 rows).
  intros l. assert (G : forall st, (exists st', ref_rows py l st = Some st') <-> (forall c, In [c] l -> c = Blank)).
  { induction l as [|row l IH]; intro st; cbn [ref_rows]; [split; [intros _ c []|intros _; eauto]|].
    assert (D : (exists c, row = [c] /\ c <> Blank) \/ (forall c, row = [c] -> c = Blank) /\ exists st', ref_row py st row = Some st').
    { destruct st as [[[n u] f] rs]. destruct row as [|c row]; [right; split; [discriminate|eexists; reflexivity]|].
      assert (DB : c = Blank \/ c <> Blank) by (destruct c; [left|right..]; congruence).
      destruct row as [|v row].
      - destruct DB as [->|NB]; [right; split; [congruence|eexists; reflexivity]|left; eauto].
      - right. split; [discriminate|]. destruct DB as [->|NB]; [eexists; reflexivity|]. unfold ref_row. destruct c; [contradiction| | | |];
        cbv zeta; repeat (match goal with |- context [if ?b then Some _ else _] => destruct b end); eexists; reflexivity. }
    destruct D as [(c & -> & NB)|[SB (st' & ->)]].
    - split.
      + intros (st' & H). destruct st as [[[n u] f] rs]. destruct c; [contradiction| | | |]; discriminate.
      + intro H. elim NB. apply H. left. reflexivity.
    - rewrite IH. split; intros H c I; [destruct I as [I|I]; [exact (SB c I)|exact (H c I)]|apply H; right; exact I]. }
  rewrite <- (G ([], lit "m", (3048 / 10000)%R, [])). split; intros (w & H).
  - destruct (ref_rows py l ([], lit "m", (3048 / 10000)%R, [])) as [st'|]; [eauto|discriminate].
  - rewrite H. destruct w as [[[n u] f] rs]. eauto.
Qed.

(** ** columns by name *)
Lemma is_label_spec : forall l c, is_label l c = true <-> c = Str (lit l).
Proof.
  intros l c. destruct c; cbn; split; intro H; try discriminate; [apply text_eqb_spec in H; congruence|].
  injection H as ->. apply text_eqb_same.
Qed.
Lemma index_of_spec : forall l row, match index_of l row with Some i => first_column row l i | None => column_missing row l end.
Proof.
  intros l row. induction row as [|c row IH]; cbn [index_of]; [intros []|]. destruct (is_label l c) eqn:L.
  - apply is_label_spec in L. subst c. split; [reflexivity|]. intros j H. lia.
  - destruct (index_of l row) as [i|]; cbn [option_map].
    + destruct IH as [A B]. split; [exact A|]. intros [|j] H; cbn; [intro E; injection E as E; apply is_label_spec in E; congruence|apply B; lia].
    + intros [E|I]; [subst c; assert (is_label l (Str (lit l)) = true) by (apply is_label_spec; reflexivity); congruence|exact (IH I)].
Qed.
Lemma first_column_unique : forall row l i j, first_column row l i -> first_column row l j -> i = j.
Proof.
  intros row l i j [A B] [C D]. destruct (lt_eq_lt_dec i j) as [[H|H]|H]; [elim (D i H A)|exact H|elim (B j H C)].
Qed.
Lemma index_or : forall l row d, named_or row l d (match index_of l row with Some i => i | None => d end).
Proof. intros l row d. pose proof (index_of_spec l row) as H. unfold named_or. destruct (index_of l row); auto. Qed.
Lemma first_in : forall row l i, first_column row l i -> In (Str (lit l)) row.
Proof. intros row l i [A _]. exact (nth_error_In _ _ A). Qed.
Lemma named_or_unique : forall row l d i j, named_or row l d i -> named_or row l d j -> i = j.
Proof.
  intros row l d i j [A|[A ->]] [B|[B ->]]; auto; [exact (first_column_unique _ _ _ _ A B)|elim (B (first_in _ _ _ A))|elim (A (first_in _ _ _ B))].
Qed.
Lemma cov_value_spec : forall py header row l, named_value py header row l (cov_value py header row l).
Proof.
  intros py header row l. unfold named_value, cov_value. pose proof (index_of_spec l header) as H. destruct (index_of l header) as [i|]; [left|right; auto].
  exists i. split; [exact H|]. unfold at_or_none, col. destruct (Nat.ltb_spec i (length row)) as [L|L]; [reflexivity|]. rewrite nth_overflow by exact L. reflexivity.
Qed.
Lemma filter_selects : forall (A : Type) (p : A -> bool) (P : A -> Prop), (forall x, p x = true <-> P x) -> forall l, selects P l (filter p l).
Proof.
  intros A p P S l. induction l as [|x l IH]; [constructor|]. cbn. destruct (p x) eqn:E; [apply sel_keep; [apply S; exact E|exact IH]|].
  apply sel_drop; [intro H; apply S in H; congruence|exact IH].
Qed.
Lemma selects_filter : forall (A : Type) (p : A -> bool) (P : A -> Prop), (forall x, p x = true <-> P x) -> forall l k, selects P l k -> k = filter p l.
Proof.
  intros A p P S l k H. induction H as [|x l k X H IH|x l k X H IH]; [reflexivity| |]; cbn.
  - rewrite (proj2 (S x) X), IH. reflexivity.
  - destruct (p x) eqn:E; [elim X; apply S; exact E|exact IH].
Qed.
Lemma data_rows_spec : forall rows, selects starts_with_number (skipn 2 rows) (data_rows rows).
Proof.
  intro rows. apply filter_selects. intros [|c r]; unfold starts_with_number; split.
  - discriminate.
  - intros (? & ? & E & _). discriminate.
  - intro H. apply numeric_spec in H. eauto.
  - intros (c' & r' & E & H). injection E as <- <-. apply numeric_spec. exact H.
Qed.
Lemma all_some_forall : forall (A B : Type) (f : A -> option B) l k, all_some (map f l) = Some k <-> Forall2 (fun x y => f x = Some y) l k.
Proof.
  intros A B f l. induction l as [|x l IH]; intro k; cbn.
  - split; intro H; [injection H as <-; constructor|inversion H; reflexivity].
  - split.
    + destruct (f x) as [y|] eqn:E; [|discriminate]. destruct (all_some (map f l)) as [q|] eqn:Q; [|discriminate]. intro H. injection H as <-.
      constructor; [exact E|apply IH; reflexivity].
    + intro H. inversion H as [|? y ? q E F]; subst. rewrite E. apply IH in F. rewrite F. reflexivity.
Qed.
Lemma forall2_weaken : forall (A B : Type) (P Q : A -> B -> Prop), (forall x y, P x y -> Q x y) -> forall l k, Forall2 P l k -> Forall2 Q l k.
Proof. intros A B P Q H l k F. induction F; constructor; auto. Qed.
Lemma map_forall2 : forall (A B : Type) (f : A -> B) (P : A -> B -> Prop), (forall x, P x (f x)) -> forall l, Forall2 P l (map f l).
Proof. intros A B f P H l. induction l; constructor; auto. Qed.
Lemma totals_read : forall py rows c, parse_totals_sheet py rows = Some c ->
  exists header data i, nth_error rows 1 = Some header /\ selects starts_with_number (skipn 2 rows) data /\ named_or header "Md" 0 i /\
    Forall2 (fun row x => exists v, nth_error row i = Some v /\ as_float py v = Some x) data (cs_md c) /\
    Forall2 (fun row xs => Forall2 (named_value py header row) ["NN"; "EE"; "VV"; "NE"; "NV"; "EV"]%string xs) data (cs_nev c) /\
    Forall2 (fun row xs => Forall2 (named_value py header row) ["HH"; "LL"; "AA"; "HL"; "HA"; "LA"]%string xs) data (cs_hla c).
Proof.
  intros py rows c H. unfold parse_totals_sheet in H. destruct (nth_error rows 1) as [header|] eqn:E; [|discriminate].
  set (i := match index_of "Md" header with Some i => i | None => 0 end) in H. cbv zeta in H.
  destruct (all_some (map (fun r => match nth_error r i with Some c => as_float py c | None => None end) (data_rows rows))) as [md|] eqn:M; [|discriminate].
  injection H as <-. apply all_some_forall in M. exists header, (data_rows rows), i. split; [reflexivity|]. split; [apply data_rows_spec|]. split; [apply index_or|].
  cbn [cs_md cs_nev cs_hla]. split.
  { eapply forall2_weaken; [|exact M].
    intros row x H. cbv beta in H. destruct (nth_error row i) as [v|]; [eauto|discriminate]. }
  split; apply map_forall2; intro row; [exact (map_forall2 _ _ (cov_value py header row) _ (cov_value_spec py header row) nev_cols)|exact (map_forall2 _ _ (cov_value py header row) _ (cov_value_spec py header row) hla_cols)].
Qed.
Lemma totals_readable : forall py rows, (exists c, parse_totals_sheet py rows = Some c) <->
  exists header i, nth_error rows 1 = Some header /\ named_or header "Md" 0 i /\
    forall row, In row (skipn 2 rows) -> starts_with_number row -> exists v x, nth_error row i = Some v /\ as_float py v = Some x.
Proof.
  intros py rows. split.
  - intros (c & H). destruct (totals_read _ _ _ H) as (header & data & i & E & S & N & F & _). exists header, i. split; [exact E|]. split; [exact N|].
    intros row I P. assert (ID : In row data).
    { clear F. induction S as [|x l k X S IH|x l k X S IH]; [destruct I| |]; destruct I as [->|I]; [left; reflexivity|right; exact (IH I)|contradiction|exact (IH I)]. }
    revert ID. clear S. induction F as [|r x data md (v & A & B) F IH]; [intros []|]. intros [->|J]; [eauto|exact (IH J)].
  - intros (header & i & E & N & F). unfold parse_totals_sheet. rewrite E. cbv zeta.
    rewrite (named_or_unique _ _ _ _ _ (index_or "Md" header 0) N).
    assert (G : forall l, (forall row, In row l -> exists v x, nth_error row i = Some v /\ as_float py v = Some x) ->
      exists md, all_some (map (fun r => match nth_error r i with Some c => as_float py c | None => None end) l) = Some md).
    { induction l as [|r l IH]; intro H; [exists []; reflexivity|]. destruct (H r (or_introl eq_refl)) as (v & x & A & B).
      destruct IH as (md & M); [intros; apply H; right; assumption|]. exists (x :: md). cbn [map all_some]. rewrite A, B, M. reflexivity. }
    destruct (G (data_rows rows)) as (md & M); [|rewrite M; eauto]. intros row I. unfold data_rows in I. apply filter_In in I. destruct I as [I P].
    apply F; [exact I|]. destruct row as [|c r]; [discriminate|]. apply numeric_spec in P. exists c, r. auto.
Qed.
