(** Proofs about the scripts that write the tool codes from a workbook. *)
Require Import Reals ZArith Ascii String List Bool Lra Lia.
Require Import Verif.Base Verif.NumPy Verif.M_Utils Verif.M_Text Verif.Spec_Text Verif.M_Ingest Verif.Spec_Ingest Verif.P_Text Verif.P_Ingest Verif.P_Ingest2.
Require Import Verif.M_Extract Verif.Spec_Extract.
Import ListNotations.
Open Scope list_scope.
Local Open Scope nat_scope.

Lemma cell_eqb_spec : forall a b, cell_eqb a b = true <-> a = b.
Proof.
  intros a b. destruct a, b; cbn; split; intro H; try discriminate; try reflexivity.
  - destruct (Req_EM_T x x0); congruence.
  - injection H as ->. destruct (Req_EM_T x0 x0); congruence.
  - apply eqb_prop in H. congruence.
  - injection H as ->. apply eqb_reflx.
  - apply text_eqb_spec in H. congruence.
  - injection H as ->. apply text_eqb_same.
  - apply text_eqb_spec in H. congruence.
  - injection H as ->. apply text_eqb_same.
Qed.
Lemma cell_eqb_neq : forall a b, cell_eqb a b = false <-> a <> b.
Proof. intros a b. rewrite <- cell_eqb_spec. destruct (cell_eqb a b); split; congruence. Qed.

(** ** one row *)
Definition row_item (skip : bool) (row : list cell) : option (list (cell * entry)) :=
  match raw_row skip (skipn 3 row) with
  | None => None
  | Some [] => Some []
  | Some ((c, f, m, u, p) :: _) => match make_entry f m u p with Some e => Some [(c, e)] | None => None end
  end.
Lemma raw_short : forall skip row l, raw_row skip row = Some l -> l = [] \/ exists x, l = [x].
Proof.
  intros skip row l. unfold raw_row. destruct (nth_error row 1); [|discriminate].
  destruct (skip && cell_eqb c Blank)%bool; [intro H; injection H as <-; auto|].
  destruct (nth_error row 3), (nth_error row 6), (nth_error row 7), (nth_error row 8); try discriminate.
  intro H. injection H as <-. eauto.
Qed.
Lemma error_dict_items : forall skip rows d,
  match all_some (map (fun row => raw_row skip (skipn 3 row)) rows) with Some l => make_error_dict (concat l) d | None => None end =
  match all_some (map (row_item skip) rows) with
  | Some l => Some (fold_left (fun d kv => dput cell_eqb (fst kv) (snd kv) d) (concat l) d)
  | None => None
  end.
Proof.
  intros skip rows. induction rows as [|row rows IH]; intro d; [reflexivity|]. cbn [map all_some].
  unfold row_item at 1. destruct (raw_row skip (skipn 3 row)) as [l|] eqn:E; [|reflexivity].
  destruct (raw_short _ _ _ E) as [->|[[[[[c f] m] u] p] ->]].
  - specialize (IH d). destruct (all_some (map (fun row => raw_row skip (skipn 3 row)) rows)) as [q|]; cbn [concat app]; rewrite IH;
      destruct (all_some (map (row_item skip) rows)); reflexivity.
  - destruct (make_entry f m u p) as [e|] eqn:M.
    + specialize (IH (dput cell_eqb c e d)). destruct (all_some (map (fun row => raw_row skip (skipn 3 row)) rows)) as [q|].
      * cbn [concat app make_error_dict]. rewrite M, IH. destruct (all_some (map (row_item skip) rows)); reflexivity.
      * destruct (all_some (map (row_item skip) rows)); [discriminate|reflexivity].
    + destruct (all_some (map (fun row => raw_row skip (skipn 3 row)) rows)) as [q|]; [|reflexivity]. cbn [concat app make_error_dict]. rewrite M. reflexivity.
Qed.
Lemma nth_skip3 : forall (row : list cell) k, nth_error (skipn 3 row) k = nth_error row (3 + k).
Proof. intros row k. destruct row as [|a [|b [|c r]]]; cbn; destruct k; reflexivity. Qed.
Lemma nth_col : forall (row : list cell) k, (k < length row /\ nth_error row k = Some (col k row)) \/ (length row <= k /\ nth_error row k = None /\ col k row = Blank).
Proof.
  intros row k. unfold col. destruct (Nat.lt_ge_cases k (length row)) as [L|L].
  - left. split; [exact L|]. apply nth_error_nth'. exact L.
  - right. split; [exact L|]. split; [apply nth_error_None; exact L|]. apply nth_overflow. exact L.
Qed.
Lemma coded : forall row, code_of row (if cell_eqb (col 4 row) (Str (lit "XCLL")) then Str (lit "XCLA") else col 4 row).
Proof.
  intro row. unfold code_of, S_. destruct (cell_eqb (col 4 row) (Str (lit "XCLL"))) eqn:E.
  - apply cell_eqb_spec in E. auto.
  - apply cell_eqb_neq in E. auto.
Qed.
Lemma code_unique : forall row c c', code_of row c -> code_of row c' -> c = c'.
Proof. intros row c c' [[A ->]|[A ->]] [[B ->]|[B ->]]; congruence. Qed.
Lemma considered_spec : forall skip row, (skip && cell_eqb (col 4 row) Blank)%bool = false <-> considered skip row.
Proof.
  intros skip row. unfold considered. rewrite andb_false_iff, cell_eqb_neq. destruct skip; split; intro H; auto; try discriminate.
  - destruct H; [discriminate|]. auto.
Qed.
Lemma propagation_spec : forall c, propagates_as c (propagation_cell c).
Proof.
  intro c. unfold propagates_as, propagation_cell, S_. destruct c as [|x|b|p|p]; try (right; right; right; split; [cbn; intuition discriminate|reflexivity]).
  unfold propagation_map. cbn [dget].
  destruct (text_eqb p (lit "R")) eqn:A; [apply text_eqb_spec in A; subst; auto|].
  destruct (text_eqb p (lit "S")) eqn:B; [apply text_eqb_spec in B; right; right; right; rewrite B; split; [|reflexivity]; cbn; intuition discriminate|].
  destruct (text_eqb p (lit "G")) eqn:C; [apply text_eqb_spec in C; subst; auto|].
  destruct (text_eqb p (lit "W")) eqn:D; [apply text_eqb_spec in D; subst; right; right; left; auto|].
  apply text_eqb_neq in A, B, C, D. right. right. right. split; [|reflexivity]. intros [H|[H|[H|[]]]]; apply (f_equal (fun c => match c with Str t => t | _ => [] end)) in H; cbn [lit] in *; congruence.
Qed.
Lemma radians_number : forall c, (exists x, radians_cell c = Some (Num (x * (PI / 180))) /\ holds c x) \/ (radians_cell c = None /\ ~ is_number c).
Proof.
  intro c. unfold is_number, holds. destruct c as [|x|b|t|t]; cbn [radians_cell].
  - right. split; [reflexivity|]. intros [[? H]|[? H]]; discriminate.
  - left. exists x. split; [apply f_equal, f_equal; unfold radians; field|auto].
  - left. exists (if b then 1 else 0)%R. split; [apply f_equal, f_equal; unfold radians; field|]. destruct b; auto.
  - right. split; [reflexivity|]. intros [[? H]|[? H]]; discriminate.
  - right. split; [reflexivity|]. intros [[? H]|[? H]]; discriminate.
Qed.
Lemma row_item_cases : forall skip row,
  (5 <= length row /\ ~ considered skip row /\ row_item skip row = Some []) \/
  (considered skip row /\ usable row /\ exists c e, row_item skip row = Some [(c, e)] /\ code_of row c /\ describes_entry row e) \/
  (row_item skip row = None /\ ~ (5 <= length row /\ (considered skip row -> usable row))).
Proof.
  intros skip row. unfold row_item, raw_row. rewrite !nth_skip3. cbn [plus].
  destruct (nth_col row 4) as [[L ->]|(L & -> & _)]; [|right; right; split; [reflexivity|lia]].
  destruct (skip && cell_eqb (col 4 row) Blank)%bool eqn:SK.
  { left. split; [lia|]. split; [|reflexivity]. rewrite <- considered_spec. congruence. }
  apply considered_spec in SK. right.
  assert (U12 : usable row -> 12 <= length row) by (intro U; exact (proj1 U)).
  destruct (nth_col row 6) as [[L6 ->]|(L6 & -> & _)]; [|right; split; [reflexivity|]; intros [_ H]; specialize (U12 (H SK)); lia].
  destruct (nth_col row 9) as [[L9 ->]|(L9 & -> & _)]; [|right; split; [reflexivity|]; intros [_ H]; specialize (U12 (H SK)); lia].
  destruct (nth_col row 10) as [[L10 ->]|(L10 & -> & _)]; [|right; split; [reflexivity|]; intros [_ H]; specialize (U12 (H SK)); lia].
  destruct (nth_col row 11) as [[L11 ->]|(L11 & -> & _)]; [|right; split; [reflexivity|]; intros [_ H]; specialize (U12 (H SK)); lia].
  assert (W : forall f u, col 6 row = Str f -> col 10 row = Str u -> usable row -> in_degrees u -> is_number (col 9 row)).
  { intros f u F U (_ & f' & u' & F' & U' & D). rewrite U in U'. injection U' as <-. exact D. }
  destruct (col 6 row) as [|x|b|f|f] eqn:F; cbn [make_entry];
    try (right; split; [reflexivity|]; intros [_ H]; destruct (H SK) as (_ & f' & u' & F' & _); congruence).
  destruct (col 10 row) as [|x|b|u|u] eqn:U; cbn [make_entry];
    try (right; split; [reflexivity|]; intros [_ H]; destruct (H SK) as (_ & f' & u' & _ & U' & _); congruence).
  destruct (contains (lit "deg") u) eqn:D.
  - apply degrees_spec in D. destruct (radians_number (col 9 row)) as [(x & -> & HX)|[-> NN]].
    + left. split; [exact SK|]. split.
      { split; [lia|]. exists f, u. split; [exact F|]. split; [exact U|]. intros _. destruct HX as [E|[[E _]|[E _]]]; rewrite E; [left|right|right]; eauto. }
      eexists _, _. split; [reflexivity|]. split; [apply coded|]. unfold describes_entry. cbn [en_function en_magnitude en_unit en_propagation].
      split; [exists f; split; [exact F|apply replace_dash]|]. split; [|apply propagation_spec].
      exists u. split; [exact U|]. split; [intros _; exists x; auto|]. split; [intro N; contradiction|].
      intros a b E NA NB. unfold replace. rewrite E. apply replace_once; auto.
    + right. split; [reflexivity|]. intros [_ H]. apply NN. exact (W f u eq_refl eq_refl (H SK) D).
  - assert (ND : ~ in_degrees u) by (rewrite <- degrees_spec; congruence). left. split; [exact SK|]. split.
    { split; [lia|]. exists f, u. split; [exact F|]. split; [exact U|]. intro; contradiction. }
    eexists _, _. split; [reflexivity|]. split; [apply coded|]. unfold describes_entry. cbn [en_function en_magnitude en_unit en_propagation].
    split; [exists f; split; [exact F|apply replace_dash]|]. split; [|apply propagation_spec].
    exists u. split; [exact U|]. split; [intro; contradiction|]. split.
    { intros _. split; [reflexivity|]. apply replace_none. exact ND. }
    intros a b E _ _. elim ND. exists a, b. exact E.
Qed.
Lemma items_readable : forall skip rows, (exists l, all_some (map (row_item skip) rows) = Some l) <->
  Forall (fun row => 5 <= length row /\ (considered skip row -> usable row)) rows.
Proof.
  intros skip rows. induction rows as [|row rows IH]; cbn [map all_some].
  - split; [constructor|eexists; reflexivity].
  - destruct (row_item_cases skip row) as [(L & N & ->)|[(S1 & U & c & e & -> & _)|[-> NN]]].
    + split.
      * intros (l & H). destruct (all_some (map (row_item skip) rows)) eqn:E; [|discriminate]. constructor; [split; [exact L|intro; contradiction]|]. apply IH. eauto.
      * intro H. inversion_clear H as [|? ? _ H']. apply IH in H'. destruct H' as (l & ->). eauto.
    + split.
      * intros (l & H). destruct (all_some (map (row_item skip) rows)) eqn:E; [|discriminate]. constructor; [split; [destruct U; lia|intros _; exact U]|]. apply IH. eauto.
      * intro H. inversion_clear H as [|? ? _ H']. apply IH in H'. destruct H' as (l & ->). eauto.
    + split; [intros (l & H); discriminate|]. intro H. inversion_clear H. contradiction.
Qed.
(** which sheets the scripts can read *)
Lemma codes_readable : forall skip rows, (exists d, extract_codes skip rows = Some d) <->
  Forall (fun row => 5 <= length row /\ (considered skip row -> usable row)) (skipn 3 rows).
Proof.
  intros skip rows. unfold extract_codes. rewrite error_dict_items. rewrite <- items_readable.
  destruct (all_some (map (row_item skip) (skipn 3 rows))) as [l|]; split; intros (x & H); eauto; discriminate.
Qed.
(** the position of an entry among the rows *)
Lemma items_in : forall skip rows l c e, all_some (map (row_item skip) rows) = Some l -> In (c, e) (concat l) ->
  exists row, In row rows /\ considered skip row /\ code_of row c.
Proof.
  intros skip rows. induction rows as [|row rows IH]; intros l c e H I; cbn [map all_some] in H.
  - injection H as <-. destruct I.
  - destruct (all_some (map (row_item skip) rows)) as [q|]; [|destruct (row_item skip row); discriminate].
    assert (T : forall x y, In (x, y) (concat q) -> exists row', In row' (row :: rows) /\ considered skip row' /\ code_of row' x).
    { intros x y J. destruct (IH q x y eq_refl J) as (r & R1 & R2). exists r. split; [right; exact R1|exact R2]. }
    destruct (row_item_cases skip row) as [(_ & _ & E)|[(S1 & _ & c' & e' & E & C & _)|[E _]]]; rewrite E in H; [injection H as <-..|discriminate].
    + exact (T c e I).
    + cbn [concat app] in I. destruct I as [I|I]; [|exact (T c e I)]. injection I as <- <-. exists row. split; [left; reflexivity|auto].
Qed.
Lemma items_has : forall skip rows l row c, all_some (map (row_item skip) rows) = Some l -> In row rows -> considered skip row -> code_of row c ->
  exists e, In (c, e) (concat l).
Proof.
  intros skip rows. induction rows as [|r rows IH]; intros l row c H I K C; [destruct I|]. cbn [map all_some] in H.
  destruct (all_some (map (row_item skip) rows)) as [q|] eqn:Q; [|destruct (row_item skip r); discriminate].
  destruct (row_item_cases skip r) as [(_ & N & E)|[(S1 & _ & c' & e' & E & C' & _)|[E _]]]; rewrite E in H; [injection H as <-..|discriminate].
  - destruct I as [->|I]; [contradiction|]. exact (IH q row c eq_refl I K C).
  - destruct I as [->|I].
    + rewrite (code_unique _ _ _ C C'). exists e'. left. reflexivity.
    + destruct (IH q row c eq_refl I K C) as (e & J). exists e. right. exact J.
Qed.
Lemma items_split : forall skip rows l, all_some (map (row_item skip) rows) = Some l -> forall x a b, concat l = a ++ x :: b ->
  exists ra row rb lb, rows = ra ++ row :: rb /\ row_item skip row = Some [x] /\ all_some (map (row_item skip) rb) = Some lb /\ concat lb = b.
Proof.
  intros skip rows. induction rows as [|r rows IH]; intros l H x a b E; cbn [map all_some] in H.
  - injection H as <-. destruct a; discriminate.
  - destruct (all_some (map (row_item skip) rows)) as [q|] eqn:Q; [|destruct (row_item skip r); discriminate].
    destruct (row_item_cases skip r) as [(_ & N & F)|[(S1 & _ & c' & e' & F & C' & _)|[F _]]]; rewrite F in H; [injection H as <-..|discriminate].
    + destruct (IH q eq_refl x a b E) as (ra & row & rb & lb & -> & A & B & C). exists (r :: ra), row, rb, lb. auto.
    + cbn [concat app] in E. destruct a as [|y a].
      * injection E as <- E. exists [], r, rows, q. auto.
      * injection E as _ E. destruct (IH q eq_refl x a b E) as (ra & row & rb & lb & -> & A & B & C). exists (r :: ra), row, rb, lb. auto.
Qed.
(** every name has the entry of its last row, and no other name is there *)
Lemma codes_last : forall skip rows d c, extract_codes skip rows = Some d ->
  (forall row, last_coded skip rows c row -> exists e, dget cell_eqb c d = Some e /\ describes_entry row e) /\
  (forall e, dget cell_eqb c d = Some e -> exists row, last_coded skip rows c row /\ describes_entry row e) /\
  NoDup (map fst d).
Proof.
  intros skip rows d c H. unfold extract_codes in H. rewrite error_dict_items in H.
  destruct (all_some (map (row_item skip) (skipn 3 rows))) as [l|] eqn:E; [|discriminate]. injection H as <-.
  assert (G : forall e, dget cell_eqb c (fold_left (fun d kv => dput cell_eqb (fst kv) (snd kv) d) (concat l) []) = Some e ->
    exists row, last_coded skip rows c row /\ describes_entry row e).
  { intros e H. apply (puts_get cell_eqb cell_eqb_spec) in H. destruct H as [(a & b & S1 & F)|[_ H]]; [|discriminate].
    destruct (items_split _ _ _ E _ _ _ S1) as (ra & row & rb & lb & R1 & I & B & <-). exists row.
    destruct (row_item_cases skip row) as [(_ & _ & X)|[(K & _ & c' & e' & X & C & D)|[X _]]]; rewrite X in I; try discriminate.
    injection I as -> ->. split; [|exact D]. exists ra, rb. split; [exact R1|]. split; [exact K|]. split; [exact C|].
    intros row' J K' C'. destruct (items_has _ _ _ _ _ B J K' C') as (e' & J'). exact (F e' J'). }
  split; [|split; [exact G|apply (puts_nodup cell_eqb cell_eqb_spec); constructor]].
  intros row (a & b & R1 & K & C & F).
  assert (I : In row (skipn 3 rows)) by (rewrite R1; apply in_or_app; right; left; reflexivity).
  destruct (items_has _ _ _ _ _ E I K C) as (e0 & J).
  destruct (dget cell_eqb c (fold_left (fun d kv => dput cell_eqb (fst kv) (snd kv) d) (concat l) [])) as [e|] eqn:DG.
  - exists e. split; [reflexivity|]. destruct (G e eq_refl) as (row' & (a' & b' & R2 & K' & C' & F') & D).
    assert (row' = row); [|subst; exact D]. rewrite R2 in R1. clear - R1 F F' K K' C C'. revert a R1. induction a' as [|x a' IH]; intros a R1; destruct a as [|y a]; cbn in R1.
    + congruence.
    + injection R1 as _ R1. elim (F' row); [|exact K|exact C]. rewrite R1. apply in_or_app. right. left. reflexivity.
    + injection R1 as _ R1. elim (F row'); [|exact K'|exact C']. rewrite <- R1. apply in_or_app. right. left. reflexivity.
    + injection R1 as _ R1. exact (IH a R1).
  - apply (dget_none cell_eqb cell_eqb_spec) in DG. elim DG. apply (puts_keys cell_eqb cell_eqb_spec). left. apply in_map_iff. exists (c, e0). auto.
Qed.

(** ** the newer reader on a regular sheet *)
Lemma dput_same : forall a b, Forall2 same_code a b -> forall k e n c, same_code (k, e) (n, c) ->
  Forall2 same_code (dput cell_eqb k e a) (dput text_eqb n c b).
Proof.
  intros a b F. induction F as [|[k1 e1] [n1 c1] a b X F IH]; intros k e n c Y; cbn [dput].
  - constructor; [exact Y|constructor].
  - assert (E : cell_eqb k k1 = text_eqb n n1). { destruct X as (X & _), Y as (Y & _). cbn in X, Y. subst. reflexivity. }
    rewrite E. destruct (text_eqb n n1).
    + constructor; [|exact F]. destruct X as (X & _), Y as (_ & Y). split; [exact X|exact Y].
    + constructor; [exact X|]. apply IH. exact Y.
Qed.
Lemma trimmed_id : forall t l, trimmed t -> stripped t l -> l = t.
Proof.
  intros t l T H. apply strip_spec in H. rewrite <- H. apply strip_spec. exists [], []. rewrite app_nil_r.
  split; [reflexivity|]. split; [constructor|]. split; [constructor|exact T].
Qed.
Lemma regular_same : forall py row t, regular_term row -> describes_term py row t ->
  exists e, row_item true row = Some [e] /\ same_code e (legacy_name t, legacy_code t).
Proof.
  intros py row t (L & (n & D) & (c & C & CN & CT) & (f & F) & (m & M) & (u & U) & (p & P & PT)) (_ & TC & _ & TF & _ & _ & TM & TU & (s & TS & TP) & _).
  unfold row_item, raw_row. rewrite !nth_skip3. cbn [plus].
  destruct (nth_col row 4) as [[_ ->]|(X & _)]; [|lia]. destruct (nth_col row 6) as [[_ ->]|(X & _)]; [|lia].
  destruct (nth_col row 9) as [[_ ->]|(X & _)]; [|lia]. destruct (nth_col row 10) as [[_ ->]|(X & _)]; [|lia].
  destruct (nth_col row 11) as [[_ ->]|(X & _)]; [|lia].
  rewrite C in TC. rewrite F in TF. rewrite M in TM. rewrite U in TU. rewrite P in TS. rewrite C, F, M, U, P. cbn [str to_float cell_text cell_number] in *.
  apply (trimmed_id _ _ CT) in TC. destruct TF as [[TF _]|[_ TF]]; [discriminate|]. destruct TU as [[TU _]|[_ TU]]; [discriminate|].
  destruct TS as [[TS _]|[_ TS]]; [discriminate|]. cbn [str cell_text] in TF, TU, TS. subst s. apply (trimmed_id _ _ PT) in TP.
  cbn [andb cell_eqb make_entry]. unfold legacy_name, legacy_code, magnitude_si, unit_si, propagation_or. rewrite TC, TF, TM, TU, TP.
  replace (if text_eqb c (lit "XCLL") then Str (lit "XCLA") else Str c) with (Str (if text_eqb c (lit "XCLL") then lit "XCLA" else c)) by (destruct (text_eqb c (lit "XCLL")); reflexivity).
  destruct (contains (lit "deg") u); cbn [radians_cell]; eexists; (split; [reflexivity|]); unfold same_code; cbn [fst snd en_function en_unit en_magnitude en_propagation cd_function cd_unit cd_magnitude cd_propagation propagation_cell];
    (split; [reflexivity|]); (split; [reflexivity|]); (split; [reflexivity|]); (split; [reflexivity|]).
  - eexists. split; [reflexivity|]. cbn. f_equal. unfold radians, Rdiv. ring.
  - exists m. auto.
Qed.
Lemma regular_is_term : forall row, regular_term row -> term_row row.
Proof.
  intros row (_ & (n & D) & (c & C & CN & _) & _). split; [left; eauto|]. rewrite C. unfold filled. repeat split; try discriminate. congruence.
Qed.
Lemma blank_no_term : forall row, col 4 row = Blank -> ~ term_row row.
Proof. intros row B (_ & F & _). contradiction. Qed.
Lemma terms_app : forall py a b ts, terms_of py (a ++ b) ts -> Forall (fun row => ~ term_row row) a -> terms_of py b ts.
Proof.
  intros py a. induction a as [|r a IH]; intros b ts T F; [exact T|]. inversion_clear F as [|? ? N F'].
  inversion T; subst; [contradiction|]. apply IH; assumption.
Qed.
Lemma regular_items : forall py rows ts, terms_of py rows ts ->
  Forall (fun row => regular_term row \/ (5 <= length row /\ col 4 row = Blank)) rows ->
  exists l, all_some (map (row_item true) rows) = Some l /\ forall a b, Forall2 same_code a b ->
    Forall2 same_code (fold_left (fun d kv => dput cell_eqb (fst kv) (snd kv) d) (concat l) a)
      (fold_left (fun d t => dput text_eqb (legacy_name t) (legacy_code t) d) ts b).
Proof.
  intros py rows ts T. induction T as [|row rows t ts TR DT T IH|row rows ts NT T IH]; intro F.
  - exists []. split; [reflexivity|]. intros a b H. exact H.
  - inversion_clear F as [|? ? [RT|[_ B]] F']; [|elim (blank_no_term _ B TR)]. destruct (IH F') as (l & L & G).
    destruct (regular_same _ _ _ RT DT) as ([k e] & E & SC). cbn [map all_some]. rewrite E, L. eexists. split; [reflexivity|].
    intros a b H. cbn [concat app fold_left fst snd]. apply G. apply dput_same; assumption.
  - inversion_clear F as [|? ? [RT|[L5 B]] F']; [elim (NT (regular_is_term _ RT))|]. destruct (IH F') as (l & L & G). cbn [map all_some].
    destruct (row_item_cases true row) as [(_ & _ & ->)|[(K & _)|[_ X]]].
    + rewrite L. eexists. split; [reflexivity|]. intros a b H. cbn [concat app]. apply G. exact H.
    + elim (K eq_refl B).
    + elim X. split; [exact L5|]. intro K. elim (K eq_refl B).
Qed.
Lemma readers_agree : forall py rows h x ts, regular_sheet rows -> parse_model_sheet py rows = Some (h, x, ts) ->
  exists d, extract_codes true rows = Some d /\ Forall2 same_code d (legacy_codes ts).
Proof.
  intros py rows h x ts (R1 & R2) H. apply model_terms in H. rewrite <- (firstn_skipn 3 rows) in H. apply terms_app in H; [|exact R1].
  destruct (regular_items _ _ _ H R2) as (l & L & G). unfold extract_codes. rewrite error_dict_items, L. eexists. split; [reflexivity|].
  apply G. constructor.
Qed.
