(** Proofs about the header and the index read from a workbook. *)
Require Import Reals ZArith Ascii String List Bool Lra Lia.
Require Import Verif.Base Verif.NumPy Verif.M_Utils Verif.M_Text Verif.Spec_Text Verif.M_Ingest Verif.Spec_Ingest Verif.P_Text Verif.P_Ingest Verif.P_Ingest2 Verif.P_Ingest4.
Require Import Verif.M_Extract Verif.Spec_Extract Verif.P_Extract.
Import ListNotations.
Open Scope list_scope.
Local Open Scope nat_scope.

(** ** labels *)
Lemma replace_char : forall c s, replace [c] [] s = filter (fun a => negb (Ascii.eqb a c)) s.
Proof.
  intros c s. unfold replace. assert (G : forall f t, length t <= f -> replace_fuel f [c] [] t = filter (fun a => negb (Ascii.eqb a c)) t).
  { induction f as [|f IH]; intros t L; [destruct t; [reflexivity|cbn in L; lia]|]. cbn [replace_fuel]. destruct t as [|a t]; [reflexivity|].
    cbn [length] in L. cbn [prefix_rest filter]. rewrite (Ascii.eqb_sym c a). destruct (Ascii.eqb a c); cbn [app negb]; [|f_equal]; apply IH; lia. }
  apply G. lia.
Qed.
Lemma filter_filter : forall (A : Type) (f g : A -> bool) l, filter f (filter g l) = filter (fun a => g a && f a)%bool l.
Proof. intros A f g l. induction l as [|a l IH]; [reflexivity|]. cbn. destruct (g a); cbn; [destruct (f a); congruence|exact IH]. Qed.
Lemma remove_kept : forall t, remove_characters t = filter kept t.
Proof.
  intro t. unfold remove_characters. cbn [lit list_ascii_of_string fold_left]. rewrite !replace_char, !filter_filter. apply filter_ext. intro c. unfold kept.
  rewrite !negb_orb, andb_assoc. reflexivity.
Qed.
Lemma two_cols : forall row, two_columns row = (col 0 row, col 1 row).
Proof. reflexivity. Qed.

(** ** the header of the example workbooks *)
Definition head_item (row : list cell) : list (text * hvalue) :=
  match col 0 row with Str t => [(filter kept t, HCell (col 1 row))] | _ => [] end.
Lemma header_puts : forall rows d, Forall (fun row => text_or_blank (col 0 row)) rows ->
  make_header_dict (filter (fun kv => negb (cell_eqb (fst kv) Blank)) (map two_columns rows)) d =
  Some (fold_left (fun d kv => dput text_eqb (fst kv) (snd kv) d) (flat_map head_item rows) d).
Proof.
  intros rows. induction rows as [|row rows IH]; intros d F; [reflexivity|]. inversion_clear F as [|? ? T F'].
  cbn [map filter flat_map]. unfold head_item at 1. rewrite two_cols. cbn [fst]. destruct T as [->|(t & ->)]; cbn [cell_eqb negb app fold_left].
  - apply IH. exact F'.
  - cbn [make_header_dict fst snd]. rewrite remove_kept. apply IH. exact F'.
Qed.
Lemma header_readable : forall rows, (exists h, iscwsa_header rows = Some h) <-> Forall (fun row => text_or_blank (col 0 row)) rows.
Proof.
  intro rows. unfold iscwsa_header. split.
  - generalize (@nil (text * hvalue)). induction rows as [|row rows IH]; intros d (h & H); [constructor|]. cbn [map filter] in H. rewrite two_cols in H. cbn [fst] in H.
    destruct (col 0 row) as [|x|b|t|t] eqn:C; cbn [cell_eqb negb make_header_dict] in H; try discriminate;
      (constructor; [rewrite C; unfold text_or_blank; eauto|]); eapply IH; eauto.
  - intro F. rewrite header_puts by exact F. eauto.
Qed.
Lemma head_items_in : forall rows l v, In (l, v) (flat_map head_item rows) <-> exists row, In row rows /\ heads row l /\ v = HCell (col 1 row).
Proof.
  intros rows l v. rewrite in_flat_map. unfold head_item, heads. split; intros (row & I & H); exists row; (split; [exact I|]).
  - destruct (col 0 row) as [|x|b|t|t] eqn:C; try (destruct H; fail); try contradiction. destruct H as [H|[]]. injection H as <- <-. split; [exists t; auto|reflexivity].
  - destruct H as ((t & -> & <-) & ->). left. reflexivity.
Qed.
Lemma head_items_split : forall rows x a b, flat_map head_item rows = a ++ x :: b ->
  exists ra row rb, rows = ra ++ row :: rb /\ head_item row = [x] /\ flat_map head_item rb = b.
Proof.
  intros rows. induction rows as [|r rows IH]; intros x a b E; [destruct a; discriminate|]. cbn [flat_map] in E.
  assert (C : head_item r = [] \/ exists y, head_item r = [y]) by (unfold head_item; destruct (col 0 r); eauto).
  destruct C as [C|(y & C)]; rewrite C in E; cbn [app] in E.
  - destruct (IH x a b E) as (ra & row & rb & -> & P & Q). exists (r :: ra), row, rb. auto.
  - destruct a as [|z a].
    + injection E as <- E. exists [], r, rows. auto.
    + injection E as _ E. destruct (IH x a b E) as (ra & row & rb & -> & P & Q). exists (r :: ra), row, rb. auto.
Qed.
Lemma heads_unique : forall row l l', heads row l -> heads row l' -> l = l'.
Proof. intros row l l' (t & A & <-) (t' & B & <-). congruence. Qed.
Lemma header_last : forall rows h l v, iscwsa_header rows = Some h ->
  (dget text_eqb l h = Some v <-> exists c, v = HCell c /\ last_headed rows l c).
Proof.
  intros rows h l v H. assert (F : Forall (fun row => text_or_blank (col 0 row)) rows) by (apply header_readable; eauto).
  unfold iscwsa_header in H. rewrite header_puts in H by exact F. injection H as <-. rewrite (puts_get text_eqb text_eqb_spec). cbn [dget]. split.
  - intros [(a & b & E & N)|[_ X]]; [|discriminate]. destruct (head_items_split _ _ _ _ E) as (ra & row & rb & -> & P & <-).
    assert (Q : In (l, v) (flat_map head_item [row])) by (cbn [flat_map]; rewrite P; left; reflexivity).
    apply head_items_in in Q. destruct Q as (row' & [<-|[]] & HD & ->). exists (col 1 row). split; [reflexivity|]. exists ra, row, rb.
    split; [reflexivity|]. split; [exact HD|]. split; [reflexivity|]. intros row' I HD'. apply (N (HCell (col 1 row'))). apply head_items_in. eauto.
  - intros (c & -> & a & row & b & -> & HD & -> & N). left. exists (flat_map head_item a), (flat_map head_item b). rewrite flat_map_app. cbn [flat_map].
    destruct HD as (t & T & <-). unfold head_item at 2. rewrite T. split; [reflexivity|]. intros w I. apply head_items_in in I.
    destruct I as (row' & I & HD' & _). exact (N row' I HD').
Qed.

(** ** the header with gyros *)
Lemma gyro_spec : forall t, contains (lit "gyro") (lower_text t) = true <-> about_gyro t.
Proof. intro t. apply contains_spec. Qed.
Lemma plain_loop : forall py rows rest d temp, Forall plain_row rows ->
  header_loop py (map two_columns rows ++ rest) None d temp =
  header_loop py rest None (d ++ filter (fun kv => negb (cell_eqb (fst kv) Blank)) (map two_columns rows)) temp.
Proof.
  intros py rows. induction rows as [|row rows IH]; intros rest d temp F; [cbn; rewrite app_nil_r; reflexivity|]. inversion_clear F as [|? ? P F'].
  cbn [map app filter header_loop]. rewrite two_cols. cbn [fst]. destruct P as [->|(t & -> & NG)]; cbn [cell_eqb negb].
  - apply IH. exact F'.
  - rewrite <- gyro_spec in NG. destruct (contains (lit "gyro") (lower_text t)); [elim NG; reflexivity|]. rewrite IH by exact F'. rewrite <- app_assoc. reflexivity.
Qed.
(** without a gyro the two scripts read the same header *)
Lemma header_plain : forall py rows, Forall plain_row rows -> owsg_header py rows = iscwsa_header rows.
Proof.
  intros py rows F. unfold owsg_header, iscwsa_header. pose proof (plain_loop py rows [] [] [] F) as H. rewrite app_nil_r in H. rewrite H. cbn [app header_loop].
  destruct (make_header_dict (filter (fun kv => negb (cell_eqb (fst kv) Blank)) (map two_columns rows)) []); reflexivity.
Qed.
Lemma drop_colon : forall t, replace (lit ":") [] t = no_colon t.
Proof. intro t. apply (replace_char ":"%char t). Qed.
Lemma space_is : is_space space = true.
Proof. reflexivity. Qed.
Lemma name_spec : forall t, parameter_name t (replace (lit ":") [] (lstrip (space :: t))).
Proof.
  intro t. rewrite drop_colon. cbn [lstrip]. rewrite space_is. destruct (lstrip_split t) as (p & E & B). exists p, (lstrip t).
  split; [exact E|]. split; [exact B|]. split; [|reflexivity]. intros c r H. clear - H. induction t as [|a t IH]; [discriminate|]. cbn in H.
  destruct (is_space a) eqn:S1; [auto|]. injection H as -> _. exact S1.
Qed.
Lemma name_unique : forall t a b, parameter_name t a -> parameter_name t b -> a = b.
Proof.
  assert (G : forall p s t, t = p ++ s -> blanks p -> (forall c r, s = c :: r -> is_space c = false) -> s = lstrip t).
  { intros p s t -> B N. rewrite lstrip_blanks by exact B. destruct s as [|c s]; [reflexivity|]. cbn. rewrite (N c s eq_refl). reflexivity. }
  intros t a b (p & s & E & B & N & ->) (p' & s' & E' & B' & N' & ->). rewrite (G _ _ _ E B N), (G _ _ _ E' B' N'). reflexivity.
Qed.
Lemma value_spec : forall py v h, gyro_value py (Str v) = Some h <-> parameter_value py v h.
Proof.
  intros py v h. unfold gyro_value, parameter_value. destruct (contains (lit "deg") v) eqn:D.
  - apply degrees_spec in D. destruct (before_bracket space v) as (n & HN & NI & SP). rewrite HN. split.
    + intro H. right. split; [exact D|]. destruct (float_of py n) as [x|] eqn:FO; [|discriminate]. injection H as <-.
      destruct SP as [E|(r & E)].
      * exists n, [], x. rewrite app_nil_r. auto.
      * exists n, (space :: r), x. repeat split; eauto.
    + intros [[ND _]|[_ (m & r & x & E & NM & RR & FO & ->)]]; [contradiction|].
      assert (M : m = n). { rewrite <- HN. symmetry. apply bracket_unique; [exact NM|]. destruct RR as [->|(q & ->)]; [rewrite app_nil_r in E; auto|right; exists q; exact E]. }
      subst m. rewrite FO. reflexivity.
  - assert (ND : ~ in_degrees v) by (rewrite <- degrees_spec; congruence). split.
    + intro H. injection H as <-. auto.
    + intros [[_ ->]|[X _]]; [reflexivity|contradiction].
Qed.
(** the parameters of a gyro, read one after the other *)
Lemma params_loop : forall py g params items rest d temp0 old,
  Forall2 (fun row (kv : text * hvalue) => exists t v, parameter_row row t v /\ parameter_name t (fst kv) /\ parameter_value py v (snd kv)) params items ->
  header_loop py (map two_columns params ++ rest) (Some g) d (dput text_eqb g old temp0) =
  header_loop py rest (Some g) d (dput text_eqb g (fold_left (fun m kv => dput text_eqb (fst kv) (snd kv) m) items old) temp0).
Proof.
  intros py g params items rest d temp0 old F. revert old. induction F as [|row kv params items (t & v & (C0 & C1) & PN & PV) F IH]; intro old; [reflexivity|].
  cbn [map app header_loop]. rewrite two_cols, C0, C1. cbn [header_loop]. rewrite Ascii.eqb_refl. apply value_spec in PV. rewrite PV.
  rewrite (dget_put text_eqb text_eqb_spec), text_eqb_same.
  assert (DP : forall (x y : list (text * hvalue)) m, dput text_eqb g x (dput text_eqb g y m) = dput text_eqb g x m).
  { intros x y m. induction m as [|[k w] m IHm]; cbn [dput]; [rewrite text_eqb_same; reflexivity|]. destruct (text_eqb g k) eqn:E; cbn [dput]; rewrite E; [reflexivity|]. f_equal. exact IHm. }
  rewrite DP, IH. cbn [fold_left]. rewrite <- (name_unique _ _ _ PN (name_spec t)). reflexivity.
Qed.
Lemma gyro_end : forall py g row rows d temp, ends_gyro row ->
  header_loop py (map two_columns (row :: rows)) (Some g) d temp = header_loop py (map two_columns (row :: rows)) None d temp.
Proof.
  intros py g row rows d temp (c & t & C & N). cbn [map header_loop]. rewrite two_cols, C. cbn [header_loop].
  destruct (Ascii.eqb c space) eqn:E; [apply Ascii.eqb_eq in E; contradiction|reflexivity].
Qed.
Lemma filter_map_app : forall a b : list (list cell),
  filter (fun kv : cell * cell => negb (cell_eqb (fst kv) Blank)) (map two_columns a) ++ filter (fun kv => negb (cell_eqb (fst kv) Blank)) (map two_columns b) =
  filter (fun kv => negb (cell_eqb (fst kv) Blank)) (map two_columns (a ++ b)).
Proof. intros a b. rewrite map_app, filter_app. reflexivity. Qed.
Lemma gyro_block : forall py before heading t params items after,
  Forall plain_row before -> col 0 heading = Str t -> about_gyro t ->
  Forall2 (fun row (kv : text * hvalue) => exists t v, parameter_row row t v /\ parameter_name t (fst kv) /\ parameter_value py v (snd kv)) params items ->
  (after = [] \/ exists row rows, after = row :: rows /\ ends_gyro row) -> Forall plain_row after ->
  exists h m, iscwsa_header (before ++ after) = Some h /\
    owsg_header py (before ++ heading :: params ++ after) = Some (dput text_eqb (no_colon t) (HGyro m) h) /\
    forall k v, dget text_eqb k m = Some v <-> exists a b, items = a ++ (k, v) :: b /\ forall w, ~ In (k, w) b.
Proof.
  intros py before heading t params items after FB HT G FP EN FA.
  assert (R1 : exists h, iscwsa_header (before ++ after) = Some h).
  { apply header_readable. apply Forall_app. split; [revert FB|revert FA]; apply Forall_impl; intros row [->|(x & -> & _)]; unfold text_or_blank; eauto. }
  destruct R1 as (h & H). exists h, (fold_left (fun m kv => dput text_eqb (fst kv) (snd kv) m) items []).
  split; [exact H|]. split.
  - unfold owsg_header. rewrite map_app. rewrite plain_loop by exact FB. cbn [map app header_loop]. rewrite (two_cols heading), HT. cbn [header_loop].
    assert (GT : contains (lit "gyro") (lower_text t) = true) by (apply gyro_spec; exact G). rewrite GT. rewrite drop_colon. rewrite map_app.
    rewrite (params_loop py (no_colon t) params items (map two_columns after) _ [] [] FP).
    set (m := fold_left (fun m kv => dput text_eqb (fst kv) (snd kv) m) items []).
    assert (L : forall d, header_loop py (map two_columns after) (Some (no_colon t)) d (dput text_eqb (no_colon t) m []) =
       Some (d ++ filter (fun kv => negb (cell_eqb (fst kv) Blank)) (map two_columns after), [(no_colon t, m)])).
    { intro d. destruct EN as [->|(row & rows & -> & E)]; [cbn; rewrite app_nil_r; reflexivity|]. rewrite gyro_end by exact E.
      rewrite <- (app_nil_r (map two_columns (row :: rows))). rewrite plain_loop by exact FA. rewrite app_nil_r. reflexivity. }
    rewrite L. rewrite filter_map_app. unfold iscwsa_header in H. rewrite H. reflexivity.
  - intros k v. rewrite (puts_get text_eqb text_eqb_spec). cbn [dget]. split; [intros [X|[_ X]]; [exact X|discriminate]|auto].
Qed.
(** an empty cell in column A right below a gyro stops the script, as does anything but a text there *)
Lemma gyro_blank : forall py before heading t params items row after,
  Forall plain_row before -> col 0 heading = Str t -> about_gyro t ->
  Forall2 (fun row (kv : text * hvalue) => exists t v, parameter_row row t v /\ parameter_name t (fst kv) /\ parameter_value py v (snd kv)) params items ->
  (forall u, col 0 row <> Str u) -> owsg_header py (before ++ heading :: params ++ row :: after) = None.
Proof.
  intros py before heading t params items row after FB HT G FP NB. unfold owsg_header. rewrite map_app. rewrite plain_loop by exact FB.
  cbn [map app header_loop]. rewrite (two_cols heading), HT. cbn [header_loop].
  assert (GT : contains (lit "gyro") (lower_text t) = true) by (apply gyro_spec; exact G). rewrite GT. rewrite drop_colon. rewrite map_app.
  rewrite (params_loop py (no_colon t) params items (map two_columns (row :: after)) _ [] [] FP). cbn [map header_loop]. rewrite (two_cols row).
  destruct (col 0 row) as [|x|b|u|u]; try reflexivity. elim (NB u). reflexivity.
Qed.

(** ** the index *)
Lemma last_part_fl : forall s, text_eqb (last_part s) (lit "Fl") = true <-> ends_fl s.
Proof.
  intro s. rewrite text_eqb_spec. unfold last_part, ends_fl. induction s as [|c s IH].
  - cbn. split; [discriminate|]. intros [H|(p & H)]; [discriminate|destruct p; discriminate].
  - cbn [split_on]. destruct (split_nonempty "_" s) as (f & fs & E). rewrite E in IH |- *. destruct (Ascii.eqb c "_") eqn:Q.
    + apply Ascii.eqb_eq in Q. subst c. change (last ([] :: f :: fs) []) with (last (f :: fs) []). rewrite IH. split.
      * intros [->|(p & ->)]; right; [exists []|exists ("_"%char :: p)]; reflexivity.
      * intros [H|(p & H)]; [discriminate|]. destruct p as [|a p]; [injection H as ->; left; reflexivity|]. injection H as _ ->. right. exists p. reflexivity.
    + destruct fs as [|g fs].
      * cbn [last] in IH |- *. assert (S1 : s = f). { destruct (P_Ingest4.before_bracket "_" s) as (n & HN & NI & SP). rewrite E in HN. cbn in HN. subst n.
          destruct SP as [SP|(r & SP)]; [exact SP|]. rewrite SP in E. rewrite split_app in E by exact NI. destruct (split_nonempty "_" r) as (x & y & Y). rewrite Y in E. discriminate. }
        subst f. split.
        { intros ->. left. reflexivity. }
        { intros [H|(p & H)]; [exact H|]. destruct p as [|a p]; [injection H as -> _; rewrite Ascii.eqb_refl in Q; discriminate|].
          injection H as <- ->. exfalso.
          assert (X : last [p ++ lit "_Fl"] [] = lit "Fl") by (apply IH; right; exists p; reflexivity). cbn [last] in X.
          apply (f_equal (@length ascii)) in X. rewrite app_length in X. cbn in X. lia. }
      * change (last ((c :: f) :: g :: fs) []) with (last (g :: fs) []). change (last (f :: g :: fs) []) with (last (g :: fs) []) in IH. rewrite IH. split.
        { intros [->|(p & ->)]; [cbn in E; discriminate|]. right. exists (c :: p). reflexivity. }
        { intros [H|(p & H)]; [injection H as -> ->; cbn in E; discriminate|]. destruct p as [|a p]; [injection H as -> _; rewrite Ascii.eqb_refl in Q; discriminate|].
          injection H as <- ->. right. exists p. reflexivity. }
Qed.
Lemma index_row_spec : forall py fields row kv, index_row py fields row = Some kv <-> 
  index_key py row (fst kv) /\ snd kv = fold_left (fun d kv => dput cell_eqb (fst kv) (snd kv) d) (combine fields row) [].
Proof.
  intros py fields row [k v]. unfold index_row, index_key. cbn [fst snd]. destruct (nth_col row 2) as [[L ->]|(L & -> & B)].
  - destruct (nth_col row 1) as [[_ ->]|(X & _)]; [|lia]. destruct (col 2 row) as [|x|b|s|s]; try (split; [discriminate|intros [(s' & H & _) _]; discriminate]).
    destruct (text_eqb (last_part s) (lit "Fl")) eqn:E.
    + apply last_part_fl in E. split.
      * intro H. injection H as <- <-. split; [|reflexivity]. exists s. auto.
      * intros [(s' & H & [[_ ->]|[N _]]) ->]; [reflexivity|]. injection H as <-. contradiction.
    + assert (N : ~ ends_fl s) by (rewrite <- last_part_fl; congruence). split.
      * intro H. injection H as <- <-. split; [|reflexivity]. exists s. auto.
      * intros [(s' & H & [[X _]|[_ ->]]) ->]; [|reflexivity]. injection H as <-. contradiction.
  - split; [discriminate|]. intros [(s & H & _) _]. congruence.
Qed.
Lemma all_some_map : forall (A B : Type) (f : A -> option B) l q, all_some (map f l) = Some q <-> Forall2 (fun a b => f a = Some b) l q.
Proof.
  intros A B f l. induction l as [|a l IH]; intro q; cbn [map all_some].
  - split; [intro H; injection H as <-; constructor|]. intro H. inversion H. reflexivity.
  - destruct (f a) as [b|] eqn:E.
    + destruct (all_some (map f l)) as [r|].
      * split; [intro H; injection H as <-; constructor; [exact E|]; apply IH; reflexivity|]. intro H. inversion H; subst.
        match goal with X : Forall2 _ l _ |- _ => apply IH in X; injection X as -> end. congruence.
      * split; [discriminate|]. intro H. inversion H; subst. match goal with X : Forall2 _ l _ |- _ => apply IH in X; discriminate end.
    + split; [discriminate|]. intro H. inversion H; subst. congruence.
Qed.
Lemma combine_last : forall fields row f x, (exists a b, combine fields row = a ++ (f, x) :: b /\ forall w, ~ In (f, w) b) <-> index_value fields row f x.
Proof.
  intros fields row f x. unfold index_value. revert row. induction fields as [|g fields IH]; intro row.
  - cbn. split; [intros (a & b & E & _); destruct a; discriminate|]. intros (j & H & _). destruct j; discriminate.
  - destruct row as [|y row].
    + cbn. split; [intros (a & b & E & _); destruct a; discriminate|]. intros (j & _ & H & _). destruct j; discriminate.
    + cbn [combine]. specialize (IH row). split.
      * intros (a & b & E & N). destruct a as [|p a]; cbn in E.
        { injection E as -> -> E. exists 0. split; [reflexivity|]. split; [reflexivity|]. intros i I0 IL H. destruct i as [|i]; [lia|]. cbn in H, IL.
          destruct (nth_error row i) as [w|] eqn:W; [|apply nth_error_None in W; lia].
          apply (N w). rewrite <- E. clear - H W. revert row i W H. induction fields as [|g fields IH]; intros row i W H; [destruct i; discriminate|].
          destruct row as [|y row]; [destruct i; discriminate|]. destruct i as [|i]; cbn in *; [injection H as ->; injection W as ->; left; reflexivity|right; eapply IH; eassumption]. }
        { injection E as _ E. destruct (proj1 IH) as (j & J1 & J2 & J3); [eauto|]. exists (S j). split; [exact J1|]. split; [exact J2|].
          intros i I0 IL. destruct i as [|i]; [lia|]. cbn in IL |- *. apply J3; lia. }
      * intros (j & J1 & J2 & J3). destruct j as [|j]; cbn in J1, J2.
        { injection J1 as ->. injection J2 as ->. exists [], (combine fields row). split; [reflexivity|]. intros w I. apply In_nth_error in I. destruct I as (i & I).
          assert (NE : nth_error fields i = Some f /\ nth_error row i = Some w).
          { clear - I. revert row i I. induction fields as [|g fields IH]; intros row i I; [destruct i; discriminate|]. destruct row as [|y row]; [destruct i; discriminate|].
            destruct i as [|i]; cbn in *; [injection I as -> ->; auto|]. exact (IH row i I). }
          destruct NE as [N1 N2]. apply (J3 (S i)); [lia| |exact N1]. cbn. assert (i < length row) by (apply nth_error_Some; congruence). lia. }
        { destruct (proj2 IH) as (a & b & E & N).
          { exists j. split; [exact J1|]. split; [exact J2|]. intros i I0 IL. specialize (J3 (S i)). cbn in J3. apply J3; lia. }
          exists ((g, y) :: a), b. rewrite E. auto. }
Qed.
Lemma index_entries : forall py fields rows d, make_index py (fields :: rows) = Some d ->
  (forall k row a b, rows = a ++ row :: b -> index_key py row k -> (forall row', In row' b -> ~ index_key py row' k) ->
     exists v, dget cell_eqb k d = Some v /\ forall f x, dget cell_eqb f v = Some x <-> index_value fields row f x) /\
  (forall k v, dget cell_eqb k d = Some v -> exists a row b, rows = a ++ row :: b /\ index_key py row k /\
     (forall row', In row' b -> ~ index_key py row' k)).
Proof.
  intros py fields rows d H. cbn [make_index] in H. destruct (all_some (map (index_row py fields) rows)) as [l|] eqn:E; [|discriminate]. injection H as <-.
  apply all_some_map in E.
  assert (KU : forall row k k', index_key py row k -> index_key py row k' -> k = k').
  { intros row k k' (s & S1 & A) (s' & S2 & B). rewrite S1 in S2. injection S2 as <-. destruct A as [[A ->]|[A ->]], B as [[B ->]|[B ->]]; congruence. }
  assert (SP : forall a row b, rows = a ++ row :: b -> exists la kv lb, l = la ++ kv :: lb /\ index_row py fields row = Some kv /\ Forall2 (fun r kv => index_row py fields r = Some kv) b lb).
  { intros a row b ->. apply Forall2_app_inv_l in E. destruct E as (la & lb & _ & F & ->). inversion F; subst. eauto 8. }
  assert (PS : forall la kv lb, l = la ++ kv :: lb -> exists a row b, rows = a ++ row :: b /\ index_row py fields row = Some kv /\ Forall2 (fun r kv => index_row py fields r = Some kv) b lb).
  { intros la kv lb ->. apply Forall2_app_inv_r in E. destruct E as (a & b & _ & F & ->). inversion F; subst. eauto 8. }
  assert (IN : forall b lb, Forall2 (fun r kv => index_row py fields r = Some kv) b lb -> forall k, (exists w, In (k, w) lb) <-> exists row, In row b /\ index_key py row k).
  { intros b lb F k. split.
    - intros (w & I). induction F as [|r kv b lb X F IH]; [destruct I|]. destruct I as [->|I].
      + apply index_row_spec in X. exists r. split; [left; reflexivity|exact (proj1 X)].
      + destruct (IH I) as (row & R1 & R2). exists row. split; [right; exact R1|exact R2].
    - intros (row & I & K). induction F as [|r kv b lb X F IH]; [destruct I|]. destruct I as [->|I].
      + apply index_row_spec in X. destruct kv as [k' v']. cbn [fst] in X. rewrite (KU _ _ _ K (proj1 X)). exists v'. left. reflexivity.
      + destruct (IH I) as (w & W). exists w. right. exact W. }
  split.
  - intros k row a b R1 K N. destruct (SP a row b R1) as (la & [k' v] & lb & -> & X & F). apply index_row_spec in X. cbn [fst snd] in X. destruct X as [K' ->].
    rewrite (KU _ _ _ K K'). eexists. split.
    + apply (puts_get cell_eqb cell_eqb_spec). left. exists la, lb. split; [reflexivity|]. intros w I.
      assert (Y : exists w, In (k', w) lb) by eauto. apply (IN _ _ F) in Y. destruct Y as (row' & I' & K2). apply (N row' I'). rewrite (KU _ _ _ K K'). exact K2.
    + intros f x. rewrite (puts_get cell_eqb cell_eqb_spec). cbn [dget]. rewrite <- combine_last. split; [intros [Y|[_ Y]]; [exact Y|discriminate]|auto].
  - intros k v H. apply (puts_get cell_eqb cell_eqb_spec) in H. destruct H as [(la & lb & E1 & N)|[_ H]]; [|discriminate].
    destruct (PS _ _ _ E1) as (a & row & b & R1 & X & F). apply index_row_spec in X. exists a, row, b. split; [exact R1|]. split; [exact (proj1 X)|].
    intros row' I K. assert (Y : exists row, In row b /\ index_key py row k) by eauto. apply (IN _ _ F) in Y. destruct Y as (w & W). exact (N w W).
Qed.
(** the tool of a short name: the first one in the index *)
Lemma index_found : forall name d k, get_index name d = Found k <->
  exists a v b, d = a ++ (k, v) :: b /\ short_name v name /\ forall k' v', In (k', v') a -> exists n, short_name v' n /\ n <> name.
Proof.
  intros name d k. unfold short_name. change (S_ "Short Name") with (Str (lit "Short Name")). induction d as [|[k0 v0] d IH]; cbn [get_index].
  - split; [discriminate|]. intros (a & v & b & E & _). destruct a; discriminate.
  - destruct (dget cell_eqb (Str (lit "Short Name")) v0) as [n|] eqn:G.
    + destruct (cell_eqb n name) eqn:E.
      * apply cell_eqb_spec in E. subst n. split.
        { intro H. injection H as <-. exists [], v0, d. split; [reflexivity|]. split; [exact G|]. intros ? ? []. }
        { intros (a & v & b & E & SN & N). destruct a as [|[k1 v1] a]; cbn in E; [injection E as -> _ _; reflexivity|].
          injection E as <- <- E. destruct (N k0 v0 (or_introl eq_refl)) as (n & N1 & N2). congruence. }
      * apply cell_eqb_neq in E. rewrite IH. split.
        { intros (a & v & b & -> & SN & N). exists ((k0, v0) :: a), v, b. split; [reflexivity|]. split; [exact SN|].
          intros k' v' [I|I]; [injection I as <- <-; eauto|eauto]. }
        { intros (a & v & b & E1 & SN & N). destruct a as [|[k1 v1] a]; cbn in E1; [injection E1 as <- <- <-; congruence|].
          injection E1 as <- <- ->. exists a, v, b. split; [reflexivity|]. split; [exact SN|]. intros k' v' I. apply (N k' v'). right. exact I. }
    + split; [discriminate|]. intros (a & v & b & E & SN & N). destruct a as [|[k1 v1] a]; cbn in E; [injection E as -> -> ->; congruence|].
      injection E as <- <- E. destruct (N k0 v0 (or_introl eq_refl)) as (n & N1 & _). congruence.
Qed.
(** get_index undoes get_short_names when no two tools have the same short name *)
Lemma index_inverse : forall d ns, get_short_names d = Some ns -> NoDup (map snd ns) -> forall k n, In (k, n) ns -> get_index n d = Found k.
Proof.
  intros d ns H ND k n I. unfold get_short_names in H. apply all_some_map in H.
  induction H as [|[k0 v0] [k1 n1] d ns X F IH]; [destruct I|]. cbn [fst snd] in X. destruct (dget cell_eqb (Str (lit "Short Name")) v0) as [n0|] eqn:G; [|discriminate].
  injection X as -> ->. cbn [map snd] in ND. inversion_clear ND as [|? ? N1 N2]. cbn [get_index]. rewrite G. destruct I as [I|I].
  - injection I as -> ->. assert (T : cell_eqb n n = true) by (apply cell_eqb_spec; reflexivity). rewrite T. reflexivity.
  - destruct (cell_eqb n1 n) eqn:E; [apply cell_eqb_spec in E; subst; elim N1; apply (in_map snd) in I; exact I|]. exact (IH N2 I).
Qed.

(** ** the run: the list of ignored sheets has no effect *)
Lemma for_each_ends : forall (A : Type) (body : A -> signal) l, for_each body l = Fallthrough.
Proof. intros A body l. induction l as [|a l IH]; [reflexivity|]. cbn. destruct (body a); exact IH. Qed.
Lemma nothing_ignored : forall py ignore sheets index,
  extract_tools py ignore sheets index = extract_tools py [] sheets index /\
  forall l, extract_tools py ignore sheets index = Some l -> map fst l = map fst index.
Proof.
  intros py ignore sheets index. split.
  - induction index as [|[k v] index IH]; [reflexivity|]. cbn [extract_tools]. destruct (dget cell_eqb (Str (lit "Short Name")) v) as [[|x|b|name|t]|]; try reflexivity.
    rewrite !for_each_ends. rewrite IH. reflexivity.
  - induction index as [|[k v] index IH]; intros l H; cbn [extract_tools] in H; [injection H as <-; reflexivity|].
    destruct (dget cell_eqb (Str (lit "Short Name")) v) as [[|x|b|name|t]|]; try discriminate. rewrite for_each_ends in H.
    destruct (dget text_eqb name sheets) as [rows|]; [|discriminate]. destruct (extract_data py rows) as [e|]; [|discriminate].
    destruct (extract_tools py ignore sheets index) as [q|]; [|discriminate]. injection H as <-. cbn. f_equal. apply IH. reflexivity.
Qed.

(** ** sheets the two readers take differently *)
Lemma number_missing : exists rows h x ts d, parse_model_sheet no_text rows = Some (h, x, ts) /\ extract_codes true rows = Some d /\
  (exists e, dget cell_eqb (S_ "XYM1") d = Some e) /\ legacy_codes ts = [].
Proof.
  exists (one_term Blank "S"). eexists _, _, _, _. split; [cbn; reflexivity|]. split; [cbn; reflexivity|]. split; [cbn; eauto|reflexivity].
Qed.
Lemma propagation_spaced : exists rows h x ts d e c, parse_model_sheet no_text rows = Some (h, x, ts) /\ extract_codes true rows = Some d /\
  dget cell_eqb (S_ "XYM1") d = Some e /\ en_propagation e = lit "systematic" /\
  dget text_eqb (lit "XYM1") (legacy_codes ts) = Some c /\ cd_propagation c = lit "random".
Proof.
  exists (one_term (Num 1) "R "). eexists _, _, _, _, _, _. split; [cbn; reflexivity|]. split; [cbn; reflexivity|]. split; [cbn; reflexivity|].
  split; [reflexivity|]. split; [cbn; reflexivity|reflexivity].
Qed.
Lemma one_term_regular : forall n p, trimmed (lit p) -> regular_sheet (one_term (Num n) p).
Proof.
  intros n p T. unfold regular_sheet, one_term. cbn [firstn skipn]. split.
  - constructor; [|constructor; [|constructor; [|constructor]]]; intros [[[x H]|[x H]] _]; discriminate.
  - constructor; [|constructor]. left. unfold regular_term, term_line, S_. cbn [length col nth]. split; [lia|].
    split; [eauto|]. split; [eexists; split; [reflexivity|]; split; [discriminate|right; split; reflexivity]|]. split; [eauto|]. split; [eauto|]. split; [eauto|]. eauto.
Qed.
Lemma gyro_shown : let '(before, (heading, params)) := gyro_sheet in
  Forall plain_row before /\ (exists t, col 0 heading = Str t /\ about_gyro t) /\
  exists items, Forall2 (fun row (kv : text * hvalue) => exists t v, parameter_row row t v /\ parameter_name t (fst kv) /\ parameter_value three v (snd kv)) params items.
Proof.
  cbn [gyro_sheet]. split; [constructor; [|constructor]; right; exists (lit "Short Name:"); split; [reflexivity|rewrite <- gyro_spec; discriminate]|].
  split; [exists (lit "Stationary Gyro:"); split; [reflexivity|apply gyro_spec; reflexivity]|].
  exists [(lit "End Inclination", HAngle (ext_mul_pos (PI / 180) (Fin 3))); (lit "Mode", HCell (S_ "on"))].
  constructor; [|constructor; [|constructor]].
  - exists (lit "End Inclination:"), (lit "3 deg"). split; [split; reflexivity|]. split; [apply (name_spec (lit "End Inclination:"))|]. apply value_spec. reflexivity.
  - exists (lit " Mode:"), (lit "on"). split; [split; reflexivity|]. split; [apply (name_spec (lit " Mode:"))|]. apply value_spec. reflexivity.
Qed.

(** ** the run: the tools of the index in order, each read from the sheet of its name *)
Lemma tools_of_index : forall py ignore sheets index l, extract_tools py ignore sheets index = Some l <->
  Forall2 (fun kv ke => fst kv = fst ke /\ exists name rows, short_name (snd kv) (Str name) /\ dget text_eqb name sheets = Some rows /\
    owsg_header py rows = Some (fst (snd ke)) /\ extract_codes true rows = Some (snd (snd ke))) index l.
Proof.
  intros py ignore sheets. induction index as [|[k v] index IH]; intros l.
  - cbn. split; [intros [= <-]; constructor|intros H; inversion H; reflexivity].
  - cbn [extract_tools]. unfold short_name, S_. destruct (dget cell_eqb (Str (lit "Short Name")) v) as [c|] eqn:E.
    2:{ split; [discriminate|]. intros H. inversion H; subst. destruct H2 as (_ & n & rows & A & _). cbn [snd] in A. unfold short_name, S_ in A. congruence. }
    destruct c as [|x|b|name|t];
      try (split; [discriminate|]; intros H; inversion H; subst; destruct H2 as (_ & n & rows & A & _); cbn [snd] in A; unfold short_name, S_ in A; congruence).
    rewrite for_each_ends. destruct (dget text_eqb name sheets) as [rows|] eqn:F.
    2:{ split; [discriminate|]. intros H. inversion H; subst. destruct H2 as (_ & n & rows & A & B & _). cbn [snd] in A. unfold short_name, S_ in A. rewrite E in A. injection A as <-. congruence. }
    unfold extract_data. split.
    + intros H. destruct (extract_codes true rows) as [e|] eqn:G; [|discriminate]. destruct (owsg_header py rows) as [h|] eqn:K; [|discriminate].
      destruct (extract_tools py ignore sheets index) as [q|] eqn:Q; [|discriminate]. injection H as <-. constructor.
      * split; [reflexivity|]. exists name, rows. cbn [fst snd]. unfold short_name, S_. repeat split; assumption.
      * apply IH. reflexivity.
    + intros H. inversion H; subst. destruct H2 as (K & n & rows' & A & B & C & D). cbn [fst snd] in A, K. unfold short_name, S_ in A. rewrite E in A. injection A as <-.
      rewrite F in B. injection B as <-. rewrite D, C. apply IH in H4. rewrite H4. destruct y as [k' [h e]]. cbn [fst snd] in K |- *. rewrite K. reflexivity.
Qed.
