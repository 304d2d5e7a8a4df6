(** The blocks of an error-source sheet, and the workbook. *)
Require Import Reals ZArith Ascii String List Bool Lra Lia.
Require Import Verif.Base Verif.NumPy Verif.M_Utils Verif.M_DmsText.
Require Import Verif.M_Text Verif.Spec_Text Verif.P_Text Verif.M_Ingest Verif.Spec_Ingest Verif.P_Ingest Verif.P_Ingest2 Verif.P_Ingest4 Verif.P_Ingest5 Verif.P_Ingest6.
Import ListNotations.
Open Scope list_scope.
Local Open Scope nat_scope.

Lemma group_name_spec : forall l before n, group_name l before n <-> n = block_name l (occurrences l before).
Proof.
  intros l before n. unfold group_name, block_name. destruct (occurrences l before) as [|k]; [reflexivity|].
  replace (Datatypes.S k + 1) with (Datatypes.S (Datatypes.S k)) by lia. reflexivity.
Qed.
Lemma occurrences_app : forall l a b, occurrences l (a ++ b) = occurrences l a + occurrences l b.
Proof. intros l a b. induction a as [|x a IH]; cbn; [reflexivity|]. rewrite IH. lia. Qed.
Definition skipped (subcols : list cell) (g : nat * span) : bool := match subcols with Str t :: _ => text_eqb (label_of g) t | _ => false end.
Lemma skipped_spec : forall subcols g, negb (skipped subcols g) = true <-> counted subcols g.
Proof.
  intros subcols g. unfold skipped, counted, col. destruct subcols as [|[|x|b|t|t] r]; cbn; try (split; [discriminate|reflexivity]); try (split; [intros _; discriminate|reflexivity]).
  rewrite negb_true_iff, text_eqb_neq. split; [intros H E; injection E as E; congruence|congruence].
Qed.
Fixpoint named_groups (before : list text) (gs : list (nat * span)) : list (text * (nat * span)) :=
  match gs with [] => [] | g :: r => (block_name (label_of g) (occurrences (label_of g) before), g) :: named_groups (before ++ [label_of g]) r end.
Definition block_entry (py : python) (subcols : list cell) (data : list (list cell)) (ng : text * (nat * span)) : list (text * block) :=
  match read_block py subcols data (fst (snd ng)) (snd (snd (snd ng))) with [] => [] | b => [(fst ng, b)] end.
Definition agrees (seen : list (text * nat)) (before : list text) : Prop :=
  forall l, match dget text_eqb l seen with Some n => n | None => 0 end = occurrences l before.
Lemma read_blocks_puts : forall py subcols data gs seen before blocks, agrees seen before ->
  read_blocks py subcols data gs seen blocks = puts text_eqb (flat_map (block_entry py subcols data) (named_groups before (filter (fun g => negb (skipped subcols g)) gs))) blocks.
Proof.
  intros py subcols data gs. induction gs as [|[start [label width]] gs IH]; intros seen before blocks A; [reflexivity|]. cbn [read_blocks filter].
  change (match subcols with Str t :: _ => text_eqb label t | _ => false end) with (skipped subcols (@pair nat span start (label, width))).
  destruct (skipped subcols (@pair nat span start (label, width))); cbn [negb]; [apply IH; exact A|].
  cbn [named_groups flat_map]. unfold puts at 1. rewrite fold_left_app. cbv zeta. rewrite (A label).
  rewrite (IH _ (before ++ [label])).
  - unfold puts. f_equal. unfold block_entry. cbn [fst snd label_of]. destruct (read_block py subcols data start width); reflexivity.
  - intro l. rewrite (dget_put text_eqb text_eqb_spec), occurrences_app. cbn [occurrences]. destruct (text_eqb l label) eqn:E.
    + apply text_eqb_spec in E. subst l. lia.
    + rewrite A. lia.
Qed.
Lemma named_split : forall gs before p q n g, named_groups before gs = p ++ (n, g) :: q <->
  exists a c, gs = a ++ g :: c /\ n = block_name (label_of g) (occurrences (label_of g) (before ++ map label_of a)) /\
    p = named_groups before a /\ q = named_groups (before ++ map label_of a ++ [label_of g]) c.
Proof.
  intros gs. induction gs as [|h gs IH]; intros before p q n g; cbn [named_groups].
  - split; [destruct p; discriminate|]. intros (a & c & E & _). destruct a; discriminate.
  - split.
    + intro H. destruct p as [|x p]; cbn [app] in H.
      * injection H as H1 H2 H3. subst. exists [], gs. cbn [map app]. rewrite app_nil_r. auto.
      * injection H as H1 H2. apply IH in H2. destruct H2 as (a & c & -> & -> & -> & ->). exists (h :: a), c. cbn [map app named_groups]. subst x.
        rewrite <- !app_assoc. auto.
    + intros (a & c & E & -> & -> & ->). destruct a as [|x a]; cbn [app] in E; injection E as -> E.
      * subst gs. cbn [map app named_groups]. rewrite app_nil_r. reflexivity.
      * cbn [named_groups app map]. f_equal. apply IH. exists a, c. rewrite <- !app_assoc. auto.
Qed.
Lemma flat_last : forall (A V : Type) (f : A -> list (text * V)), (forall i, f i = [] \/ exists p, f i = [p]) ->
  forall l k v, (exists a b, flat_map f l = a ++ (k, v) :: b /\ forall w, ~ In (k, w) b) <->
    exists a x c, l = a ++ x :: c /\ In (k, v) (f x) /\ forall y w, In y c -> ~ In (k, w) (f y).
Proof.
  intros A V f S l. induction l as [|h l IH]; intros k v; cbn [flat_map].
  - split; [intros (a & b & E & _); destruct a; discriminate|]. intros (a & x & c & E & _). destruct a; discriminate.
  - split.
    + intros (a & b & E & N).
      assert (Later : forall a', flat_map f l = a' ++ (k, v) :: b -> exists a x c, h :: l = a ++ x :: c /\ In (k, v) (f x) /\ forall y w, In y c -> ~ In (k, w) (f y)).
      { intros a' E'. destruct (proj1 (IH k v)) as (a0 & x & c & -> & I & L); [exists a', b; auto|]. exists (h :: a0), x, c. auto. }
      destruct (S h) as [Z|(p & Z)]; rewrite Z in E; cbn [app] in E; [exact (Later a E)|]. destruct a as [|q a]; cbn [app] in E.
      * injection E as E1 E2. exists [], h, l. split; [reflexivity|]. split; [rewrite Z, E1; left; reflexivity|]. intros y w J I. apply (N w). rewrite <- E2.
        apply in_flat_map. exists y. auto.
      * injection E as _ E. exact (Later a E).
    + intros (a & x & c & E & I & L). destruct a as [|q a]; cbn [app] in E; injection E as -> E.
      * destruct (S x) as [Z|(p & Z)]; rewrite Z in *; [destruct I|]. destruct I as [->|[]]. exists [], (flat_map f l). split; [reflexivity|].
        intros w J. apply in_flat_map in J. destruct J as (y & J1 & J2). subst c. exact (L y w J1 J2).
      * destruct (proj2 (IH k v)) as (a' & b & E' & N); [exists a, x, c; auto|]. exists (f q ++ a'), b. rewrite E', app_assoc. auto.
Qed.
Lemma block_entry_short : forall py subcols data ng, block_entry py subcols data ng = [] \/ exists p, block_entry py subcols data ng = [p].
Proof. intros. unfold block_entry. destruct (read_block _ _ _ _ _); eauto. Qed.
Lemma block_entry_spec : forall py subcols data n g k b, In (k, b) (block_entry py subcols data (n, g)) <->
  k = n /\ b = read_block py subcols data (fst g) (snd (snd g)) /\ b <> [].
Proof.
  intros py subcols data n g k b. unfold block_entry. cbn [fst snd]. destruct (read_block py subcols data (fst g) (snd (snd g))) as [|x r]; split.
  - intros [].
  - intros (_ & -> & H). contradiction.
  - intros [E|[]]. injection E as <- <-. split; [reflexivity|]. split; [reflexivity|discriminate].
  - intros (-> & -> & _). left. reflexivity.
Qed.
Lemma block_nonempty : forall py subcols data (g : nat * span), read_block py subcols data (fst g) (snd (snd g)) <> [] <-> exists i, covers g i /\ col i subcols <> Blank.
Proof.
  intros py subcols data g. rewrite block_empty. unfold covers. split.
  - intro H. assert (D : forall w s, (exists i, s <= i < s + w /\ col i subcols <> Blank) \/ forall i, s <= i < s + w -> col i subcols = Blank).
    { induction w as [|w IH]; intro s; [right; intros; lia|]. destruct (IH (Datatypes.S s)) as [(i & R & N)|A]; [left; exists i; split; [lia|exact N]|].
      assert (C : col s subcols = Blank \/ col s subcols <> Blank) by (destruct (col s subcols); [left|right..]; congruence).
      destruct C as [C|C]; [right|left; exists s; split; [lia|exact C]]. intros i R. destruct (Nat.eq_dec i s) as [->|NE]; [exact C|apply A; lia]. }
    destruct (D (snd (snd g)) (fst g)) as [X|X]; [exact X|contradiction].
  - intros (i & R & N) H. exact (N (H i R)).
Qed.
(** no later group of that name has a named column *)
Definition final (subcols : list cell) (n : text) (a : list (nat * span)) (g : nat * span) (c : list (nat * span)) : Prop :=
  forall a' g' c', c = a' ++ g' :: c' -> group_name (label_of g') (map label_of (a ++ g :: a')) n -> forall i, covers g' i -> col i subcols = Blank.
Lemma blocks_found : forall py subcols data cs n b,
  dget text_eqb n (puts text_eqb (flat_map (block_entry py subcols data) (named_groups [] cs)) []) = Some b <->
  exists a g c, cs = a ++ g :: c /\ group_name (label_of g) (map label_of a) n /\ (exists i, covers g i /\ col i subcols <> Blank) /\
    final subcols n a g c /\ b = read_block py subcols data (fst g) (snd (snd g)).
Proof.
  intros py subcols data cs n b. unfold puts. rewrite (puts_get text_eqb text_eqb_spec), (flat_last _ _ _ (block_entry_short py subcols data)). cbn [dget]. split.
  - intros [(p & [m g] & q & E & I & L)|[_ H]]; [|discriminate]. apply block_entry_spec in I. destruct I as (<- & -> & NE).
    apply named_split in E. destruct E as (a & c & -> & N & -> & ->). cbn [app] in N, L. exists a, g, c. split; [reflexivity|]. split; [apply group_name_spec; exact N|].
    split; [apply (block_nonempty py subcols data); exact NE|]. split; [|reflexivity].
    intros a' g' c' -> GN i C. assert (D : col i subcols = Blank \/ col i subcols <> Blank) by (destruct (col i subcols); [left|right..]; congruence).
    destruct D as [D|D]; [exact D|]. exfalso. apply (L (n, g') (read_block py subcols data (fst g') (snd (snd g')))).
    + apply group_name_spec in GN. rewrite GN. apply in_or_app || idtac.
      assert (SP : named_groups (map label_of a ++ [label_of g]) (a' ++ g' :: c') = named_groups (map label_of a ++ [label_of g]) a' ++
        (block_name (label_of g') (occurrences (label_of g') (map label_of (a ++ g :: a'))), g') :: named_groups ((map label_of a ++ [label_of g]) ++ map label_of a' ++ [label_of g']) c').
      { apply named_split. exists a', c'. split; [reflexivity|]. split; [|auto]. rewrite map_app. cbn [map]. rewrite <- app_assoc. reflexivity. }
      rewrite SP. apply in_or_app. right. left. reflexivity.
    + apply block_entry_spec. split; [reflexivity|]. split; [reflexivity|]. apply block_nonempty. eauto.
  - intros (a & g & c & -> & N & (i & C & NB) & F & ->). left. apply group_name_spec in N.
    exists (named_groups [] a), (n, g), (named_groups (map label_of a ++ [label_of g]) c). split; [apply named_split; exists a, c; cbn [app]; auto|].
    split; [apply block_entry_spec; split; [reflexivity|]; split; [reflexivity|]; apply block_nonempty; eauto|].
    intros [m h] w I J. apply block_entry_spec in J. destruct J as (<- & -> & NE). apply in_split in I. destruct I as (p & q & I).
    apply named_split in I. destruct I as (a' & c' & -> & M & _ & _). apply block_nonempty in NE. destruct NE as (j & CJ & NJ). apply NJ.
    apply (F a' h c' eq_refl); [|exact CJ]. apply group_name_spec. rewrite M, map_app. cbn [map]. rewrite <- app_assoc. reflexivity.
Qed.
Lemma label_of_pair : forall (g : nat * span), g = (fst g, (label_of g, snd (snd g))).
Proof. intros [s [l w]]. reflexivity. Qed.
Lemma source_read : forall py s, 3 <= length (sh_rows s) -> well_merged s ->
  exists subcols data gs cs, nth_error (sh_rows s) 1 = Some subcols /\ selects starts_with_number (skipn 2 (sh_rows s)) data /\
    left_to_right gs /\ (forall g, In g gs <-> group_of py s g) /\ selects (counted subcols) gs cs /\
    Forall2 (fun row x => exists r, holds (col 0 row) r /\ x = Fin r) data (tb_md (parse_error_source_sheet py s)) /\
    (forall n b, dget text_eqb n (tb_blocks (parse_error_source_sheet py s)) = Some b -> exists a g c, cs = a ++ g :: c /\
       group_name (label_of g) (map label_of a) n /\ (exists i, covers g i /\ col i subcols <> Blank) /\ block_reads py subcols data g b) /\
    (forall a g c n, cs = a ++ g :: c -> group_name (label_of g) (map label_of a) n -> (exists i, covers g i /\ col i subcols <> Blank) ->
       (forall a' g' c', c = a' ++ g' :: c' -> ~ group_name (label_of g') (map label_of (a ++ g :: a')) n) ->
       exists b, dget text_eqb n (tb_blocks (parse_error_source_sheet py s)) = Some b /\ block_reads py subcols data g b).
Proof.
  intros py s L W. destruct (groups_in py s W) as [ND GI].
  exists (nth 1 (sh_rows s) []), (data_rows (sh_rows s)), (sort_spans (header_spans py s)), (filter (fun g => negb (skipped (nth 1 (sh_rows s) []) g)) (sort_spans (header_spans py s))).
  split; [apply nth_error_nth'; lia|]. split; [apply data_rows_spec|]. split; [apply sort_ordered; exact ND|].
  split; [intro g; rewrite sort_in; apply GI|]. split; [apply filter_selects; apply skipped_spec|].
  unfold parse_error_source_sheet. destruct (Nat.ltb_spec (length (sh_rows s)) 3) as [K|_]; [lia|]. cbn [tb_md tb_blocks]. split.
  { assert (G : forall l, (forall r, In r l -> starts_with_number r) -> Forall2 (fun row x => exists r, holds (col 0 row) r /\ x = Fin r) l (map (fun r => md_of (at_or_none 0 r)) l)).
    { induction l as [|r l IH]; intro H; [constructor|]. constructor; [|apply IH; intros; apply H; right; assumption].
      destruct (H r (or_introl eq_refl)) as (c & r' & -> & N). cbn. unfold md_of. destruct (number_of c) as [x|] eqn:E; [exists x; split; [apply number_holds; exact E|reflexivity]|].
      destruct N as [[y ->]|[y ->]]; discriminate. }
    apply G. intros r I. unfold data_rows in I. apply filter_In in I. destruct I as [_ P]. destruct r as [|c r]; [discriminate|]. exists c, r. split; [reflexivity|apply numeric_spec; exact P]. }
  rewrite (read_blocks_puts py _ _ _ [] []) by (intro l; reflexivity). split.
  - intros n b H. apply blocks_found in H. destruct H as (a & g & c & E & N & C & _ & ->). exists a, g, c. split; [exact E|]. split; [exact N|]. split; [exact C|].
    rewrite (label_of_pair g) at 1. apply block_columns.
  - intros a g c n E N C F. exists (read_block py (nth 1 (sh_rows s) []) (data_rows (sh_rows s)) (fst g) (snd (snd g))). split.
    + apply blocks_found. exists a, g, c. split; [exact E|]. split; [exact N|]. split; [exact C|]. split; [|reflexivity].
      intros a' g' c' E' N'. elim (F a' g' c' E' N').
    + rewrite (label_of_pair g) at 1. apply block_columns.
Qed.

(** ** lengths *)
Definition all_values {V : Type} (P : V -> Prop) (d : list (text * V)) : Prop := Forall (fun kv => P (snd kv)) d.
Lemma dput_values : forall (V : Type) (P : V -> Prop) k v d, P v -> all_values P d -> all_values P (dput text_eqb k v d).
Proof.
  intros V P k v d H F. induction F as [|[a w] d A F IH]; cbn; [repeat constructor; exact H|]. destruct (text_eqb k a); constructor; auto.
Qed.
Lemma puts_values : forall (V : Type) (P : V -> Prop) l d, (forall kv, In kv l -> P (snd kv)) -> all_values P d -> all_values P (puts text_eqb l d).
Proof.
  intros V P l. induction l as [|[k v] l IH]; intros d H F; [exact F|]. cbn. apply IH; [intros; apply H; right; assumption|]. apply dput_values; [apply (H (k, v)); left; reflexivity|exact F].
Qed.
Lemma source_lengths : forall py s, Forall (fun gb => Forall (fun ca => length (snd ca) = length (tb_md (parse_error_source_sheet py s))) (snd gb)) (tb_blocks (parse_error_source_sheet py s)).
Proof.
  intros py s. unfold parse_error_source_sheet. destruct (Nat.ltb (length (sh_rows s)) 3); [constructor|]. cbn [tb_md tb_blocks].
  rewrite (read_blocks_puts py _ _ _ [] []) by (intro l; reflexivity). rewrite map_length.
  apply (puts_values _ (fun b : block => Forall (fun ca => length (snd ca) = length (data_rows (sh_rows s))) b)); [|constructor].
  intros [k b] I. apply in_flat_map in I. destruct I as ([n g] & _ & I). apply block_entry_spec in I. destruct I as (_ & -> & _). cbn [snd]. rewrite block_puts.
  apply (puts_values _ (fun xs : list ext => length xs = length (data_rows (sh_rows s)))); [|constructor].
  intros [k' xs] I. apply in_flat_map in I. destruct I as (i & _ & I). apply column_entry_spec in I. destruct I as (_ & _ & ->). cbn [snd]. unfold column. apply map_length.
Qed.
Lemma cut_spec : forall py s n, cut_to n (parse_error_source_sheet py s) (truncate_tab n (parse_error_source_sheet py s)).
Proof.
  intros py s n. pose proof (source_lengths py s) as SL. destruct (parse_error_source_sheet py s) as [md bl]. cbn [tb_md tb_blocks] in SL. unfold truncate_tab, cut_to. cbn [tb_md tb_blocks].
  destruct (Nat.ltb_spec 0 n) as [P|P]; cbn [andb].
  - split; [lia|]. intros _. destruct (Nat.ltb_spec n (length md)) as [Q|Q]; cbn [tb_md tb_blocks].
    + split; [reflexivity|]. clear SL. induction bl as [|[g b] bl IH]; constructor; [|exact IH]. cbn. split; [reflexivity|].
      induction b as [|[c xs] b IHb]; constructor; [|exact IHb]. cbn. auto.
    + split; [symmetry; apply firstn_all2; exact Q|]. induction SL as [|[g b] bl B SL IH]; constructor; [|exact IH]. cbn in *. split; [reflexivity|].
      induction B as [|[c xs] b C B IHb]; constructor; [|exact IHb]. cbn in *. split; [reflexivity|]. symmetry. apply firstn_all2. lia.
  - split; [reflexivity|]. lia.
Qed.

(** ** the workbook *)
Definition source_entry (py : python) (n : nat) (codes : list text) (ns : text * sheet) : list (text * source_tab) :=
  if existsb (text_eqb (fst ns)) non_source_sheets then []
  else if existsb (text_eqb (fst ns)) codes then [(fst ns, truncate_tab n (parse_error_source_sheet py (snd ns)))] else [].
Lemma existsb_text : forall n l, existsb (text_eqb n) l = true <-> In n l.
Proof.
  intros n l. rewrite existsb_exists. split; [intros (x & I & E); apply text_eqb_spec in E; subst; exact I|]. intro I. exists n. split; [exact I|apply text_eqb_same].
Qed.
Lemma existsb_text_false : forall n l, existsb (text_eqb n) l = false <-> ~ In n l.
Proof. intros n l. rewrite <- existsb_text. destruct (existsb (text_eqb n) l); split; congruence. Qed.
Lemma sources_puts : forall py n codes wb d,
  fold_left (fun d ns => if existsb (text_eqb (fst ns)) non_source_sheets then d
     else if existsb (text_eqb (fst ns)) codes then dput text_eqb (fst ns) (truncate_tab n (parse_error_source_sheet py (snd ns))) d else d) wb d
  = puts text_eqb (flat_map (source_entry py n codes) wb) d.
Proof.
  intros py n codes wb. induction wb as [|ns wb IH]; intro d; [reflexivity|]. cbn [fold_left flat_map]. unfold puts. rewrite fold_left_app, IH. unfold puts. f_equal.
  unfold source_entry. destruct (existsb (text_eqb (fst ns)) non_source_sheets); [reflexivity|]. destruct (existsb (text_eqb (fst ns)) codes); reflexivity.
Qed.
Lemma source_entry_spec : forall py n codes m s k t, In (k, t) (source_entry py n codes (m, s)) <->
  k = m /\ ~ In m non_source_sheets /\ In m codes /\ t = truncate_tab n (parse_error_source_sheet py s).
Proof.
  intros py n codes m s k t. unfold source_entry. cbn [fst snd]. destruct (existsb (text_eqb m) non_source_sheets) eqn:A.
  - apply existsb_text in A. split; [intros []|]. tauto.
  - apply existsb_text_false in A. destruct (existsb (text_eqb m) codes) eqn:B.
    + apply existsb_text in B. split; [intros [E|[]]; injection E as <- <-; auto|]. intros (-> & _ & _ & ->). left. reflexivity.
    + apply existsb_text_false in B. split; [intros []|]. tauto.
Qed.
Lemma workbook_all : forall py wb ex, load_iscwsa_example py wb = Some ex ->
  (exists s, dget text_eqb (lit "Model") wb = Some s /\ parse_model_sheet py (sh_rows s) = Some (ex_header ex, ex_extras ex, ex_terms ex)) /\
  (exists s, dget text_eqb (lit "Wellpath") wb = Some s /\ parse_wellpath_sheet py (sh_rows s) = Some (ex_wellpath ex)) /\
  (exists s, dget text_eqb (lit "TOTALS") wb = Some s /\ parse_totals_sheet py (sh_rows s) = Some (ex_totals ex)) /\
  match dget text_eqb (lit "Validation") wb with Some s => parse_validation_sheet py (sh_rows s) = Some (ex_validation ex) | None => ex_validation ex = [] end /\
  match dget text_eqb (lit "Readme") wb with Some s => ex_revision ex = latest_readme_revision py (map (col 0) (sh_rows s)) | None => ex_revision ex = None end /\
  ex_sources ex = puts text_eqb (flat_map (source_entry py (length (wp_stations (ex_wellpath ex))) (map tm_code (ex_terms ex))) wb) [].
Proof.
  intros py wb ex H. unfold load_iscwsa_example in H. cbv zeta in H.
  destruct (dget text_eqb (lit "Model") wb) as [m|]; [|discriminate]. destruct (dget text_eqb (lit "Wellpath") wb) as [w|]; [|discriminate].
  destruct (dget text_eqb (lit "TOTALS") wb) as [t|]; [|discriminate].
  destruct (parse_model_sheet py (sh_rows m)) as [[[h x] terms]|] eqn:EM; [|discriminate]. destruct (parse_wellpath_sheet py (sh_rows w)) as [wp|] eqn:EW; [|discriminate].
  destruct (parse_totals_sheet py (sh_rows t)) as [tot|] eqn:ET; [|discriminate].
  destruct (match dget text_eqb (lit "Validation") wb with Some v => parse_validation_sheet py (sh_rows v) | None => Some [] end) as [val|] eqn:EV; [|discriminate].
  match type of H with Some ?e = Some _ => assert (E : e = ex) by congruence end. clear H. subst ex. cbn [ex_header ex_extras ex_terms ex_wellpath ex_totals ex_validation ex_revision ex_sources].
  split; [eauto|]. split; [eauto|]. split; [eauto|]. split; [destruct (dget text_eqb (lit "Validation") wb); [exact EV|injection EV as <-; reflexivity]|].
  split; [destruct (dget text_eqb (lit "Readme") wb); reflexivity|]. apply sources_puts.
Qed.
Lemma workbook_parts : forall py wb ex, load_iscwsa_example py wb = Some ex ->
  (exists s, dget text_eqb (lit "Model") wb = Some s /\ parse_model_sheet py (sh_rows s) = Some (ex_header ex, ex_extras ex, ex_terms ex)) /\
  (exists s, dget text_eqb (lit "Wellpath") wb = Some s /\ parse_wellpath_sheet py (sh_rows s) = Some (ex_wellpath ex)) /\
  (exists s, dget text_eqb (lit "TOTALS") wb = Some s /\ parse_totals_sheet py (sh_rows s) = Some (ex_totals ex)) /\
  match dget text_eqb (lit "Validation") wb with Some s => parse_validation_sheet py (sh_rows s) = Some (ex_validation ex) | None => ex_validation ex = [] end /\
  match dget text_eqb (lit "Readme") wb with Some s => ex_revision ex = latest_readme_revision py (map (col 0) (sh_rows s)) | None => ex_revision ex = None end.
Proof. intros py wb ex H. destruct (workbook_all _ _ _ H) as (A & B & C & D & E & _). auto. Qed.
Lemma workbook_sources : forall py wb ex, load_iscwsa_example py wb = Some ex -> NoDup (map fst wb) -> forall n,
  (forall tab, dget text_eqb n (ex_sources ex) = Some tab -> exists s t, In (n, s) wb /\ In t (ex_terms ex) /\ tm_code t = n /\
     ~ In n (map lit ["Readme"; "Model"; "Wellpath"; "Validation"; "CovChart"; "TOTALS"; "drdp"]%string) /\
     cut_to (length (wp_stations (ex_wellpath ex))) (parse_error_source_sheet py s) tab) /\
  (forall s t, In (n, s) wb -> In t (ex_terms ex) -> tm_code t = n ->
     ~ In n (map lit ["Readme"; "Model"; "Wellpath"; "Validation"; "CovChart"; "TOTALS"; "drdp"]%string) ->
     exists tab, dget text_eqb n (ex_sources ex) = Some tab /\ cut_to (length (wp_stations (ex_wellpath ex))) (parse_error_source_sheet py s) tab).
Proof.
  intros py wb ex H ND n. destruct (workbook_all _ _ _ H) as (_ & _ & _ & _ & _ & ->).
  set (k := length (wp_stations (ex_wellpath ex))). set (codes := map tm_code (ex_terms ex)).
  assert (F : forall a v w, In (a, v) (flat_map (source_entry py k codes) wb) -> In (a, w) (flat_map (source_entry py k codes) wb) -> v = w).
  { intros a v w A B. apply in_flat_map in A, B. destruct A as ([m s] & IA & A), B as ([m' s'] & IB & B). apply source_entry_spec in A, B.
    destruct A as (-> & _ & _ & ->), B as (E & _ & _ & ->). subst m'. rewrite (in_dget _ _ text_eqb text_eqb_spec) in IA, IB by exact ND. congruence. }
  assert (G : forall tab, dget text_eqb n (puts text_eqb (flat_map (source_entry py k codes) wb) []) = Some tab <-> In (n, tab) (flat_map (source_entry py k codes) wb)).
  { intro tab. rewrite <- (in_dget _ _ text_eqb text_eqb_spec) by (apply (puts_nodup text_eqb text_eqb_spec); constructor). apply (puts_functional _ _ _ text_eqb_spec _ F). }
  split.
  - intros tab T. apply G in T. apply in_flat_map in T. destruct T as ([m s] & I & T). apply source_entry_spec in T. destruct T as (<- & N & C & ->).
    unfold codes in C. apply in_map_iff in C. destruct C as (t & E & C). exists s, t. split; [exact I|]. split; [exact C|]. split; [exact E|]. split; [exact N|]. apply cut_spec.
  - intros s t I C E N. exists (truncate_tab k (parse_error_source_sheet py s)). split; [|apply cut_spec]. apply G. apply in_flat_map. exists (n, s). split; [exact I|].
    apply source_entry_spec. split; [reflexivity|]. split; [exact N|]. split; [|reflexivity]. unfold codes. rewrite <- E. apply in_map. exact C.
Qed.
