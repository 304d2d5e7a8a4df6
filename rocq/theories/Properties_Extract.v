(** C155: the scripts that write the tool codes and the index from a workbook. *)
Require Import Reals ZArith Ascii String List Bool Lra Lia.
Require Import Verif.Base Verif.NumPy Verif.M_Text Verif.Spec_Text Verif.M_Ingest Verif.Spec_Ingest Verif.M_Extract Verif.Spec_Extract Verif.P_Extract Verif.P_Extract2.
Import ListNotations.
Open Scope list_scope.
Local Open Scope nat_scope.

(** * C155 *)
Theorem C155_readable : forall skip rows, (exists d, extract_codes skip rows = Some d) <->
  Forall (fun row => 5 <= length row /\ (considered skip row -> usable row)) (skipn 3 rows).
Proof. exact codes_readable. Qed.
Print Assumptions C155_readable.
Theorem C155_codes : forall skip rows d c, extract_codes skip rows = Some d ->
  (forall row, last_coded skip rows c row -> exists e, dget cell_eqb c d = Some e /\ describes_entry row e) /\
  (forall e, dget cell_eqb c d = Some e -> exists row, last_coded skip rows c row /\ describes_entry row e) /\
  NoDup (map fst d).
Proof. exact codes_last. Qed.
Print Assumptions C155_codes.
Example C155_codes_case : exists d, extract_codes true (one_term (Num 1) "R") = Some d /\
  last_coded true (one_term (Num 1) "R") (S_ "XYM1") (term_line (Num 1) "XYM1" "R").
Proof.
  eexists. split; [cbn; reflexivity|]. exists [], []. split; [reflexivity|]. split; [intros _; discriminate|]. split; [right; split; [discriminate|reflexivity]|]. intros ? [].
Qed.
Theorem C155_agree : forall py rows h x ts, regular_sheet rows -> parse_model_sheet py rows = Some (h, x, ts) ->
  exists d, extract_codes true rows = Some d /\ Forall2 same_code d (legacy_codes ts).
Proof. exact readers_agree. Qed.
Print Assumptions C155_agree.
Example C155_agree_case : regular_sheet (one_term (Num 1) "R") /\ exists h x ts, parse_model_sheet no_text (one_term (Num 1) "R") = Some (h, x, ts) /\ length ts = 1.
Proof. split; [apply one_term_regular; right; split; reflexivity|]. eexists _, _, _. split; [cbn; reflexivity|reflexivity]. Qed.
Theorem C155_number_refuted : exists rows h x ts d, parse_model_sheet no_text rows = Some (h, x, ts) /\ extract_codes true rows = Some d /\
  (exists e, dget cell_eqb (S_ "XYM1") d = Some e) /\ legacy_codes ts = [].
Proof. exact number_missing. Qed.
Print Assumptions C155_number_refuted.
Theorem C155_space_refuted : exists rows h x ts d e c, parse_model_sheet no_text rows = Some (h, x, ts) /\ extract_codes true rows = Some d /\
  dget cell_eqb (S_ "XYM1") d = Some e /\ en_propagation e = lit "systematic" /\
  dget text_eqb (lit "XYM1") (legacy_codes ts) = Some c /\ cd_propagation c = lit "random".
Proof. exact propagation_spaced. Qed.
Print Assumptions C155_space_refuted.
Theorem C155_header_readable : forall rows, (exists h, iscwsa_header rows = Some h) <-> Forall (fun row => text_or_blank (col 0 row)) rows.
Proof. exact header_readable. Qed.
Print Assumptions C155_header_readable.
Theorem C155_header : forall rows h l v, iscwsa_header rows = Some h ->
  (dget text_eqb l h = Some v <-> exists c, v = HCell c /\ last_headed rows l c).
Proof. exact header_last. Qed.
Print Assumptions C155_header.
Example C155_header_case : exists h, iscwsa_header (one_term (Num 1) "R") = Some h /\ last_headed (one_term (Num 1) "R") (lit "Short Name") (S_ "MWD").
Proof.
  eexists. split; [cbn; reflexivity|]. eexists [], _, _. split; [reflexivity|]. split; [eexists; split; reflexivity|]. split; [reflexivity|].
  intros row' [<-|[<-|[<-|[]]]] (t & H & _); discriminate.
Qed.
Theorem C155_header_same : forall py rows, Forall plain_row rows -> owsg_header py rows = iscwsa_header rows.
Proof. exact header_plain. Qed.
Print Assumptions C155_header_same.
Example C155_header_same_case : Forall plain_row (one_term (Num 1) "R").
Proof.
  constructor; [right; exists (lit "Short Name:"); split; [reflexivity|rewrite <- gyro_spec; discriminate]|]. repeat (constructor; [left; reflexivity|]). constructor.
Qed.
Theorem C155_gyro : forall py before heading t params items after,
  Forall plain_row before -> col 0 heading = Str t -> about_gyro t ->
  Forall2 (fun row (kv : text * hvalue) => exists t v, parameter_row row t v /\ parameter_name t (fst kv) /\ parameter_value py v (snd kv)) params items ->
  (after = [] \/ exists row rows, after = row :: rows /\ ends_gyro row) -> Forall plain_row after ->
  exists h m, iscwsa_header (before ++ after) = Some h /\
    owsg_header py (before ++ heading :: params ++ after) = Some (dput text_eqb (no_colon t) (HGyro m) h) /\
    forall k v, dget text_eqb k m = Some v <-> exists a b, items = a ++ (k, v) :: b /\ forall w, ~ In (k, w) b.
Proof. exact gyro_block. Qed.
Print Assumptions C155_gyro.
Example C155_gyro_case : let '(before, (heading, params)) := gyro_sheet in
  Forall plain_row before /\ (exists t, col 0 heading = Str t /\ about_gyro t) /\
  exists items, Forall2 (fun row (kv : text * hvalue) => exists t v, parameter_row row t v /\ parameter_name t (fst kv) /\ parameter_value three v (snd kv)) params items.
Proof. exact gyro_shown. Qed.
Theorem C155_gyro_blank_refuted : forall py before heading t params items row after,
  Forall plain_row before -> col 0 heading = Str t -> about_gyro t ->
  Forall2 (fun row (kv : text * hvalue) => exists t v, parameter_row row t v /\ parameter_name t (fst kv) /\ parameter_value py v (snd kv)) params items ->
  (forall u, col 0 row <> Str u) -> owsg_header py (before ++ heading :: params ++ row :: after) = None.
Proof. exact gyro_blank. Qed.
Print Assumptions C155_gyro_blank_refuted.
Theorem C155_index : forall py fields rows d, make_index py (fields :: rows) = Some d ->
  (forall k row a b, rows = a ++ row :: b -> index_key py row k -> (forall row', In row' b -> ~ index_key py row' k) ->
     exists v, dget cell_eqb k d = Some v /\ forall f x, dget cell_eqb f v = Some x <-> index_value fields row f x) /\
  (forall k v, dget cell_eqb k d = Some v -> exists a row b, rows = a ++ row :: b /\ index_key py row k /\
     (forall row', In row' b -> ~ index_key py row' k)).
Proof. exact index_entries. Qed.
Print Assumptions C155_index.
Example C155_index_case : exists d, make_index no_text [[S_ "No"; S_ "OWSG Prefix"; S_ "Short Name"]; [Num 1; S_ "A001"; S_ "MWD_Fl"]; [Num 2; S_ "A001"; S_ "MWD"]] = Some d /\
  map fst d = [S_ "A001_Fl"; S_ "A001"].
Proof. eexists. split; [cbn; reflexivity|reflexivity]. Qed.
Theorem C155_get_index : forall name d k, get_index name d = Found k <->
  exists a v b, d = a ++ (k, v) :: b /\ short_name v name /\ forall k' v', In (k', v') a -> exists n, short_name v' n /\ n <> name.
Proof. exact index_found. Qed.
Print Assumptions C155_get_index.
Theorem C155_inverse : forall d ns, get_short_names d = Some ns -> NoDup (map snd ns) -> forall k n, In (k, n) ns -> get_index n d = Found k.
Proof. exact index_inverse. Qed.
Print Assumptions C155_inverse.
Example C155_inverse_case : exists ns, get_short_names [(S_ "A001", [(S_ "Short Name", S_ "MWD")]); (S_ "A002", [(S_ "Short Name", S_ "GYRO")])] = Some ns /\ NoDup (map snd ns).
Proof. eexists. split; [cbn; reflexivity|]. cbn. constructor; [intros [H|[]]; discriminate|]. constructor; [intros []|constructor]. Qed.
Theorem C155_ignored_refuted : forall py ignore sheets index,
  extract_tools py ignore sheets index = extract_tools py [] sheets index /\
  forall l, extract_tools py ignore sheets index = Some l -> map fst l = map fst index.
Proof. exact nothing_ignored. Qed.
Print Assumptions C155_ignored_refuted.
Theorem C155_tools : forall py ignore sheets index l, extract_tools py ignore sheets index = Some l <->
  Forall2 (fun kv ke => fst kv = fst ke /\ exists name rows, short_name (snd kv) (Str name) /\ dget text_eqb name sheets = Some rows /\
    owsg_header py rows = Some (fst (snd ke)) /\ extract_codes true rows = Some (snd (snd ke))) index l.
Proof. exact tools_of_index. Qed.
Print Assumptions C155_tools.
Example C155_tools_case : exists l, extract_tools no_text [lit "MWD"] [(lit "MWD", one_term (Num 1) "R")] [(S_ "A001", [(S_ "Short Name", S_ "MWD")])] = Some l /\ map fst l = [S_ "A001"].
Proof. eexists. split; [cbn; reflexivity|reflexivity]. Qed.
