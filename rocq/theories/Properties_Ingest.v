(** Property theorems C132 to C137: reading an ISCWSA example workbook. *)
Require Import Reals ZArith Ascii String List Bool Lra Lia.
Require Import Verif.Base Verif.NumPy Verif.M_Utils Verif.M_DmsText Verif.M_Text Verif.Spec_Text Verif.M_Ingest Verif.Spec_Ingest.
Require Import Verif.P_Ingest Verif.P_Ingest2 Verif.P_Ingest3 Verif.P_Ingest4 Verif.P_Ingest5 Verif.P_Ingest6 Verif.P_Ingest7 Verif.P_Ingest8.
Import ListNotations.
Open Scope list_scope.
Local Open Scope nat_scope.

(** * C132 *)
Theorem C132_readable : forall py rows, (exists h x ts, parse_model_sheet py rows = Some (h, x, ts)) <-> Forall readable_row rows.
Proof. exact model_readable. Qed.
Print Assumptions C132_readable.
Theorem C132_terms : forall py rows h x ts, parse_model_sheet py rows = Some (h, x, ts) -> terms_of py rows ts.
Proof. exact model_terms. Qed.
Print Assumptions C132_terms.
Theorem C132_header : forall py rows h x ts l v, parse_model_sheet py rows = Some (h, x, ts) ->
  (dget text_eqb l h = Some v <-> In l field_labels /\ last_given py rows l v) /\
  (dget text_eqb l x = Some v <-> ~ In l field_labels /\ last_given py rows l v).
Proof. exact model_header. Qed.
Print Assumptions C132_header.
(** a sheet with two header rows and two terms *)
Example C132_case : exists h x t u, parse_model_sheet no_text demo_model = Some (h, x, [t; u]) /\
  dget text_eqb (lit "Short Name") h = Some (S_ "MWD") /\ dget text_eqb (lit "Other") x = Some (Num 7) /\
  tm_code t = lit "XCLA" /\ tm_magnitude t = Fin 2 /\ tm_propagation t = lit "R" /\ tm_code u = lit "XCLL".
Proof. do 4 eexists. split; [reflexivity|]. repeat split. Qed.

(** * C133 *)
Theorem C133_codes : forall terms n,
  (forall t, last_named terms n t -> exists c, dget text_eqb n (legacy_codes terms) = Some c /\ describes_code t c) /\
  (forall c, dget text_eqb n (legacy_codes terms) = Some c -> exists t, last_named terms n t /\ describes_code t c) /\
  NoDup (map fst (legacy_codes terms)).
Proof. exact codes_found. Qed.
Print Assumptions C133_codes.
Theorem C133_propagation : forall t n, propagation_name t = n <-> propagation_in_full (tm_propagation t) n.
Proof. exact propagation_full. Qed.
Print Assumptions C133_propagation.
Theorem C133_count : forall terms, NoDup (map tm_code terms) ->
  (length (legacy_codes terms) = length terms <-> ~ (In (lit "XCLA") (map tm_code terms) /\ In (lit "XCLL") (map tm_code terms))).
Proof. exact codes_count. Qed.
Print Assumptions C133_count.
Theorem C133_header : forall h l v, In (l, v) (legacy_header h) <-> In l field_labels /\ dget text_eqb l h = Some v /\ v <> Blank.
Proof. exact header_written. Qed.
Print Assumptions C133_header.
Theorem C133_lost_refuted : ~ (forall terms, NoDup (map tm_code terms) -> forall t, In t terms -> exists n c, dget text_eqb n (legacy_codes terms) = Some c /\ describes_code t c).
Proof. exact code_lost. Qed.
Print Assumptions C133_lost_refuted.
(** of the two terms of that sheet one code is left, in radians *)
Example C133_case : exists h x t u c, parse_model_sheet no_text demo_model = Some (h, x, [t; u]) /\
  NoDup (map tm_code [t; u]) /\ last_named [t; u] (lit "XCLA") u /\ dget text_eqb (lit "XCLA") (legacy_codes [t; u]) = Some c /\
  cd_function c = lit "XCL_A" /\ cd_unit c = lit "rad" /\ cd_magnitude c = Fin (PI / 180 * 2) /\ cd_propagation c = lit "random" /\
  length (legacy_codes [t; u]) = 1 /\ legacy_header h = [(lit "Short Name", S_ "MWD")].
Proof.
  do 5 eexists. split; [reflexivity|]. split; [constructor; [intros [E|[]]; discriminate|constructor; [intros []|constructor]]|].
  split; [eexists [_], []; split; [reflexivity|]; split; [left; split; reflexivity|intros ? []]|]. repeat split.
Qed.

(** * C134 *)
Theorem C134_latest : forall py cells s, latest_readme_revision py cells = Some s ->
  exists a c b k, cells = a ++ c :: b /\ c <> Blank /\ names_revision (cell_text py c) k /\ stripped (cell_text py c) s /\
    (forall c' k', In c' a -> c' <> Blank -> names_revision (cell_text py c') k' -> later k k') /\
    (forall c' k', In c' b -> c' <> Blank -> names_revision (cell_text py c') k' -> ~ later k' k).
Proof. exact revision_found. Qed.
Print Assumptions C134_latest.
Theorem C134_none : forall py cells, latest_readme_revision py cells = None <-> forall c k, In c cells -> c <> Blank -> ~ names_revision (cell_text py c) k.
Proof. exact revision_absent. Qed.
Print Assumptions C134_none.
(** of three lines the second is the latest; the third does not count *)
Example C134_case : latest_readme_revision no_text [S_ "Revision 5.2"; S_ "Revision 5.11 "; S_ "Revision: 9.1"; Blank] = Some (lit "Revision 5.11") /\
  names_revision (lit "Revision 5.11 ") (5, 11)%Z.
Proof. split; [reflexivity|]. apply revision_spec. reflexivity. Qed.

(** * C135 *)
Theorem C135_readable : forall py rows, (exists w, parse_wellpath_sheet py rows = Some w) <-> (forall l, In [l] (firstn 12 rows) -> l = Blank).
Proof. exact wellpath_readable. Qed.
Print Assumptions C135_readable.
Theorem C135_stations : forall py rows w, parse_wellpath_sheet py rows = Some w -> stations_of py (skipn 2 rows) (wp_stations w).
Proof. exact wellpath_stations. Qed.
Print Assumptions C135_stations.
Theorem C135_references : forall py rows w, parse_wellpath_sheet py rows = Some w ->
  last_of (well_named py) (firstn 12 rows) [] (wp_name w) /\
  last_of (units_named py) (firstn 12 rows) (lit "m") (wp_units w) /\
  last_of (factor_given py) (firstn 12 rows) (3048 / 10000)%R (wp_ft_to_m w) /\
  last_of (ref_given py "latitude") (firstn 12 rows) NaN (wp_latitude w) /\
  last_of (ref_given py "g") (firstn 12 rows) NaN (wp_g w) /\
  last_of (ref_given py "btotal") (firstn 12 rows) NaN (wp_btotal w) /\
  last_of (ref_given py "dip") (firstn 12 rows) NaN (wp_dip w) /\
  last_of (ref_given py "declination") (firstn 12 rows) NaN (wp_declination w).
Proof. exact wellpath_references. Qed.
Print Assumptions C135_references.
(** two stations, the name, the latitude and the unit *)
Example C135_case : exists w, parse_wellpath_sheet no_text demo_wellpath = Some w /\
  wp_name w = lit "ISCWSA No. 1" /\ wp_latitude w = Fin 60 /\ wp_dip w = NaN /\ wp_units w = lit "ft" /\ wp_ft_to_m w = (3048 / 10000)%R /\
  wp_stations w = [[Fin 0; Fin 0; Fin 0; Fin 0; NaN]; [Fin 30; NaN; Fin 5; Fin 30; Fin 0]].
Proof. eexists. split; [reflexivity|]. repeat split. Qed.

(** * C136 *)
Theorem C136_totals_readable : forall py rows, (exists c, parse_totals_sheet py rows = Some c) <->
  exists header i, nth_error rows 1 = Some header /\ named_or header "Md" 0 i /\
    forall row, In row (skipn 2 rows) -> starts_with_number row -> exists v x, nth_error row i = Some v /\ cell_float py v = Some x.
Proof. exact totals_readable. Qed.
Print Assumptions C136_totals_readable.
Theorem C136_totals : forall py rows c, parse_totals_sheet py rows = Some c ->
  exists header data i, nth_error rows 1 = Some header /\ selects starts_with_number (skipn 2 rows) data /\ named_or header "Md" 0 i /\
    Forall2 (fun row x => exists v, nth_error row i = Some v /\ cell_float py v = Some x) data (cs_md c) /\
    Forall2 (fun row xs => Forall2 (named_value py header row) ["NN"; "EE"; "VV"; "NE"; "NV"; "EV"]%string xs) data (cs_nev c) /\
    Forall2 (fun row xs => Forall2 (named_value py header row) ["HH"; "LL"; "AA"; "HL"; "HA"; "LA"]%string xs) data (cs_hla c).
Proof. exact totals_read. Qed.
Print Assumptions C136_totals.
Theorem C136_validation : forall py rows vs, parse_validation_sheet py rows = Some vs ->
  (length rows < 3 -> vs = []) /\
  (3 <= length rows -> exists header data, nth_error rows 1 = Some header /\ selects (validated header) (skipn 2 rows) data /\
     Forall2 (describes_validation py header) data vs).
Proof. exact validation_read. Qed.
Print Assumptions C136_validation.
Theorem C136_order_refuted : exists v, parse_validation_sheet no_text swapped_sheet = Some [v] /\ nth_error (vl_diagnostic v) 0 = Some (Fin 1) /\
  named_value no_text (nth 1 swapped_sheet []) (nth 2 swapped_sheet []) "NN" (Fin 2).
Proof. exact order_matters. Qed.
Print Assumptions C136_order_refuted.
(** two stations; the last row is no data *)
Example C136_case : exists c, parse_totals_sheet no_text demo_totals = Some c /\ cs_md c = [Fin 0; Fin 30] /\
  cs_nev c = [[Fin 2; Fin 1; NaN; NaN; NaN; NaN]; [NaN; Fin 3; NaN; NaN; NaN; NaN]].
Proof. eexists. split; [reflexivity|]. split; reflexivity. Qed.

(** * C137 *)
Theorem C137_source : forall py s, 3 <= length (sh_rows s) -> well_merged s ->
  exists subcols data gs cs, nth_error (sh_rows s) 1 = Some subcols /\ selects starts_with_number (skipn 2 (sh_rows s)) data /\
    left_to_right gs /\ (forall g, In g gs <-> group_of py s g) /\ selects (counted subcols) gs cs /\
    Forall2 (fun row x => exists r, holds (col 0 row) r /\ x = Fin r) data (tb_md (parse_error_source_sheet py s)) /\
    (forall n b, dget text_eqb n (tb_blocks (parse_error_source_sheet py s)) = Some b -> exists a g c, cs = a ++ g :: c /\
       group_name (label_of g) (map label_of a) n /\ (exists i, covers g i /\ col i subcols <> Blank) /\ block_reads py subcols data g b) /\
    (forall a g c n, cs = a ++ g :: c -> group_name (label_of g) (map label_of a) n -> (exists i, covers g i /\ col i subcols <> Blank) ->
       (forall a' g' c', c = a' ++ g' :: c' -> ~ group_name (label_of g') (map label_of (a ++ g :: a')) n) ->
       exists b, dget text_eqb n (tb_blocks (parse_error_source_sheet py s)) = Some b /\ block_reads py subcols data g b).
Proof. exact source_read. Qed.
Print Assumptions C137_source.
Theorem C137_name_clash_refuted : group_of no_text clash_sheet (2, (lit "A", 1)) /\
  tb_blocks (parse_error_source_sheet no_text clash_sheet) = [(lit "A", [(lit "x", [Fin 1])]); (lit "A_2", [(lit "x", [Fin 3])])].
Proof. exact group_lost. Qed.
Print Assumptions C137_name_clash_refuted.
Theorem C137_parts : forall py wb ex, load_iscwsa_example py wb = Some ex ->
  (exists s, dget text_eqb (lit "Model") wb = Some s /\ parse_model_sheet py (sh_rows s) = Some (ex_header ex, ex_extras ex, ex_terms ex)) /\
  (exists s, dget text_eqb (lit "Wellpath") wb = Some s /\ parse_wellpath_sheet py (sh_rows s) = Some (ex_wellpath ex)) /\
  (exists s, dget text_eqb (lit "TOTALS") wb = Some s /\ parse_totals_sheet py (sh_rows s) = Some (ex_totals ex)) /\
  match dget text_eqb (lit "Validation") wb with Some s => parse_validation_sheet py (sh_rows s) = Some (ex_validation ex) | None => ex_validation ex = [] end /\
  match dget text_eqb (lit "Readme") wb with Some s => ex_revision ex = latest_readme_revision py (map (col 0) (sh_rows s)) | None => ex_revision ex = None end.
Proof. exact workbook_parts. Qed.
Print Assumptions C137_parts.
Theorem C137_sources : forall py wb ex, load_iscwsa_example py wb = Some ex -> NoDup (map fst wb) -> forall n,
  (forall tab, dget text_eqb n (ex_sources ex) = Some tab -> exists s t, In (n, s) wb /\ In t (ex_terms ex) /\ tm_code t = n /\
     ~ In n (map lit ["Readme"; "Model"; "Wellpath"; "Validation"; "CovChart"; "TOTALS"; "drdp"]%string) /\
     cut_to (length (wp_stations (ex_wellpath ex))) (parse_error_source_sheet py s) tab) /\
  (forall s t, In (n, s) wb -> In t (ex_terms ex) -> tm_code t = n ->
     ~ In n (map lit ["Readme"; "Model"; "Wellpath"; "Validation"; "CovChart"; "TOTALS"; "drdp"]%string) ->
     exists tab, dget text_eqb n (ex_sources ex) = Some tab /\ cut_to (length (wp_stations (ex_wellpath ex))) (parse_error_source_sheet py s) tab).
Proof. exact workbook_sources. Qed.
Print Assumptions C137_sources.
(** a workbook with one source, cut from three rows to the two stations *)
Example C137_case : exists ex tab, load_iscwsa_example no_text demo_book = Some ex /\ NoDup (map fst demo_book) /\
  ex_revision ex = Some (lit "Revision 5.11") /\ ex_sources ex = [(lit "XCLA", tab)] /\ 3 <= length (sh_rows demo_source) /\ well_merged demo_source /\
  tb_md tab = [Fin 0; Fin 30] /\ dget text_eqb (lit "dpde") (tb_blocks tab) = Some [(lit "N", [Fin 1; Fin 4]); (lit "E", [Fin 2; Fin 5])] /\
  dget text_eqb (lit "Covariance") (tb_blocks tab) = Some [(lit "NN", [Fin 3; Fin 6])].
Proof.
  do 2 eexists. split; [vm_compute; reflexivity|].
  split; [cbn [map fst demo_book]; repeat (constructor; [cbn [In]; intuition discriminate|]); constructor|].
  split; [reflexivity|]. split; [reflexivity|]. split; [cbn; lia|]. split.
  { split.
    - intros r0 r1 c0 c1 [E|[]]. injection E as <- <- <- <-. lia.
    - intros c0 c1 d0 d1 [E|[]] [F|[]]. congruence. }
  repeat split.
Qed.
