(** Property theorems C126-C128: wellbores, cases and depth profiles of an EDM file. *)
Require Import Reals Bool String List Sorted Lra Lia.
Require Import Verif.M_Edm Verif.Spec_Edm Verif.M_EdmWell Verif.Spec_EdmWell.
Require Import Verif.P_EdmWell Verif.P_EdmWell2 Verif.P_EdmWell3 Verif.P_EdmWell4 Verif.P_EdmWell5 Verif.P_EdmWell6.
Import ListNotations.
Open Scope string_scope.
Open Scope list_scope.
Local Open Scope R_scope.

(** * C126 *)
Theorem C126_by_name : forall doc n i m, labelled doc -> ids_differ doc ->
  (find_wellbore doc n true = Some (i, m) <-> m = n /\ exists a, last_named doc n a /\ id_of a = Some i).
Proof. exact found_by_name. Qed.
Print Assumptions C126_by_name.
Theorem C126_by_id : forall doc i j n, labelled doc -> ids_differ doc ->
  (find_wellbore doc i false = Some (j, n) <-> j = i /\ exists a, last_named doc n a /\ id_of a = Some i).
Proof. exact found_by_id. Qed.
Print Assumptions C126_by_id.
Theorem C126_shadowed : forall before a after b i, labelled (before ++ ("CD_WELLBORE", a) :: after) -> ids_differ (before ++ ("CD_WELLBORE", a) :: after) ->
  wellbore after b -> name_of b = name_of a -> id_of a = Some i -> find_wellbore (before ++ ("CD_WELLBORE", a) :: after) i false = None.
Proof. exact shadowed. Qed.
Print Assumptions C126_shadowed.
Theorem C126_graph : forall doc, labelled doc ->
  exists nodes edges, wellbore_graph doc = Some (nodes, edges) /\
    (forall p w, In (p, w) edges <-> exists n a, last_named doc n a /\ id_of a = Some w /\ get "parent_wellbore_id" a = Some p) /\
    (forall x, In x nodes <-> exists n a, last_named doc n a /\ (id_of a = Some x \/ get "parent_wellbore_id" a = Some x)).
Proof. exact graph_of_wells. Qed.
Print Assumptions C126_graph.
Theorem C126_graph_parents : forall doc, labelled doc -> names_differ doc ->
  exists nodes edges, wellbore_graph doc = Some (nodes, edges) /\ (forall p w, In (p, w) edges <-> parent_of doc w p) /\
    (forall a i, wellbore doc a -> id_of a = Some i -> In i nodes).
Proof. exact graph_parents. Qed.
Print Assumptions C126_graph_parents.
(** two wellbores with different names, and three of which two share a name *)
Example C126_case :
  (labelled wells_doc /\ names_differ wells_doc /\ wellbore_graph wells_doc = Some (["a"; "a"; "b"], [("a", "b")])) /\
  (labelled reused_doc /\ ids_differ reused_doc /\ find_wellbore reused_doc "Main" true = Some ("c", "Main") /\
   find_wellbore reused_doc "b" false = Some ("b", "ST1") /\ find_wellbore reused_doc "a" false = None).
Proof. exact wells_example. Qed.

(** * C127 *)
Theorem C127_hole_sections : forall d g s, get g (hole_section_data d None) = Some s <->
  s = hole_section d g /\ exists k rows row, In (k, rows) d /\ In row rows /\ In ("hole_sect_group_id", g) row.
Proof. exact hole_sections_returned. Qed.
Print Assumptions C127_hole_sections.
Theorem C127_hole_section_rows : forall d g k row, a_dict d ->
  (get k (hole_section d g) = Some row <-> exists rows, get k d = Some rows /\ last_row (of_group g) rows row).
Proof. exact hole_section_rows. Qed.
Print Assumptions C127_hole_section_rows.
Theorem C127_rows_lost : forall d g k before row mid row' after, a_dict d -> get k d = Some (before ++ row :: mid ++ row' :: after) ->
  of_group g row' -> row' <> row -> (forall r, In r after -> ~ of_group g r) -> get k (hole_section d g) <> Some row.
Proof. exact hole_rows_lost. Qed.
Print Assumptions C127_rows_lost.
Theorem C127_look_up : forall d id label tag suffix v,
  get_data d id label tag suffix = Some v <->
  exists rows, has_table d (upper ("CD_" ++ tag)) (label ++ "_" ++ suffix) rows /\ v = rows_or_nothing (with_value (label ++ "_" ++ suffix) id rows).
Proof. exact get_data_rows. Qed.
Print Assumptions C127_look_up.
Theorem C127_case_made : forall d id, (forall rows row, get "CD_CASE" d = Some rows -> In row rows -> a_dict row) ->
  (make_case d id <> None <->
   exists rows row, has_table d "CD_CASE" "case_id" rows /\ last_row (is_case id) rows row /\
     (forall out k t, In (out, k, t) looked_up -> get k row <> None -> exists rs, has_table d t k rs) /\
     (get "assembly_id" row <> None -> exists rs, has_table d "CD_ASSEMBLY" "assembly_id" rs) /\
     exists w headers h, get "wellbore_id" row = Some w /\ get "CD_SURVEY_HEADER" d = Some headers /\ In h headers /\ get "wellbore_id" h = Some w).
Proof. exact case_made. Qed.
Print Assumptions C127_case_made.
Theorem C127_case_attributes : forall d id c, (forall rows row, get "CD_CASE" d = Some rows -> In row rows -> a_dict row) -> make_case d id = Some c ->
  exists rows row, get "CD_CASE" d = Some rows /\ last_row (is_case id) rows row /\
    (forall out k t v, In (out, k, t) looked_up -> get k row = Some v ->
       exists rs, get t d = Some rs /\ get out c = Some (rows_or_nothing (with_value k v rs))) /\
    (forall x, (forall k t, In (x, k, t) looked_up -> get k row = None) -> get x c = option_map Text (get x row)).
Proof. exact case_attributes. Qed.
Print Assumptions C127_case_attributes.
(** two rows with the same case id, and two rows of one hole section *)
Example C127_case : a_dict case_doc /\ (forall rows row, get "CD_CASE" case_doc = Some rows -> In row rows -> a_dict row) /\
  (exists c, make_case case_doc "k" = Some c /\ get "case_name" c = Some (Text "second") /\
     get "assembly" c = Some (Rows [[("assembly_id", "s"); ("n", "1")]; [("assembly_id", "s"); ("n", "3")]])) /\
  make_case case_doc "j" = None /\
  get "CD_HOLE_SECT" (hole_section case_doc "g") = Some [("hole_sect_group_id", "g"); ("name", "casing")].
Proof. exact case_example. Qed.

(** * C128 *)
Theorem C128_profiles : forall num d tag gk vk rows, get tag d = Some rows -> Forall (readable num gk vk) rows ->
  exists ps, profile_table num d tag gk vk = Some (Some ps) /\ a_dict ps /\
    (forall g, get g ps = None <-> (forall row, In row rows -> get gk row <> Some g)) /\
    (forall g profile, get g ps = Some profile -> exists l, Forall2 (level num vk) (filter (in_group gk g) rows) l /\ sorted_from fst l profile).
Proof. exact profiles_given. Qed.
Print Assumptions C128_profiles.
Theorem C128_no_profiles : forall num d tag gk vk,
  profile_table num d tag gk vk = Some None <->
  get tag d = None \/ exists before row after, get tag d = Some (before ++ row :: after) /\ Forall (readable num gk vk) before /\ lacks_field num gk vk row.
Proof. exact profiles_absent. Qed.
Print Assumptions C128_no_profiles.
Theorem C128_tables : forall num d pp fp tp, ppfpt_data num d = Some (pp, fp, tp) <->
  profile_table num d "CD_PORE_PRESSURE" "pore_pressure_group_id" "pore_pressure" = Some pp /\
  profile_table num d "CD_FRAC_GRADIENT" "frac_gradient_group_id" "frac_gradient_pressure" = Some fp /\
  profile_table num d "CD_TEMP_GRADIENT" "temp_gradient_group_id" "temperature" = Some tp.
Proof. exact ppfpt_tables. Qed.
Print Assumptions C128_tables.
Theorem C128_case_sorted : forall num rows, (forall row, In row rows -> group_id_of row <> None /\ depth num row <> None) ->
  exists ps, sort_ppfpt num rows = Some ps /\ a_dict ps /\
    (forall g, get g ps = None <-> (forall row, In row rows -> group_id_of row <> Some g)) /\
    (forall g l, get g ps = Some l -> sorted_from (depth_or_0 num) (filter (of_any_group g) rows) l).
Proof. exact sorted_profile. Qed.
Print Assumptions C128_case_sorted.
Theorem C128_case_unsorted : forall num rows, (forall row, In row rows -> group_id_of row <> None) ->
  (forall row s, In row rows -> get "tvd" row = Some s -> num s <> None) -> (exists row, In row rows /\ get "tvd" row = None) ->
  exists ps, sort_ppfpt num rows = Some ps /\ a_dict ps /\
    forall g, get g ps = match filter (of_any_group g) rows with [] => None | l => Some l end.
Proof. exact unsorted_profile. Qed.
Print Assumptions C128_case_unsorted.
(** the attributes of a case made from the tables of profiles *)
Theorem C128_attributes : forall num d,
  (get_ppfpt num d [] = None <-> exists t rows, In (t, rows) d /\ profile_of t /\ sort_ppfpt num rows = None) /\
  forall c, get_ppfpt num d [] = Some c -> forall n p, get n c = Some p <->
    exists before t rows after, d = before ++ (t, rows) :: after /\ profile_of t /\ attribute_of t n /\ sort_ppfpt num rows = Some p /\
      forall t' rows', In (t', rows') after -> profile_of t' -> ~ attribute_of t' n.
Proof. exact case_profiles. Qed.
Print Assumptions C128_attributes.
Example C128_attributes_case : get_ppfpt digit [("CD_PORE_PRESSURE", []); ("CD_WELL", []); ("CD_FRAC_TEMPLATE", [])] [] = Some [("pore_pressure", [])].
Proof. reflexivity. Qed.
(** three rows in two groups; a row without a value and one without a depth *)
Example C128_case : Forall (readable digit "pore_pressure_group_id" "pore_pressure") pore_rows /\
  profile_table digit [("CD_PORE_PRESSURE", pore_rows)] "CD_PORE_PRESSURE" "pore_pressure_group_id" "pore_pressure" =
    Some (Some [("p", [(1, 2); (2, 1)]); ("q", [(1, 1)])]) /\
  (forall row, In row pore_rows -> group_id_of row <> None /\ depth digit row <> None) /\
  lacks_field digit "pore_pressure_group_id" "pore_pressure" [("pore_pressure_group_id", "p"); ("tvd", "1")] /\
  (forall row, In row (pore_rows ++ [[("pore_pressure_group_id", "p")]]) -> group_id_of row <> None) /\
  (forall row s, In row (pore_rows ++ [[("pore_pressure_group_id", "p")]]) -> get "tvd" row = Some s -> digit s <> None).
Proof. exact pore_example. Qed.
