(** Property theorems C122 and C123: the error models that ship with the library,
    by name, and the table of diagnostics. *)
Require Import Reals ZArith Lra Psatz Lia Bool String List Permutation.
Require Import Verif.Base Verif.NumPy Verif.M_Utils Verif.M_Error Verif.Spec Verif.Spec_Error Verif.M_Weights Verif.Spec_Weights
  Verif.M_Bundle Verif.M_Models Verif.Spec_Models.
Require Import Verif.P_Error2 Verif.P_Weights13 Verif.P_Weights15 Verif.P_Models Verif.P_Models2 Verif.P_Models3 Verif.P_Models4.
Import ListNotations.
Local Open Scope R_scope.

(** * C122 *)
Theorem C122_unrecognised : forall tree name, open_model tree name = Unrecognised <-> ~ accepted_name name.
Proof. exact unrecognised_iff. Qed.
Print Assumptions C122_unrecognised.
Theorem C122_missing : forall tree name, some_order tree -> (open_model tree name = NotFound <-> In name missing_models).
Proof. exact missing_iff. Qed.
Print Assumptions C122_missing.
Theorem C122_file : forall name, regular_model name -> exists m, (forall tree, open_model tree name = Yaml m) /\
  tf_short m = if string_dec name "ISCWSA MWD Rev5.11" then "ISCWSA MWD Rev5"%string else name.
Proof. exact regular_opens. Qed.
Print Assumptions C122_file.
Theorem C122_usable : forall tree rates az h l name, regular_model name -> regular_survey h l ->
  ((exists t, error_model tree rates az h l name = Totals t) <->
   (forall s, In s l -> w_inc s < PI) /\
   (axial_model name -> forall s, In s l -> ~ level_east_west s) /\
   (interval_model name -> advancing l) /\
   (In name ["BLIND"; "BLIND_Fl"; "UNKNOWN"; "UNKNOWN_Fl"]%string ->
      az = "true"%string \/ az = "grid"%string \/ forall s, In s l -> ~ vertical h s)).
Proof. exact usable_iff. Qed.
Print Assumptions C122_usable.
Theorem C122_errors : forall tree rates az h l name m, regular_model name -> open_model tree name = Yaml m ->
  exists rate, assumed_tortuosity m rate /\
    error_model tree rates az h l name =
      yaml_tool_error az rate (Some PI) (if string_dec name "ISCWSA MWD Rev4" then true else false) h l (tf_codes m).
Proof. exact regular_errors. Qed.
Print Assumptions C122_errors.
Theorem C122_inc_only : forall tree rates az h l name, In name inc_only_models ->
  error_model tree rates az h l name = TotalsRaise.
Proof. exact inc_only_unusable. Qed.
Print Assumptions C122_inc_only.
Theorem C122_gyro_file : forall tree name a b, some_order tree -> In (name, (a, b)) gyro_models ->
  exists f, open_model tree name = Json f /\ (jf_file f = a \/ jf_file f = b).
Proof. exact gyro_opens. Qed.
Print Assumptions C122_gyro_file.
Theorem C122_gyro_file_refuted : forall name a b, In (name, (a, b)) gyro_models ->
  (exists tree f, some_order tree /\ open_model tree name = Json f /\ jf_file f = a) /\
  (exists tree f, some_order tree /\ open_model tree name = Json f /\ jf_file f = b).
Proof. exact gyro_either. Qed.
Print Assumptions C122_gyro_file_refuted.
Theorem C122_gyro_usable : forall tree rates az h l name, some_order tree -> In name (map fst gyro_models) ->
  ((exists t, error_model tree rates az h l name = Totals t) <->
   name <> "CB_Film_GMS"%string /\ forall s, In s l -> w_inc s < gyro_limit name * (PI / 180)).
Proof. exact gyro_usable_iff. Qed.
Print Assumptions C122_gyro_usable.
Theorem C122_rev4 : forall name, accepted_name name -> (is_rev4 name = true <-> name = "ISCWSA MWD Rev4"%string).
Proof. exact rev4_iff. Qed.
Print Assumptions C122_rev4.
(** a regular model with interval terms on a deviated survey, a name that is not
    regular, and the order of the directories in the repository *)
Definition built (md inc : R) : wstation := mkWS md inc (PI/3) (PI/3) (PI/3) md.
Example C122_case :
  regular_model "MWD+SRGM" /\ interval_model "MWD+SRGM" /\ ~ axial_model "MWD+SRGM" /\ axial_model "MWD+SRGM+AX" /\
  regular_survey plumb [built 0 0; built 100 (1/2); built 300 1] /\
  (exists tree rates t, error_model tree rates "grid" plumb [built 0 0; built 100 (1/2); built 300 1] "MWD+SRGM" = Totals t) /\
  some_order iscwsa_json /\ In "GYRO-NS"%string (map fst gyro_models) /\ ~ accepted_name "MWD".
Proof.
  pose proof PI_RGT_0 as PP. pose proof PI2_3_2 as P3. unfold PI2 in P3.
  assert (RM : regular_model "MWD+SRGM").
  { split; [left; apply mem_iff; vm_compute; reflexivity|]. split; [|split]; cbn; intuition discriminate. }
  assert (RS : regular_survey plumb [built 0 0; built 100 (1/2); built 300 1]).
  { split; [exact slanted_sensible|]. split; [unfold plumb; cbn; lra|]. split; [cbn; lia|].
    intros s [<-|[<-|[<-|[]]]]; cbn; lra. }
  split; [exact RM|]. split; [left; reflexivity|]. split; [intro A; apply A; reflexivity|]. split; [discriminate|].
  split; [exact RS|]. split.
  { exists [], (fun _ _ => None). apply usable_iff; [exact RM|exact RS|].
    split; [intros s [<-|[<-|[<-|[]]]]; cbn; lra|]. split; [intro A; exfalso; apply A; reflexivity|].
    split; [intros _ k a b Ha Hb; destruct k as [|[|[|[|k]]]]; cbn in Ha, Hb; try discriminate; injection Ha as <-; injection Hb as <-; cbn; lra|]. cbn. intuition discriminate. }
  split. { exists iscwsa_json. split; [apply Permutation_refl|].
    induction iscwsa_json; constructor; auto. }
  split; [cbn; tauto|]. intro A. destruct A as [A|A]; [apply mem_iff in A; vm_compute in A; discriminate|discriminate].
Qed.

(** a file with an XCL tortuosity *)
Example C122_errors_case : exists m, regular_model "MWD+SRGM" /\ (forall tree, open_model tree "MWD+SRGM" = Yaml m) /\
  assumed_tortuosity m (1 * (PI / 180) / (100 / 3.281)).
Proof.
  eexists. split; [|split; [intro tree; reflexivity|reflexivity]].
  split; [left; apply mem_iff; vm_compute; reflexivity|]. split; [|split]; cbn; intuition discriminate.
Qed.

(** * C123 *)
Theorem C123_table : forall mds errors, errors <> [] -> exists D, make_diagnostic_data mds errors = Some D /\
  NoDup (map fst D) /\ (forall d, In d (map fst D) <-> In d mds) /\
  forall i d, nth_error mds i = Some d -> (forall j, (i < j)%nat -> nth_error mds j <> Some d) ->
  exists row, depth_get d D = Some row /\
    lookup "TOTAL" row = Some (six (msum (map (fun e => nth i (er_cov_NEV (snd e)) mzero) errors))) /\
    (NoDup (map fst errors) -> forall e, In e errors -> fst e <> "TOTAL"%string ->
       lookup (fst e) row = Some (six (nth i (er_cov_NEV (snd e)) mzero))).
Proof. exact diagnostic_table. Qed.
Print Assumptions C123_table.
Theorem C123_totals : forall az tort mi rev4 h l codes t, (0 < length l)%nat ->
  yaml_tool_error az tort mi rev4 h l codes = Totals t -> codes <> [] -> NoDup (map c_name codes) ->
  exists errors D, map fst errors = map c_name codes /\
  Forall2 (fun c e => call_func az tort rev4 h l (c_name c) (c_function c) (c_magnitude c) (c_propagation c) = Made (snd e)) codes errors /\
  make_diagnostic_data (map w_md l) errors = Some D /\
  forall i s, nth_error l i = Some s -> (forall j s', (i < j)%nat -> nth_error l j = Some s' -> w_md s' <> w_md s) ->
  exists row T, depth_get (w_md s) D = Some row /\ nth_error (t_all t) i = Some T /\ lookup "TOTAL" row = Some (six T) /\
    forall e, In e errors -> fst e <> "TOTAL"%string -> lookup (fst e) row = Some (six (nth i (er_cov_NEV (snd e)) mzero)).
Proof. exact diagnostic_total. Qed.
Print Assumptions C123_totals.
Theorem C123_fails : forall mds errors, make_diagnostic_data mds errors = None <-> errors = [] /\ mds <> [].
Proof. exact diagnostic_fails. Qed.
Print Assumptions C123_fails.
Theorem C123_zero_error_refuted : forall tree rates az h l, regular_survey h l -> (forall s, In s l -> w_inc s < PI) ->
  exists m, open_model tree "ZERO-ERROR" = Yaml m /\ tf_codes m = [] /\
  (exists t, error_model tree rates az h l "ZERO-ERROR" = Totals t) /\ make_diagnostic_data (map w_md l) [] = None.
Proof. exact zero_error_diagnostic. Qed.
Print Assumptions C123_zero_error_refuted.
(** three stations of which the last repeats the depth of the second *)
Example C123_case :
  let err := fun cs => mkError "a" "systematic" [] [] [] [] cs in
  let es := [("A"%string, err [mzero; mzero; mkM (mkV 1 0 0) (mkV 0 1 0) (mkV 0 0 1)])] in
  es <> [] /\ NoDup (map fst es) /\
  (forall j, (2 < j)%nat -> nth_error [0; 100; 100] j <> Some 100) /\
  (exists t, yaml_tool_error "true" 0 None true plumb [built 0 0; built 100 (1/2); built 300 1]
     [mkCode "ABZ" "ABZ" 1 "systematic"; mkCode "XYM1" "XYM1" 2 "random"] = Totals t) /\
  regular_survey plumb [built 0 0; built 100 (1/2); built 300 1].
Proof.
  intros err es. split; [discriminate|]. split; [repeat constructor; intros []|].
  split. { intros j Hj. destruct j as [|[|[|j]]]; try lia. destruct j; discriminate. }
  split; [|exact (proj1 (proj2 (proj2 (proj2 (proj2 C122_case)))))].
  apply yaml_iff. split; [intros m Q; discriminate|].
  pose proof PI_RGT_0 as PP. pose proof PI2_3_2 as P3. unfold PI2 in P3.
  assert (S : forall s, In s [built 0 0; built 100 (1/2); built 300 1] -> 0 <= sin (w_inc s)).
  { intros s [<-|[<-|[<-|[]]]]; cbn; rewrite ?sin_0; try lra; apply sin_ge_0; lra. }
  intros c [<-|[<-|[]]]; (apply plain_ok; [exact slanted_sensible|cbn; tauto|cbn; tauto|cbn; lia|exact S|auto]).
Qed.
