(** Property theorems C39-C41, C80-C82 (welleng/exchange/wbp.py). *)
Require Import Reals ZArith Ascii String List Bool Lia Lra.
Require Import Verif.M_Text Verif.Spec_Text Verif.P_Text Verif.M_Wbp Verif.Spec_Wbp Verif.P_Wbp Verif.P_Wbp2 Verif.P_Wbp3 Verif.P_Wbp4 Verif.P_Wbp5.
Import ListNotations.
Open Scope list_scope.
Local Open Scope nat_scope.

(** * C39 *)
Theorem C39_ends : forall rd c lines fuel, length lines < fuel ->
  load fuel rd c lines <> OutOfFuel /\ load fuel rd c lines = load (S (length lines)) rd c lines.
Proof. exact load_ends. Qed.
Print Assumptions C39_ends.
Theorem C39_blocks : forall rd c lines fuel ps c', load fuel rd c lines = Plans ps c' ->
  exists first more, concat (first :: more) = map rstrip lines /\ length (first :: more) = length ps /\
    read_blocks rd None None c (first :: more) ps c' /\
    Forall (fun b => exists l r, b = l :: r /\ plan_line l = true) more.
Proof. exact load_blocks. Qed.
Print Assumptions C39_blocks.
Theorem C39_counts : forall rd c lines fuel ps c' front w rest, map rstrip lines = front ++ w :: rest ->
  Forall (fun l => plan_line l = false) front -> targets_closed front ->
  plan_line w = true -> Forall (fun l => ~ section_line l) (w :: rest) ->
  load fuel rd c lines = Plans ps c' -> length ps = length (filter plan_line (map rstrip lines)).
Proof. exact load_counts. Qed.
Print Assumptions C39_counts.
Theorem C39_blank : forall rd c lines l fuel, In l lines -> blank l -> length lines < fuel -> load fuel rd c lines = Raised.
Proof. exact load_blank. Qed.
Print Assumptions C39_blank.
Theorem C39_repeated_section_refuted : ~ forall rd c lines fuel ps c', load fuel rd c lines = Plans ps c' ->
  length ps = length (filter plan_line (map rstrip lines)).
Proof. exact merge_refuted. Qed.
Print Assumptions C39_repeated_section_refuted.
Example C39_case : exists front w rest ps c',
  map rstrip [lit "DEPTH 2"; lit "TARGETS:"; lit "WELLPLANS:"; lit "W:1200"; lit "! note"; lit "W:2200"] = front ++ w :: rest /\
  Forall (fun l => plan_line l = false) front /\ targets_closed front /\ plan_line w = true /\
  Forall (fun l => ~ section_line l) (w :: rest) /\
  load 7 plain_reader (mkCell None None) [lit "DEPTH 2"; lit "TARGETS:"; lit "WELLPLANS:"; lit "W:1200"; lit "! note"; lit "W:2200"] = Plans ps c' /\
  length ps = 2.
Proof.
  exists [lit "DEPTH 2"; lit "TARGETS:"; lit "WELLPLANS:"], (lit "W:1200"), [lit "! note"; lit "W:2200"]. eexists _, _.
  split; [reflexivity|]. split; [repeat constructor|]. split.
  { right. exists [lit "DEPTH 2"; lit "TARGETS:"], (lit "WELLPLANS:"), []. split; [reflexivity|]. split; [right; eexists; reflexivity|constructor]. }
  split; [reflexivity|]. split.
  { assert (N : forall l w ws, words l = w :: ws -> w <> lit "DEPTH" -> w <> lit "TARGETS:" -> w <> lit "WELLPLANS:" -> ~ section_line l)
      by (intros l w ws E A B C [(v & F)|[(v & F)|(v & F)]]; rewrite E in F; injection F as -> _; auto).
    constructor; [eapply N; [reflexivity|discriminate|discriminate|discriminate]|].
    constructor; [eapply N; [reflexivity|discriminate|discriminate|discriminate]|].
    constructor; [eapply N; [reflexivity|discriminate|discriminate|discriminate]|constructor]. }
  split; [reflexivity|reflexivity].
Qed.

(** a line of survey data belongs to the step before it *)
Theorem C39_survey_data : forall rd c lines l w a b d md azi inc fuel ps p c',
  field (rstrip l) "S" -> words (rstrip l) = [w; a; b; d] -> ~ begins (rstrip l) "!" -> ~ section_line (rstrip l) ->
  to_float rd a = Some md -> to_float rd b = Some azi -> to_float rd d = Some inc ->
  load fuel rd c lines = Plans (ps ++ [p]) c' -> p_flag p <> Targets ->
  match load fuel rd c (lines ++ [l]) with
  | Plans qs e => e = c' /\ exists q before x y, qs = ps ++ [q] /\ p_steps p = before ++ [x] /\ p_steps q = before ++ [y] /\ with_station md azi inc x y /\
      p_depth q = p_depth p /\ p_surface q = p_surface p /\ p_targets q = p_targets p /\ p_head q = p_head p
  | Raised => p_steps p = []
  | OutOfFuel => False
  end.
Proof. exact survey_data. Qed.
Print Assumptions C39_survey_data.
(** in a file without plans no turn point is a tie-on *)
Theorem C39_no_tie : forall rd c lines fuel ps c', load fuel rd c lines = Plans ps c' ->
  Forall (fun l => plan_line l = false /\ ~ begins l "WELLPLANS:") (map rstrip lines) ->
  exists p, ps = [p] /\ forall t, In (Turn t) (p_steps p) -> t_tie t = false.
Proof. exact no_tie. Qed.
Print Assumptions C39_no_tie.
Example C39_lines_case : exists p c', let l := lit "S: 1.0 2.0 3.0" in
  load 3 plain_reader (mkCell None None) [lit "P: 1.0 2.0 3.0 4.0 5.0 6.0 7.0 M"] = Plans ([] ++ [p]) c' /\ p_flag p <> Targets /\ length (p_steps p) = 1 /\
  field (rstrip l) "S" /\ words (rstrip l) = [lit "S:"; lit "1.0"; lit "2.0"; lit "3.0"] /\ ~ begins (rstrip l) "!" /\ ~ section_line (rstrip l) /\
  (forall w, In w [lit "1.0"; lit "2.0"; lit "3.0"] -> exists x, to_float plain_reader w = Some x) /\
  Forall (fun l => plan_line l = false /\ ~ begins l "WELLPLANS:") (map rstrip [lit "P: 1.0 2.0 3.0 4.0 5.0 6.0 7.0 M"]).
Proof.
  eexists _, _. cbv zeta. split; [reflexivity|]. split; [discriminate|]. split; [reflexivity|]. split; [eexists; reflexivity|]. split; [reflexivity|].
  split; [intros (ws & E); discriminate E|]. split; [intros [(ws & E)|[(ws & E)|(ws & E)]]; discriminate E|].
  split; [intros w [<-|[<-|[<-|[]]]]; eexists; reflexivity|]. constructor; [|constructor]. split; [reflexivity|]. intros (ws & E). discriminate E.
Qed.

(** * C40 *)
Theorem C40_round_trip : forall rd de su h, reads_numbers rd -> header_fits h ->
  exists line h', header_line (Some de) (Some su) h = Some line /\ read_header rd (rstrip line) = Some h' /\ header_back h h'.
Proof. exact header_trip. Qed.
Print Assumptions C40_round_trip.
Theorem C40_writable : forall de su h, (exists line, header_line (Some de) (Some su) h = Some line) <-> writable h.
Proof. exact header_writable. Qed.
Print Assumptions C40_writable.
Theorem C40_second_export_refuted : forall rd de su de' su' h, reads_numbers rd -> header_fits h -> h_sidetrack h = Some [] ->
  exists line h', header_line (Some de) (Some su) h = Some line /\ read_header rd line = Some h' /\ header_line de' su' h' = None.
Proof. exact blank_sidetrack. Qed.
Print Assumptions C40_second_export_refuted.
Theorem C40_long_name : forall rd de su h k, one_word rd -> 1 <= k <= 6 -> name_too_long k h ->
  exists line, header_line (Some de) (Some su) h = Some line /\ read_header rd line = None.
Proof. exact long_name. Qed.
Print Assumptions C40_long_name.
Example C40_case : reads_numbers plain_reader /\ one_word plain_reader /\ header_fits (case_header (lit "plan 7")) /\
  h_sidetrack (case_header (lit "plan 7")) = Some [] /\ name_too_long 3 (case_header (repeat "a"%char 63)).
Proof.
  split; [exact plain_reads|]. split; [exact plain_one_word|]. split; [exact case_header_fits|]. split; [reflexivity|exact case_header_long].
Qed.

(** * C41 *)
Theorem C41_kept : forall rows, changes rows (strip_duplicates rows).
Proof. exact strip_changes. Qed.
Print Assumptions C41_kept.
Theorem C41_last : forall rs r s, (row_inc s = row_inc r -> strip_duplicates (rs ++ [r; s]) = strip_duplicates (rs ++ [r])) /\
  (row_inc s <> row_inc r -> strip_duplicates (rs ++ [r; s]) = strip_duplicates (rs ++ [r]) ++ [s]).
Proof. exact strip_last. Qed.
Print Assumptions C41_last.
Theorem C41_identical_only_refuted : exists a b c : srow, a <> b /\ b <> c /\ a <> c /\ strip_duplicates [a; b; c] = [a].
Proof. exact strip_distinct_refuted. Qed.
Print Assumptions C41_identical_only_refuted.
Example C41_case : exists r s : srow, row_inc s = row_inc r /\ exists t : srow, row_inc t <> row_inc r.
Proof. exists (0, 1, 0, 0)%R, (30, 1, 1, 0)%R. split; [reflexivity|]. exists (30, 2, 1, 0)%R. cbn. lra. Qed.

(** * C80 *)
Theorem C80_round_trip : forall rd p ps colours comments c, reads_numbers rd ->
  Forall plan_fits (p :: ps) -> Forall target_fits (p_targets p) -> Forall colour_fits colours -> length (p_targets p) = length colours ->
  exists lines p' ps', export (p :: ps) colours comments [] = Some lines /\
    (forall fuel, length lines < fuel -> load fuel rd c lines = Plans (p' :: ps') (last_colour colours c)) /\
    Forall2 (plan_back (p_depth p) (p_surface p)) (p :: ps) (p' :: ps') /\
    p_targets p' = map target_round (p_targets p) /\ Forall (fun q => p_targets q = []) ps'.
Proof. exact file_round. Qed.
Print Assumptions C80_round_trip.
Theorem C80_digits : forall d x, (Rabs (rounded d x - x) <= / 2 * / 10 ^ d)%R.
Proof. exact rounded_near. Qed.
Print Assumptions C80_digits.
Example C80_case : reads_numbers plain_reader /\ Forall plan_fits [case_plan Feet Meters [case_target]; case_plan Meters Meters []] /\
  Forall target_fits [case_target] /\ Forall colour_fits [Some 12%Z].
Proof.
  split; [exact plain_reads|]. split; [repeat (constructor; [apply case_plan_fits|]); constructor|].
  split; [constructor; [exact case_target_fits|constructor]|]. constructor; [|constructor]. exists 12%Z. split; [reflexivity|apply Nat.leb_le; reflexivity].
Qed.

(** * C81 *)
Theorem C81_location : forall rd q, reads_numbers rd ->
  forall body, rstrip (location_line q) = lit "L:" ++ body ->
  (loc_fits q /\ read_loc rd body = Some (loc_round q)) \/ (~ loc_fits q /\ read_loc rd body = None).
Proof. exact location_iff. Qed.
Print Assumptions C81_location.
Theorem C81_bound : forall x y z, (Rabs y < 10 ^ 8 - 1 -> Rabs z < 10 ^ 6 - 1 -> loc_fits (x, y, z))%R.
Proof. exact location_bound. Qed.
Print Assumptions C81_bound.
Example C81_case : (Rabs 6700000 < 10 ^ 8 - 1 /\ Rabs (-800) < 10 ^ 6 - 1)%R /\
  exists body, rstrip (location_line (451000, 6700000, -800)%R) = lit "L:" ++ body.
Proof.
  split; [split; apply Rabs_def1; cbn; lra|]. eexists. apply loc_rstrip. apply location_bound; apply Rabs_def1; cbn; lra.
Qed.

(** * C82 *)
Theorem C82_geometry : forall rd c lines a t b g rest fuel, map rstrip lines = a ++ t :: b ++ g :: rest -> begins t "TARGETS:" ->
  Forall (fun l => ~ section_line l) (b ++ [g]) -> field g "G" -> ~ begins g "!" -> length lines < fuel -> load fuel rd c lines = Raised.
Proof. exact geometry_raises. Qed.
Print Assumptions C82_geometry.
Theorem C82_no_colour : forall rd p ps colours colours' comments c t ts ts' lines fuel, reads_numbers rd -> to_int rd (lit "Non") = None ->
  p_targets p = ts ++ t :: ts' -> Forall target_fits (ts ++ [t]) -> Forall colour_fits colours -> length ts = length colours ->
  export (p :: ps) (colours ++ None :: colours') comments [] = Some lines -> length lines < fuel -> load fuel rd c lines = Raised.
Proof. exact colourless. Qed.
Print Assumptions C82_no_colour.
Example C82_case : (exists l, l = lit "G:1 0" /\ field l "G" /\ ~ begins l "!" /\ ~ section_line l) /\
  to_int plain_reader (lit "Non") = None /\
  exists lines, export [case_plan Meters Meters [case_target]] [None] [] [] = Some lines.
Proof.
  split; [|split; [reflexivity|]].
  - eexists. split; [reflexivity|]. split; [eexists; reflexivity|].
    split; [intros (v & F); discriminate|]. intros [(v & F)|[(v & F)|(v & F)]]; discriminate.
  - unfold export. cbn [p_depth p_surface case_plan ob]. change (unit_key depth_dict Meters Meters) with (Some "2"%char). cbn [ob].
    destruct (targets_some (p_targets (case_plan Meters Meters [case_target])) [None]) as (ts & ->); [constructor; [exact case_target_fits|constructor]|].
    cbn [ob]. destruct (bodies_some plain_reader plain_reads [case_plan Meters Meters [case_target]]) as (bs & -> & _);
      [constructor; [apply case_plan_fits|constructor]|]. eexists. reflexivity.
Qed.
