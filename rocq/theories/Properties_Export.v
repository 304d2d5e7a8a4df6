(** Property theorems C130 and C131: the exported listing of control points and
    the table of all stations. *)
Require Import Reals ZArith Ascii String List Bool Lra Lia Psatz.
Require Import Verif.Base Verif.NumPy Verif.Spec Verif.Spec_Lists Verif.Spec_Rates Verif.M_Utils Verif.M_Connector Verif.M_Survey Verif.M_Rates Verif.M_Sections Verif.M_Text Verif.M_Export.
Require Import Verif.Spec_Text Verif.Spec_Export Verif.Spec_Sections Verif.Spec_RatesCases.
Require Import Verif.P_Rates6 Verif.P_Export Verif.P_Export2.
Import ListNotations.
Open Scope list_scope.
Local Open Scope R_scope.

(** * C130 *)
Theorem C130_raises : forall h rows deg sx sn unit s x to_file tol dc d v a items, Survey h rows deg sx sn unit = Some s ->
  (export_csv x s to_file tol dc d v a items = ExportRaised <-> unit <> "meters"%string).
Proof. exact export_raises. Qed.
Print Assumptions C130_raises.
Theorem C130_rows : forall h rows deg sx sn s x tol dc d v a items, Survey h rows deg sx sn "meters" = Some s ->
  exists data, export_csv x s false tol dc d v a items = Frame csv_columns data /\
    length data = length (section_starts s x x dc) /\
    forall i k st p, nth_error (section_starts s x x dc) i = Some k -> nth_error (sv_rows s) k = Some st -> nth_error (sv_nev s) k = Some p ->
      exists rest, nth_error data i = Some (station_columns st p ++ rest) /\ length rest = 4%nat.
Proof. exact export_frame. Qed.
Print Assumptions C130_rows.
Theorem C130_ends : forall h rows deg sx sn s x tol dc d v a items data, Survey h rows deg sx sn "meters" = Some s -> (2 <= length rows)%nat ->
  export_csv x s false tol dc d v a items = Frame csv_columns data ->
  forall st p, (nth_error (sv_rows s) 0 = Some st -> nth_error (sv_nev s) 0 = Some p -> exists rest, hd_error data = Some (station_columns st p ++ rest)) /\
    (nth_error (sv_rows s) (length rows - 1) = Some st -> nth_error (sv_nev s) (length rows - 1) = Some p -> exists rest, hd_error (rev data) = Some (station_columns st p ++ rest)).
Proof. exact export_ends. Qed.
Print Assumptions C130_ends.
Theorem C130_file : forall h rows deg sx sn s x tol dc d v a items data, Survey h rows deg sx sn "meters" = Some s -> (0 < d)%nat ->
  one_line v -> one_line a -> Forall (fun kv => one_line (fst kv) /\ one_line (snd kv)) items ->
  export_csv x s false tol dc d v a items = Frame csv_columns data ->
  exists content listing, export_csv x s true tol dc d v a items = File content /\
    lines content = [lit "welleng, version: " ++ v; lit "author, " ++ a] ++
                    map (fun kv => fst kv ++ lit ", " ++ snd kv) items ++ [[]; join (lit ",") csv_columns] ++ listing ++ [[]] /\
    Forall2 (shows_row d) listing data.
Proof. exact export_file. Qed.
Print Assumptions C130_file.
Theorem C130_tolerance_refuted : exists s r,
  Survey (grid_header "meters") bend_rows false vzero vzero "meters" = Some s /\
  Survey (grid_header "meters") [(0, 30, 0); (120, 90, 0)] true vzero vzero "meters" = Some r /\
  10 < vz (last (sv_nev r) vzero) - vz (last (sv_nev s) vzero) /\
  forall x tolerance d v a items, 0 <= x <= 1 -> exists data,
    export_csv x s false tolerance false d v a items = Frame csv_columns data /\
    map (firstn 3) data = [[Fin 0; Fin 30; Fin 0]; [Fin 120; Fin 90; Fin 0]].
Proof. exact tolerance_missed. Qed.
Print Assumptions C130_tolerance_refuted.
(** a survey of two arcs, saved with a two-entry header *)
Example C130_case : exists s p q z,
  Survey (grid_header "meters") bend_rows false vzero vzero "meters" = Some s /\ (2 <= length bend_rows)%nat /\
  sv_nev s = [p; q; z] /\ nth_error (sv_rows s) 2 = Some (mkSt 120 (PI / 2) 0) /\
  one_line (lit "0.9.1") /\ Forall (fun kv => one_line (fst kv) /\ one_line (snd kv)) [(lit "name", lit "A-1"); (lit "depth_unit", lit "meters")] /\
  exists content, save 0 s (lit "0.9.1") [(lit "name", lit "A-1"); (lit "depth_unit", lit "meters")] = File content /\
    firstn 6 (lines content) = map lit ["welleng, version: 0.9.1"; "author, Jonny Corcutt"; "name, A-1"; "depth_unit, meters"; "";
      "MD,INC (deg),AZI (deg),NORTHING (m),EASTING (m),TVDSS (m),DLS,TOOLFACE,BUILD RATE,TURN RATE"]%string.
Proof.
  destruct (bend_case "meters") as (s & p & q & z & H & R & N & _); auto. exists s, p, q, z.
  assert (O1 : one_line (lit "0.9.1")) by (vm_compute; intuition discriminate).
  assert (O2 : one_line (lit "Jonny Corcutt")) by (vm_compute; intuition discriminate).
  assert (O3 : Forall (fun kv => one_line (fst kv) /\ one_line (snd kv)) [(lit "name", lit "A-1"); (lit "depth_unit", lit "meters")]).
  { repeat (constructor; [split; vm_compute; intuition discriminate|]). constructor. }
  split; auto. split; [cbn; lia|]. split; auto. split; [rewrite R; reflexivity|]. split; auto. split; auto.
  destruct (export_frame _ _ _ _ _ _ 0 (1 / 10) false 3 (lit "0.9.1") (lit "Jonny Corcutt") [(lit "name", lit "A-1"); (lit "depth_unit", lit "meters")] H) as (data & E & _).
  destruct (export_file _ _ _ _ _ _ _ _ _ _ _ _ _ _ H (Nat.lt_0_succ 2) O1 O2 O3 E) as (content & listing & E2 & L & _).
  exists content. split; [exact E2|]. rewrite L. reflexivity.
Qed.

(** * C131 *)
Theorem C131_one_row_per_station : forall big s, length (survey_to_df big s) = length (sv_rows s).
Proof. exact table_length. Qed.
Print Assumptions C131_one_row_per_station.
Theorem C131_station : forall h rows deg sx sn unit s big k a p q t r, Survey h rows deg sx sn unit = Some s ->
  nth_error (survey_to_df big s) k = Some r -> nth_error (sv_rows s) k = Some a ->
  nth_error (sv_nev s) k = Some p -> nth_error (sv_xyz s) k = Some q -> nth_error (sv_azi_true s) k = Some t ->
  df_md r = st_md a /\ df_inc r = st_inc a * (180 / PI) /\ df_azi_grid r = st_azi a * (180 / PI) /\ df_azi_true r = t * (180 / PI) /\
  df_northing r = vx sn + h_gsf h * (vx p - vx sn + vy sx) /\
  df_easting r = vy sn + h_gsf h * (vy p - vy sn + vx sx) /\
  df_tvdss r = vz p + vz sx /\
  (df_x r, df_y r, df_z r) = (vx q, vy q, vz q).
Proof. exact table_station. Qed.
Print Assumptions C131_station.
Theorem C131_toolface : forall big s k r tf, nth_error (survey_to_df big s) k = Some r -> nth_error (cv_toolface (survey_curves s)) k = Some tf ->
  0 <= df_toolface r < 360 /\ exists n, df_toolface r = tf * (180 / PI) + 360 * IZR n.
Proof. exact table_toolface. Qed.
Print Assumptions C131_toolface.
Theorem C131_rates : forall big s k r a d tf, nth_error (survey_to_df big s) k = Some r -> nth_error (sv_rows s) k = Some a ->
  nth_error (cv_dls (survey_curves s)) k = Some (Fin d) -> nth_error (cv_toolface (survey_curves s)) k = Some tf ->
  df_dls r = Fin d /\ df_build_rate r = Rabs (d * cos tf) /\
  (sin (st_inc a) <> 0 -> df_turn_rate r = Rabs (d * sin tf / sin (st_inc a))) /\
  (sin (st_inc a) = 0 -> df_turn_rate r = if Req_EM_T (d * sin tf) 0 then 0 else big).
Proof. exact table_rates. Qed.
Print Assumptions C131_rates.
Theorem C131_turn_rate_refuted : exists s a, Survey (grid_header "meters") cusp_rows false vzero vzero "meters" = Some s /\
  nth_error (sv_rows s) 1 = Some a /\ st_inc a = 0 /\
  forall big, exists r, nth_error (survey_to_df big s) 1 = Some r /\ df_dls r = Fin 30 /\ df_turn_rate r = big.
Proof. exact vertical_turn. Qed.
Print Assumptions C131_turn_rate_refuted.
(** the same survey has a row for its second station *)
Example C131_case : exists s r d tf,
  Survey (grid_header "meters") bend_rows false vzero vzero "meters" = Some s /\
  nth_error (survey_to_df 1 s) 1 = Some r /\ nth_error (sv_rows s) 1 = Some (mkSt 30 (PI / 3) 0) /\
  nth_error (cv_dls (survey_curves s)) 1 = Some (Fin d) /\ nth_error (cv_toolface (survey_curves s)) 1 = Some tf /\
  (exists p, nth_error (sv_nev s) 1 = Some p) /\ (exists t, nth_error (sv_azi_true s) 1 = Some t) /\ exists q, nth_error (sv_xyz s) 1 = Some q.
Proof.
  destruct (bend_case "meters") as (s & p & q & z & H & R & N & _ & _ & A); auto. pose proof PI_RGT_0.
  assert (A0 : nth_error (sv_rows s) 0 = Some (mkSt 0 (PI / 6) 0)) by (rewrite R; reflexivity).
  assert (A1 : nth_error (sv_rows s) 1 = Some (mkSt 30 (PI / 3) 0)) by (rewrite R; reflexivity).
  assert (A2 : nth_error (sv_rows s) 2 = Some (mkSt 120 (PI / 2) 0)) by (rewrite R; reflexivity).
  destruct (P_Survey5.Survey_stations _ _ _ _ _ _ _ H) as (_ & _ & L1 & _ & _ & _ & L2 & _).
  do 4 eexists. split; [exact H|]. split; [exact (table_nth 1 s 1 _ A1)|]. split; auto.
  split; [apply (P_Rates2.dls_next s 0 _ _ (PI / 6) A0 A1); [exact A|cbn; lra]|].
  split; [exact (P_Rates.toolfaces_nth _ _ _ _ A1 A2)|].
  split; [rewrite N; eexists; reflexivity|].
  split; [destruct (sv_azi_true s) as [|? [|? ?]]|destruct (sv_xyz s) as [|? [|? ?]]]; try discriminate; eexists; reflexivity.
Qed.
