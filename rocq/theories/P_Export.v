(** Lemmas: what export_csv writes and what survey_to_df tabulates. *)
Require Import Reals ZArith Ascii String List Bool Lra Lia Psatz.
Require Import Verif.Base Verif.NumPy Verif.Spec Verif.Spec_Lists Verif.Spec_Rates Verif.M_Utils Verif.M_Connector Verif.M_Survey Verif.M_Rates Verif.M_Sections Verif.M_Text Verif.M_Export.
Require Import Verif.Spec_Text Verif.Spec_Export Verif.Spec_Sections Verif.Spec_RatesCases.
Require Import Verif.P_Trig Verif.P_Text Verif.P_Survey5 Verif.P_Rates Verif.P_Rates2 Verif.P_Rates6 Verif.P_Sections Verif.P_Sections2 Verif.P_Sections7.
Import ListNotations.
Open Scope list_scope.
Local Open Scope R_scope.

(** ** texts *)
Lemma fixed_shows : forall d x, (0 < d)%nat -> shows d (fixed d x) (Fin x).
Proof.
  intros d x D. exists (rounded d x). split; [apply fixed_decimal; auto|]. split; [apply rounded_near|].
  unfold fixed. exists ((if Rlt_dec x 0 then [minus] else []) ++ digits (scaled d x / 10 ^ Z.of_nat d)), (zpad d (digits (scaled d x mod 10 ^ Z.of_nat d))).
  split; [rewrite <- !app_assoc; reflexivity|].
  destruct (zpad_spec d (scaled d x mod 10 ^ Z.of_nat d)) as (A & B & C); auto.
  apply Z.mod_pos_bound. apply Z.pow_pos_nonneg; lia.
Qed.
Lemma percent_shows : forall d x, (0 < d)%nat -> shows d (percent_f d x) x.
Proof. intros d [r| | |] D; try reflexivity. apply fixed_shows; auto. Qed.

Definition plain (t : text) : Prop := ~ In newline t /\ ~ In comma t.
Lemma decimal_plain : forall s r, decimal s r -> plain s.
Proof.
  intros s r (neg & ip & fp & _ & _ & F & F' & -> & _). rewrite Forall_forall in F, F'.
  assert (D : forall c, is_digit c -> c <> newline /\ c <> comma).
  { intros c [H1 H2]. split; intros ->; cbn in *; lia. }
  assert (Q : forall c, In c ((if neg then [minus] else []) ++ ip ++ [dot_char] ++ fp) -> c <> newline /\ c <> comma).
  { intros c I. rewrite !in_app_iff in I. destruct I as [I|[I|[I|I]]]; auto.
    - destruct neg; cbn in I; [|tauto]. destruct I as [<-|[]]. split; discriminate.
    - destruct I as [<-|[]]. split; discriminate. }
  split; intro I; destruct (Q _ I); congruence.
Qed.
Lemma percent_plain : forall d x, (0 < d)%nat -> plain (percent_f d x).
Proof.
  intros d [r| | |] D; [exact (decimal_plain _ _ (fixed_decimal d r D))| | |]; split; cbn; intuition discriminate.
Qed.
Lemma join_in : forall sep l c, In c (join sep l) -> In c sep \/ exists f, In f l /\ In c f.
Proof.
  induction l as [|a [|b l] IH]; intros c I; [destruct I| |].
  - right. exists a. split; [left; auto|exact I].
  - change (join sep (a :: b :: l)) with (a ++ sep ++ join sep (b :: l)) in I. rewrite !in_app_iff in I.
    destruct I as [I|[I|I]]; [right; exists a; cbn; auto|left; auto|].
    destruct (IH _ I) as [H|(f & H & H')]; [left; auto|right; exists f; cbn in *; tauto].
Qed.
Lemma split_join : forall sep l, l <> [] -> Forall (fun f => ~ In sep f) l -> split_on sep (join [sep] l) = l.
Proof.
  induction l as [|a [|b l] IH]; intros N F; [congruence| |]; inversion F; subst.
  - apply split_none; auto.
  - change (join [sep] (a :: b :: l)) with (a ++ sep :: join [sep] (b :: l)). rewrite split_app by auto. rewrite IH; auto. discriminate.
Qed.
Lemma lines_concat : forall ls, Forall one_line ls -> lines (concat (map (fun l => l ++ [newline]) ls)) = ls ++ [[]].
Proof.
  induction ls as [|l ls IH]; intros F; [reflexivity|]. inversion F; subst. cbn [map concat].
  rewrite <- app_assoc. cbn [app]. unfold lines. rewrite split_app by auto. change (split_on _ (concat _)) with (lines (concat (map (fun l => l ++ [newline]) ls))).
  rewrite IH; auto.
Qed.
Definition row_line (d : nat) (row : list ext) : text := join [comma] (map (percent_f d) row).
Lemma row_line_one : forall d row, (0 < d)%nat -> one_line (row_line d row).
Proof.
  intros d row D I. destruct (join_in _ _ _ I) as [[H|[]]|(f & H & H')]; [discriminate|].
  apply in_map_iff in H. destruct H as (x & <- & _). destruct (percent_plain d x D); auto.
Qed.
Lemma row_line_shows : forall d row, (0 < d)%nat -> row <> [] -> shows_row d (row_line d row) row.
Proof.
  intros d row D N. unfold shows_row, fields, row_line. change (ascii_of_nat 44) with comma. rewrite split_join.
  - clear N. induction row; cbn; constructor; auto. apply percent_shows; auto.
  - destruct row; cbn; congruence.
  - rewrite Forall_forall. intros f I. apply in_map_iff in I. destruct I as (x & <- & _). apply percent_plain; auto.
Qed.
Lemma headers_columns : split_on comma csv_headers = csv_columns.
Proof. reflexivity. Qed.
Lemma headers_one : one_line csv_headers.
Proof. vm_compute. intuition discriminate. Qed.

Definition preamble (version author : text) (items : list (text * text)) : list text :=
  [lit "welleng, version: " ++ version; lit "author, " ++ author] ++ map (fun kv => fst kv ++ lit ", " ++ snd kv) items ++ [[]; csv_headers].
Lemma savetxt_lines_of : forall data d version author items,
  savetxt data d csv_headers (csv_comments version author items) =
  concat (map (fun l => l ++ [newline]) (preamble version author items ++ map (row_line d) data)).
Proof.
  intros. unfold savetxt, csv_comments, preamble. rewrite !map_app, !concat_app. cbn [map concat]. rewrite !app_nil_r, <- !app_assoc. cbn [app].
  do 4 f_equal. { do 4 f_equal. f_equal.
    - f_equal. rewrite map_map. apply map_ext. intros [k v]. cbn [fst snd]. rewrite <- !app_assoc. reflexivity.
    - cbn [app]. do 3 f_equal. rewrite map_map. reflexivity. }
Qed.
Lemma comments_one : forall version author items, one_line version -> one_line author ->
  Forall (fun kv => one_line (fst kv) /\ one_line (snd kv)) items -> Forall one_line (preamble version author items).
Proof.
  intros version author items V A F. unfold preamble.
  assert (Q : forall a b, one_line a -> one_line b -> one_line (a ++ b)) by (unfold one_line; intros a b ? ? I; apply in_app_or in I; tauto).
  assert (L1 : one_line (lit "welleng, version: ")) by (vm_compute; intuition discriminate).
  assert (L2 : one_line (lit "author, ")) by (vm_compute; intuition discriminate).
  assert (L3 : one_line (lit ", ")) by (vm_compute; intuition discriminate).
  apply Forall_app. split; [|apply Forall_app; split].
  - constructor; [auto|constructor; [auto|constructor]].
  - rewrite Forall_forall in *. intros l I. apply in_map_iff in I. destruct I as (kv & <- & I). destruct (F _ I). auto.
  - constructor; [intros []|constructor; [apply headers_one|constructor]].
Qed.

(** ** when export_csv succeeds *)
Lemma misfit_some : forall h rows deg sx sn unit s x dc tol, Survey h rows deg sx sn unit = Some s ->
  ((exists m, resurvey_misfit s x dc tol = Some m) <-> unit = "meters"%string).
Proof.
  intros. rewrite <- (resurvey_accepts _ _ _ _ _ _ _ x dc H). unfold resurvey_misfit.
  destruct (resurvey s x dc) as [r|]; split; intros [m E]; try discriminate; eauto.
Qed.
Lemma export_raises : forall h rows deg sx sn unit s x to_file tol dc d v a items, Survey h rows deg sx sn unit = Some s ->
  (export_csv x s to_file tol dc d v a items = ExportRaised <-> unit <> "meters"%string).
Proof.
  intros. unfold export_csv. pose proof (misfit_some _ _ _ _ _ _ _ 0 dc tol H) as M.
  destruct (resurvey_misfit s 0 dc tol) as [m|] eqn:E.
  - split; [destruct to_file; discriminate|]. intros N. elim N. apply M. eauto.
  - split; auto. intros _ U. destruct (proj2 M U) as [m F]. discriminate.
Qed.

(** ** the rows *)
Lemma get_data_nth : forall s x dc i k a p, nth_error (section_starts s x x dc) i = Some k ->
  nth_error (sv_rows s) k = Some a -> nth_error (sv_nev s) k = Some p ->
  exists rest, nth_error (get_data x s dc) i = Some (station_columns a p ++ rest) /\ length rest = 4%nat.
Proof.
  intros s x dc i k a p K A P. destruct (sections_shape s x x dc) as [L _].
  assert (I : (i < length (tl (get_sections s x x dc)))%nat) by (rewrite L; apply nth_error_Some; congruence).
  destruct (nth_error (tl (get_sections s x x dc)) i) as [t|] eqn:T; [|apply nth_error_Some in I; congruence].
  destruct (sections_points _ _ _ _ _ _ _ _ _ K T A P) as (H1 & H2 & H3 & H4 & _).
  unfold get_data. rewrite nth_error_map, T. cbn [option_map]. unfold data_row. rewrite H1, H2, H3, H4. cbn [vx vy vz].
  exists [tp_dls t; Fin (tp_toolface t); tp_build_rate t; tp_turn_rate t]. split; [|reflexivity].
  unfold station_columns, degrees. reflexivity.
Qed.
Lemma get_data_length : forall s x dc, length (get_data x s dc) = length (section_starts s x x dc).
Proof. intros. unfold get_data. rewrite map_length. apply sections_shape. Qed.
Lemma get_data_ten : forall s x dc row, In row (get_data x s dc) -> length row = 10%nat.
Proof. intros s x dc row I. apply in_map_iff in I. destruct I as (t & <- & _). reflexivity. Qed.

Theorem export_frame : forall h rows deg sx sn s x tol dc d v a items, Survey h rows deg sx sn "meters" = Some s ->
  exists data, export_csv x s false tol dc d v a items = Frame csv_columns data /\
    length data = length (section_starts s x x dc) /\
    forall i k st p, nth_error (section_starts s x x dc) i = Some k -> nth_error (sv_rows s) k = Some st -> nth_error (sv_nev s) k = Some p ->
      exists rest, nth_error data i = Some (station_columns st p ++ rest) /\ length rest = 4%nat.
Proof.
  intros. exists (get_data x s dc). split; [|split; [apply get_data_length|intros; eapply get_data_nth; eauto]].
  unfold export_csv. destruct (proj2 (misfit_some _ _ _ _ _ _ _ 0 dc tol H) eq_refl) as [m ->]. rewrite headers_columns. reflexivity.
Qed.
Theorem export_file : forall h rows deg sx sn s x tol dc d v a items data, Survey h rows deg sx sn "meters" = Some s -> (0 < d)%nat ->
  one_line v -> one_line a -> Forall (fun kv => one_line (fst kv) /\ one_line (snd kv)) items ->
  export_csv x s false tol dc d v a items = Frame csv_columns data ->
  exists content listing, export_csv x s true tol dc d v a items = File content /\
    lines content = [lit "welleng, version: " ++ v; lit "author, " ++ a] ++
                    map (fun kv => fst kv ++ lit ", " ++ snd kv) items ++ [[]; join (lit ",") csv_columns] ++ listing ++ [[]] /\
    Forall2 (shows_row d) listing data.
Proof.
  intros h rows deg sx sn s x tol dc d v a items data H D V A F E. unfold export_csv in *.
  destruct (proj2 (misfit_some _ _ _ _ _ _ _ 0 dc tol H) eq_refl) as [m HM]. rewrite HM in *.
  injection E as E. subst data.
  exists (savetxt (get_data x s dc) d csv_headers (csv_comments v a items)), (map (row_line d) (get_data x s dc)).
  split; [reflexivity|]. split.
  - rewrite savetxt_lines_of, lines_concat.
    + unfold preamble. rewrite <- !app_assoc. reflexivity.
    + apply Forall_app. split; [apply comments_one; auto|]. rewrite Forall_forall. intros l I. apply in_map_iff in I. destruct I as (r & <- & _). apply row_line_one; auto.
  - pose proof (get_data_ten s x dc) as T. induction (get_data x s dc) as [|r l IH]; cbn [map]; constructor.
    + apply row_line_shows; auto. intros ->. specialize (T [] (or_introl eq_refl)). discriminate.
    + apply IH. intros row I. apply T. right; auto.
Qed.
Theorem export_ends : forall h rows deg sx sn s x tol dc d v a items data, Survey h rows deg sx sn "meters" = Some s -> (2 <= length rows)%nat ->
  export_csv x s false tol dc d v a items = Frame csv_columns data ->
  forall st p, (nth_error (sv_rows s) 0 = Some st -> nth_error (sv_nev s) 0 = Some p -> exists rest, hd_error data = Some (station_columns st p ++ rest)) /\
    (nth_error (sv_rows s) (length rows - 1) = Some st -> nth_error (sv_nev s) (length rows - 1) = Some p -> exists rest, hd_error (rev data) = Some (station_columns st p ++ rest)).
Proof.
  intros h rows deg sx sn s x tol dc d v a items data H L E st p.
  destruct (export_frame _ _ _ _ _ _ x tol dc d v a items H) as (data' & E' & LD & N). rewrite E in E'. injection E' as <-.
  destruct (Survey_stations _ _ _ _ _ _ _ H) as (_ & L0 & _).
  destruct (starts_first_last s x x dc) as [S1 S2]; [lia|]. rewrite L0 in S2.
  split; intros A B.
  - destruct (N 0%nat 0%nat st p) as (rest & R & _); [|exact A|exact B|].
    { destruct (section_starts s x x dc); [discriminate|exact S1]. }
    exists rest. destruct data; [discriminate|exact R].
  - set (st' := section_starts s x x dc) in *. 
    assert (Q : forall (T : Type) (l : list T), hd_error (rev l) = nth_error l (length l - 1)).
    { intros T l. destruct l as [|y l] using rev_ind; [reflexivity|]. rewrite rev_app_distr, app_length. cbn [rev app hd_error length].
      rewrite nth_error_app2 by lia. replace (length l + 1 - 1 - length l)%nat with 0%nat by lia. reflexivity. }
    rewrite Q in S2 |- *. rewrite LD. destruct (N _ _ st p S2 A B) as (rest & R & _). exists rest. exact R.
Qed.
