(** The exit code; what the comparison overlooks. *)
Require Import Reals ZArith Ascii String List Bool Lra Lia.
Require Import Verif.Base Verif.NumPy Verif.M_Utils Verif.M_DmsText Verif.M_Text Verif.M_Ingest Verif.Spec_Ingest.
Require Import Verif.P_Ingest Verif.P_Ingest4 Verif.P_Ingest7 Verif.M_Validate Verif.Spec_Validate Verif.P_Validate Verif.P_Validate2.
Import ListNotations.
Open Scope list_scope.
Local Open Scope nat_scope.

(** ** per source *)
Definition pf_step (d : list (text * bool)) (s : source_compare) : list (text * bool) :=
  dput text_eqb (sc_code s) (match dget text_eqb (sc_code s) d with Some b => (b && sc_ok s)%bool | None => sc_ok s end) d.
Definition code_is (n : text) (s : source_compare) : bool := text_eqb (sc_code s) n.
Lemma pf_fold : forall rows d n,
  dget text_eqb n (fold_left pf_step rows d) =
  match dget text_eqb n d with
  | Some b => Some (b && forallb sc_ok (filter (code_is n) rows))%bool
  | None => match filter (code_is n) rows with [] => None | l => Some (forallb sc_ok l) end
  end.
Proof.
  induction rows as [|s rows IH]; intros d n.
  - cbn. destruct (dget text_eqb n d) as [b|]; [rewrite andb_true_r|]; reflexivity.
  - cbn [fold_left]. rewrite IH. clear IH. unfold pf_step at 1. rewrite (dget_put text_eqb text_eqb_spec). cbn [filter].
    assert (CI : code_is n s = text_eqb n (sc_code s)).
    { unfold code_is. destruct (text_eqb n (sc_code s)) eqn:E; [apply text_eqb_spec in E; subst n; apply text_eqb_same|]. apply text_eqb_neq. apply text_eqb_neq in E. congruence. }
    rewrite CI. destruct (text_eqb n (sc_code s)) eqn:E.
    + apply text_eqb_spec in E. subst n. destruct (dget text_eqb (sc_code s) d) as [b|]; cbn [forallb]; [rewrite andb_assoc|]; reflexivity.
    + reflexivity.
Qed.
Lemma pass_fail_spec : forall r n b, dget text_eqb n (source_pass_fail r) = Some b <->
  (exists s, In s (rp_sources r) /\ sc_code s = n) /\ (b = true <-> forall s, In s (rp_sources r) -> sc_code s = n -> sc_ok s = true).
Proof.
  intros r n b. change (source_pass_fail r) with (fold_left pf_step (rp_sources r) []). rewrite pf_fold. cbn [dget].
  assert (A : forall s, In s (filter (code_is n) (rp_sources r)) <-> In s (rp_sources r) /\ sc_code s = n) by (intro s; rewrite filter_In; unfold code_is; rewrite text_eqb_spec; reflexivity).
  assert (G : forallb sc_ok (filter (code_is n) (rp_sources r)) = true <-> forall s, In s (rp_sources r) -> sc_code s = n -> sc_ok s = true).
  { rewrite forallb_forall. split; intros H s; [intros I E; apply H; apply A; auto|intro I; apply A in I; destruct I; auto]. }
  destruct (filter (code_is n) (rp_sources r)) as [|s0 l] eqn:F.
  - split; [discriminate|]. intros [(s & I & E) _]. assert (In s []) by (apply A; auto). contradiction.
  - rewrite <- G. split.
    + intro H. injection H as <-. split; [|reflexivity]. exists s0. apply A. left. reflexivity.
    + intros [_ H]. f_equal. destruct b, (forallb sc_ok (s0 :: l)); try reflexivity; [apply (proj1 H eq_refl)|symmetry; apply (proj2 H eq_refl)].
Qed.
Lemma pf_nodup : forall rows d, NoDup (map fst d) -> NoDup (map fst (fold_left pf_step rows d)).
Proof. induction rows as [|s rows IH]; intros d N; [exact N|]. cbn [fold_left]. apply IH. apply (dput_nodup text_eqb text_eqb_spec). exact N. Qed.
Lemma exit_code_spec : forall r, (exit_code r = 0 <-> forall s, In s (rp_sources r) -> sc_ok s = true) /\ (exit_code r = 0 \/ exit_code r = 1).
Proof.
  intro r. split; [|unfold exit_code; destruct (Nat.eqb _ 0); auto].
  assert (N : NoDup (map fst (source_pass_fail r))) by (apply pf_nodup; constructor).
  assert (G : forall n b, In (n, b) (source_pass_fail r) <-> dget text_eqb n (source_pass_fail r) = Some b).
  { intros n b. split; [|apply (dget_in text_eqb text_eqb_spec)]. revert N. generalize (source_pass_fail r). induction l as [|[k v] l IH]; cbn; intros N I; [contradiction|].
    inversion N; subst. destruct I as [E|I].
    - injection E as -> ->. rewrite text_eqb_same. reflexivity.
    - destruct (text_eqb n k) eqn:E; [|apply IH; assumption]. apply text_eqb_spec in E. subst k. elim H1. apply in_map_iff. exists (n, b). auto. }
  unfold exit_code. destruct (filter (fun cb => negb (snd cb)) (source_pass_fail r)) as [|[n b] l] eqn:F; cbn [length Nat.eqb].
  - split; [|reflexivity]. intros _ s I. destruct (dget text_eqb (sc_code s) (source_pass_fail r)) as [b|] eqn:D.
    + destruct b.
      * apply pass_fail_spec in D. destruct D as [_ D]. apply (proj1 D eq_refl s I). reflexivity.
      * apply G in D. assert (X : In (sc_code s, false) []) by (rewrite <- F; apply filter_In; auto). contradiction.
    + exfalso. assert (X : exists b, dget text_eqb (sc_code s) (source_pass_fail r) = Some b).
      { destruct (forallb (fun q => implb (text_eqb (sc_code q) (sc_code s)) (sc_ok q)) (rp_sources r)) eqn:B.
        - exists true. apply pass_fail_spec. split; [exists s; auto|]. split; [|reflexivity]. intros _ q IQ EQ. rewrite forallb_forall in B. specialize (B q IQ). rewrite EQ, text_eqb_same in B. exact B.
        - exists false. apply pass_fail_spec. split; [exists s; auto|]. split; [discriminate|]. intro H.
          assert (B' : forallb (fun q => implb (text_eqb (sc_code q) (sc_code s)) (sc_ok q)) (rp_sources r) = true); [|congruence].
          apply forallb_forall. intros q IQ. destruct (text_eqb (sc_code q) (sc_code s)) eqn:E; [|reflexivity]. apply text_eqb_spec in E. rewrite (H q IQ E). reflexivity. }
      destruct X. congruence.
  - split; [discriminate|]. intro H. exfalso. assert (I : In (n, b) ((n, b) :: l)) by (left; reflexivity). rewrite <- F in I. apply filter_In in I. destruct I as [I B].
    cbn in B. apply negb_true_iff in B. subst b. apply G, pass_fail_spec in I. destruct I as [_ I]. assert (false = true); [|discriminate]. apply I. intros s IS _. exact (H s IS).
Qed.

(** ** what is overlooked *)
Lemma forall2_in : forall (A B : Type) (P : A -> B -> Prop) x y, Forall2 P x y -> forall b, In b y -> exists a, In a x /\ P a b.
Proof. intros A B P x y F. induction F as [|a b x y H F IH]; intros c []; [subst c; exists a; split; [left; reflexivity|exact H]|]. destruct (IH c H0) as (a' & I & P'). exists a'. split; [right; exact I|exact P']. Qed.
Lemma zero_accepts : forall engine py wb model tr ta r o, validate_workbook engine py wb model tr ta = Some r -> (0 <= tr)%R ->
  In o (rp_sources r) -> (forall t, In t (sc_calculated o) -> t = Fin 0 \/ t = NaN) -> sc_ok o = true.
Proof.
  intros engine py wb model tr ta r o H T I Z. destruct (report_read _ _ _ _ _ _ _ H) as (ex & s & inp & c & _ & _ & _ & _ & (rows & _ & F) & _).
  destruct (forall2_in _ _ _ _ _ F o I) as (v & _ & (_ & _ & _ & EC & x & i & covs & m & full & _ & _ & _ & _ & _ & TG & OK)).
  apply OK. right. split; [exact T|]. rewrite EC in Z.
  assert (ZF : length full = 6 /\ forall t, In t full -> t = Fin 0 \/ t = NaN).
  { destruct TG as [[L ->]|(t & E & ->)]; [auto|]. split; [reflexivity|]. intros t' IT. apply repeat_spec in IT. subst t'. apply Z. rewrite E. left. reflexivity. }
  destruct ZF as [L ZF]. unfold within_rel. change 6 with (length (components m)) in L. revert L ZF. generalize (components m).
  clear. induction full as [|t full IH]; intros [|p l] L Z; try discriminate; [constructor|]. constructor.
  - destruct (Z t (or_introl eq_refl)) as [->|E]; [right; exists 0%R; split; [reflexivity|left; reflexivity]|left; exact E].
  - apply IH; [injection L as L; exact L|]. intros t' I. apply Z. right. exact I.
Qed.
Lemma nothing_compared : forall engine py wb model tr ta r, validate_workbook engine py wb model tr ta = Some r ->
  (forall ex inp c s, load_iscwsa_example py wb = Some ex -> engine inp = Some c -> metres_per_unit (ex_wellpath ex) s -> forall v, In v (ex_validation ex) -> ~ comparable c s v) -> rp_sources r = [] /\ exit_code r = 0.
Proof.
  intros engine py wb model tr ta r H N. assert (E : rp_sources r = []).
  { destruct (report_read _ _ _ _ _ _ _ H) as (ex & s & inp & c & L & M & _ & G & (rows & S & F) & _).
    assert (R : rows = []). { specialize (N ex inp c s L G M). clear -S N. induction S as [|v l k P S IH|v l k P S IH]; [reflexivity| |]; [elim (N v (or_introl eq_refl) P)|]. apply IH. intros v' I. apply N. right. exact I. }
    subst rows. inversion F. reflexivity. }
  split; [exact E|]. apply exit_code_spec. rewrite E. intros s [].
Qed.

(** ** concrete workbooks *)
Lemma book_loads : forall totals checks, (forall row, In row totals -> exists md nn, row = total_cells md nn) ->
  (forall row, In row checks -> exists md vals, length vals = 12 /\ row = Num md :: S_ "ABZ" :: map Num vals) ->
  exists ex, load_iscwsa_example no_text (book totals checks) = Some ex /\ ~ in_feet (ex_wellpath ex) /\ length (wp_stations (ex_wellpath ex)) = 2 /\
    cs_md (ex_totals ex) = map (fun row => to_float no_text (col 0 row)) totals /\
    cs_nev (ex_totals ex) = map (fun row => map (fun k => to_float no_text (col k row)) [1; 2; 3; 4; 5; 6]) totals /\
    ex_validation ex = map (fun row => mkVal (to_float no_text (col 0 row)) (lit "ABZ") (map (to_float no_text) (firstn 6 (skipn 2 row))) (map (to_float no_text) (firstn 6 (skipn 8 row)))) checks.
Proof.
  intros totals checks T C. unfold load_iscwsa_example.
  change (dget text_eqb (lit "Model") (book totals checks)) with (Some (mkSheet [term_cells] [])).
  change (dget text_eqb (lit "Wellpath") (book totals checks)) with (Some (mkSheet ([Blank] :: [Blank] :: map station_cells [0; 30]%R) [])).
  change (dget text_eqb (lit "TOTALS") (book totals checks)) with (Some (mkSheet ([Blank] :: (S_ "Md" :: names) :: totals) [])).
  change (dget text_eqb (lit "Validation") (book totals checks)) with (Some (mkSheet ([Blank] :: ([S_ "MD"; S_ "Source"] ++ names ++ names) :: checks) [])).
  change (dget text_eqb (lit "Readme") (book totals checks)) with (@None sheet). cbn zeta. cbn [sh_rows].
  assert (PT : parse_totals_sheet no_text ([Blank] :: (S_ "Md" :: names) :: totals) =
    Some (mkCov (map (fun row => to_float no_text (col 0 row)) totals) (map (fun row => map (fun k => to_float no_text (col k row)) [1; 2; 3; 4; 5; 6]) totals)
            (map (fun row => map (fun l => NaN) hla_cols) totals))).
  { unfold parse_totals_sheet. cbn [nth_error]. change (index_of "Md" (S_ "Md" :: names)) with (Some 0). cbv iota zeta.
    assert (D : data_rows ([Blank] :: (S_ "Md" :: names) :: totals) = totals).
    { unfold data_rows. cbn [skipn]. clear C. induction totals as [|row totals IH]; [reflexivity|]. cbn [filter]. destruct (T row (or_introl eq_refl)) as (md & nn & ->). cbn [total_cells numeric].
      f_equal. apply IH. intros r I. apply T. right. exact I. }
    rewrite D.
    assert (A : all_some (map (fun r => match nth_error r 0 with Some c => as_float no_text c | None => None end) totals) = Some (map (fun row => to_float no_text (col 0 row)) totals)).
    { apply all_some_forall. clear C D. induction totals as [|row totals IH]; [constructor|]. cbn [map]. constructor.
      - destruct (T row (or_introl eq_refl)) as (md & nn & ->). reflexivity.
      - apply IH. intros r I. apply T. right. exact I. }
    rewrite A. do 2 f_equal. all: apply map_ext_in; intros row I; destruct (T row I) as (md & nn & ->); reflexivity. }
  assert (PV : parse_validation_sheet no_text ([Blank] :: ([S_ "MD"; S_ "Source"] ++ names ++ names) :: checks) =
    Some (map (fun row => mkVal (to_float no_text (col 0 row)) (lit "ABZ") (map (to_float no_text) (firstn 6 (skipn 2 row))) (map (to_float no_text) (firstn 6 (skipn 8 row)))) checks)).
  { unfold parse_validation_sheet. destruct checks as [|row0 checks0] eqn:E; [reflexivity|]. rewrite <- E in *.
    assert (L : Nat.ltb (length ([Blank] :: ([S_ "MD"; S_ "Source"] ++ names ++ names) :: checks)) 3 = false) by (subst checks; reflexivity). rewrite L. cbn [nth]. cbv zeta.
    change (positions is_nev 0 ([S_ "MD"; S_ "Source"] ++ names ++ names)) with [2; 3; 4; 5; 6; 7; 8; 9; 10; 11; 12; 13].
    change (index_of "MD" ([S_ "MD"; S_ "Source"] ++ names ++ names)) with (Some 0). change (index_of "Source" ([S_ "MD"; S_ "Source"] ++ names ++ names)) with (Some 1). cbv iota. cbn [firstn skipn].
    clear L E T PT. induction checks as [|row checks IH]; [reflexivity|].
    assert (IH' : option_map (@concat validation) (all_some (map (validation_row no_text 0 1 [2; 3; 4; 5; 6; 7] [8; 9; 10; 11; 12; 13]) checks)) = Some (map (fun row => mkVal (to_float no_text (col 0 row)) (lit "ABZ") (map (to_float no_text) (firstn 6 (skipn 2 row))) (map (to_float no_text) (firstn 6 (skipn 8 row)))) checks)) by (apply IH; intros r I; apply C; right; exact I).
    destruct (C row (or_introl eq_refl)) as (md & vals & LV & ->). cbn [map all_some].
    destruct (all_some (map (validation_row no_text 0 1 [2; 3; 4; 5; 6; 7] [8; 9; 10; 11; 12; 13]) checks)) as [q|]; [|discriminate]. cbn [option_map] in IH'. injection IH' as IH'.
    do 13 (destruct vals as [|? vals]; try discriminate). cbn [map validation_row nth_error S_ all_some option_map float_cell as_float str to_float]. cbn [option_map concat app]. rewrite IH'. reflexivity. }
  rewrite PT, PV. change (parse_model_sheet no_text [term_cells]) with (parse_model_sheet no_text [term_cells]).
  destruct (parse_model_sheet no_text [term_cells]) as [[[h x] ts]|] eqn:PM; [|discriminate].
  destruct (parse_wellpath_sheet no_text ([Blank] :: [Blank] :: map station_cells [0; 30]%R)) as [wp|] eqn:PW; [|discriminate].
  eexists. split; [reflexivity|]. cbn [ex_wellpath ex_totals ex_validation cs_md cs_nev].
  assert (W : wp_units wp = lit "m" /\ length (wp_stations wp) = 2). { revert PW. cbv. intro H. injection H as <-. auto. }
  destruct W as [WU WL]. split; [intros (u & U); rewrite WU in U; discriminate|]. split; [exact WL|]. auto.
Qed.
