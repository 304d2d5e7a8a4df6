(** Workbooks for which the comparison misleads. *)
Require Import Reals ZArith Ascii String List Bool Lra Lia.
Require Import Verif.Base Verif.NumPy Verif.M_Utils Verif.M_DmsText Verif.M_Text Verif.M_Ingest Verif.Spec_Ingest.
Require Import Verif.P_Ingest Verif.P_Ingest4 Verif.P_Ingest7 Verif.M_Validate Verif.Spec_Validate Verif.P_Validate Verif.P_Validate2 Verif.P_Validate3.
Import ListNotations.
Open Scope list_scope.
Local Open Scope nat_scope.

Definition mk_totals (rows : list (R * R)) : list (list cell) := map (fun p => total_cells (fst p) (snd p)) rows.
Definition mk_checks (rows : list (R * list R)) : list (list cell) := map (fun p => Num (fst p) :: S_ "ABZ" :: map Num (snd p)) rows.
Lemma book_report : forall x totals checks tr ta, length totals <= 2 -> (forall md vals, In (md, vals) checks -> length vals = 12) ->
  exists r rows, validate_workbook (constant_engine x) no_text (book (mk_totals totals) (mk_checks checks)) (lit "M") tr ta = Some r /\
    (forall c, constant_engine x (mkInput [] NaN NaN NaN NaN NaN [] [] [] []) = Some c ->
       selects (comparable c 1) (map (fun p => mkVal (Fin (fst p)) (lit "ABZ") (map Fin (firstn 6 (snd p))) (map Fin (firstn 6 (skipn 6 (snd p))))) checks) rows /\
       Forall2 (describes_source tr ta c 1) rows (rp_sources r) /\
       length (rp_totals r) = length totals /\
       forall k md nn, nth_error totals k = Some (md, nn) -> exists o, nth_error (rp_totals r) k = Some o /\ describes_total tr ta 1 c (Fin md) (map Fin [nn; 0; 0; 0; 0; 0]%R) k o).
Proof.
  intros x totals checks tr ta LT LC.
  destruct (book_loads (mk_totals totals) (mk_checks checks)) as (ex & L & NF & LW & EM & EN & EV).
  { intros row I. apply in_map_iff in I. destruct I as ((md & nn) & <- & _). exists md, nn. reflexivity. }
  { intros row I. apply in_map_iff in I. destruct I as ((md & vals) & <- & I). exists md, vals. split; [exact (LC _ _ I)|reflexivity]. }
  assert (EV' : ex_validation ex = map (fun p => mkVal (Fin (fst p)) (lit "ABZ") (map Fin (firstn 6 (snd p))) (map Fin (firstn 6 (skipn 6 (snd p))))) checks).
  { rewrite EV. unfold mk_checks. rewrite map_map. apply map_ext_in. intros [md vals] I. specialize (LC _ _ I). cbn [fst snd skipn].
    do 13 (destruct vals as [|? vals]; try discriminate). reflexivity. }
  assert (EN' : cs_nev (ex_totals ex) = map (fun p => map Fin [snd p; 0; 0; 0; 0; 0]%R) totals) by (rewrite EN; unfold mk_totals; rewrite map_map; reflexivity).
  assert (EM' : cs_md (ex_totals ex) = map (fun p => Fin (fst p)) totals) by (rewrite EM; unfold mk_totals; rewrite map_map; reflexivity).
  assert (RN : exists r, validate_workbook (constant_engine x) no_text (book (mk_totals totals) (mk_checks checks)) (lit "M") tr ta = Some r).
  { apply report_runs. destruct (build_survey (ex_wellpath ex) (lit "M")) as [inp|] eqn:B.
    2: { unfold build_survey in B. destruct (wp_stations (ex_wellpath ex)); discriminate. }
    exists ex, inp. eexists. split; [exact L|]. split; [exact B|]. split; [reflexivity|]. split; [rewrite EM', map_length; exact LT|].
    cbn [cp_errors cp_md]. intros v covs y i s I D M E [(m & N & _) _]. rewrite EV' in I. apply in_map_iff in I. destruct I as ((md & vals) & <- & I). cbn [vl_source] in D.
    assert (covs = [mzero; mkM (mkV x 0 0) vzero vzero]) by (revert D; cbn; congruence). subst covs. split.
    - assert (G : i < length [0; 30]%R) by (apply nth_error_Some; cbn [cp_md] in N; congruence). exact G.
    - left. cbn [vl_calculated]. rewrite map_length, firstn_length, skipn_length. cbn [snd]. rewrite (LC _ _ I). reflexivity. }
  destruct RN as (r & RN). exists r. destruct (report_read _ _ _ _ _ _ _ RN) as (ex' & s & inp & c & L' & M & _ & G & (rows & S & F) & LR & T & _).
  assert (ex' = ex) by congruence. subst ex'. exists rows. split; [exact RN|]. intros c' G'. assert (c' = c) by (unfold constant_engine in *; congruence). subst c'.
  destruct M as [[IF _]|[_ ->]]; [contradiction|]. rewrite EV' in S. split; [exact S|]. split; [exact F|]. rewrite EM', map_length in LR. split; [exact LR|].
  intros k md nn N. apply T; [rewrite EM', nth_error_map, N; reflexivity|rewrite EN', nth_error_map, N; reflexivity].
Qed.
Definition tiny : R := (1 / 1000000)%R.
Definition milli : R := (1 / 1000)%R.
Lemma not_accepted : forall t v r q, (t <> 0)%R -> (tiny < Rabs (v - t))%R -> (milli * Rabs t < Rabs (v - t))%R -> ~ accepted milli tiny (Fin t :: r) (v :: q).
Proof.
  intros t v r q N A B [H|[_ H]]; inversion H as [|? ? ? ? P _]; subst.
  - destruct P as (t' & E & P). injection E as <-. lra.
  - destruct P as [E|(t' & E & [Z|P])]; [discriminate| |]; injection E as <-; [contradiction|lra].
Qed.
Lemma totals_ignored : exists r o, validate_workbook (constant_engine 0) no_text (book [total_cells 0 0; total_cells 30 5] []) (lit "M") (1 / 1000) (1 / 1000000) = Some r /\
  In o (rp_totals r) /\ tc_ok o = false /\ exit_code r = 0.
Proof.
  destruct (book_report 0 [(0, 0); (30, 5)]%R [] milli tiny) as (r & rows & V & P); [cbn; lia|intros md vals []|].
  destruct (P _ eq_refl) as (S & F & LT & T). destruct (T 1 30%R 5%R eq_refl) as (o & NO & m & NM & _ & _ & _ & OK). exists r, o. split; [exact V|].
  split; [exact (nth_error_In _ _ NO)|]. split.
  - destruct (tc_ok o) eqn:E; [|reflexivity]. exfalso. assert (A : accepted milli tiny (map Fin [5; 0; 0; 0; 0; 0]%R) (components m)) by (apply OK; reflexivity).
    cbn in NM. injection NM as <-. revert A. apply not_accepted; [lra| |]; cbn [mzero vzero r1 vx]; unfold tiny, milli, Rabs; repeat destruct Rcase_abs; lra.
  - apply exit_code_spec. inversion S; subst. inversion F as [E|]; subst. intros s [].
Qed.
Lemma totals_by_row : exists r o, validate_workbook (constant_engine 7) no_text (book [total_cells 30 7] []) (lit "M") (1 / 1000) (1 / 1000000) = Some r /\
  rp_totals r = [o] /\ tc_md o = Fin (30 * 1) /\ tc_workbook o = [Fin 7; Fin 0; Fin 0; Fin 0; Fin 0; Fin 0] /\ tc_ok o = false /\
  exists c m, constant_engine 7 (mkInput [] NaN NaN NaN NaN NaN [] [] [] []) = Some c /\ nth_error (cp_md c) 1 = Some 30%R /\ nth_error (cp_total c) 1 = Some m /\
    components m = [7; 0; 0; 0; 0; 0]%R.
Proof.
  destruct (book_report 7 [(30, 7)]%R [] milli tiny) as (r & rows & V & P); [cbn; lia|intros md vals []|].
  destruct (P _ eq_refl) as (S & F & LT & T). destruct (T 0 30%R 7%R eq_refl) as (o & NO & m & NM & MD & W & _ & OK). exists r, o. split; [exact V|].
  split. { destruct (rp_totals r) as [|o' [|]]; try discriminate. cbn in NO. congruence. }
  split; [apply MD; reflexivity|]. split; [exact W|]. split.
  - destruct (tc_ok o) eqn:E; [|reflexivity]. exfalso. assert (A : accepted milli tiny (map Fin [7; 0; 0; 0; 0; 0]%R) (components m)) by (apply OK; reflexivity).
    cbn in NM. injection NM as <-. revert A. apply not_accepted; [lra| |]; cbn [mzero vzero r1 vx]; unfold tiny, milli, Rabs; repeat destruct Rcase_abs; lra.
  - do 2 eexists. split; [reflexivity|]. repeat split.
Qed.
(** a workbook that is confirmed, and one with a row at a depth between the stations *)
Lemma close_self : forall x, close_to x x.
Proof. intro x. unfold close_to. replace (x - x)%R with 0%R by ring. rewrite Rabs_R0. pose proof (Rabs_pos x). assert (0 <= 1 / 10 ^ 5 * Rabs x)%R by (apply Rmult_le_pos; [|exact H]; apply Rlt_le; unfold Rdiv; rewrite Rmult_1_l; apply Rinv_0_lt_compat; apply pow_lt; lra). assert (0 < 1 / 10 ^ 8)%R by (unfold Rdiv; rewrite Rmult_1_l; apply Rinv_0_lt_compat; apply pow_lt; lra). lra. Qed.
Lemma zero_far : forall x, (1 <= x)%R -> ~ close_to 0 x.
Proof.
  intros x X C. unfold close_to in C. replace (0 - x)%R with (- x)%R in C by ring. rewrite Rabs_Ropp, Rabs_pos_eq in C by lra.
  assert (E8 : (10 ^ 8 = 100000000)%R) by (cbn; ring). assert (E5 : (10 ^ 5 = 100000)%R) by (cbn; ring). rewrite E8, E5 in C. lra.
Qed.
Lemma confirmed_book : forall t, exists r o, validate_workbook (constant_engine 7) no_text (book (mk_totals [(0, 0); (30, 7)]%R) (mk_checks [(30%R, [0; 0; 0; 0; 0; 0; t; 0; 0; 0; 0; 0]%R)])) (lit "M") milli tiny = Some r /\
  rp_sources r = [o] /\ sc_code o = lit "ABZ" /\ sc_md o = Fin 30 /\ sc_welleng o = [7; 0; 0; 0; 0; 0]%R /\
  (exit_code r = 0 <-> accepted milli tiny (map Fin [t; 0; 0; 0; 0; 0]%R) [7; 0; 0; 0; 0; 0]%R).
Proof.
  intro t. destruct (book_report 7 [(0, 0); (30, 7)]%R [(30%R, [0; 0; 0; 0; 0; 0; t; 0; 0; 0; 0; 0]%R)] milli tiny) as (r & rows & V & P).
  { cbn; lia. } { intros md vals [E|[]]. injection E as <- <-. reflexivity. }
  destruct (P _ eq_refl) as (S & F & _). cbn [map fst snd firstn skipn] in S. clear P.
  match type of S with selects (comparable ?c 1) [?v] _ => assert (C : comparable c 1 v) end.
  { split; [eexists; reflexivity|]. exists 30%R, 1. split; [reflexivity|]. rewrite Rmult_1_r. split.
    - exists 30%R. split; [reflexivity|apply close_self].
    - intros j m L N. assert (j = 0) by lia. subst j. cbn in N. injection N as <-. apply zero_far. lra. }
  inversion S as [|? ? ? _ S' |? ? ? NC _]; subst; [|contradiction]. inversion S'; subst. inversion F as [|? o ? l D F' E1 E2]; subst. inversion F'; subst.
  assert (E3 : rp_sources r = [o]) by (symmetry; assumption).
  exists r, o. split; [exact V|]. split; [exact E3|]. destruct D as (DC & DM & _ & _ & x & i & covs & m & full & EX & ST & DG & NM & W & TG & OK).
  split; [exact DC|]. split; [exact DM|]. cbn [vl_md] in EX. injection EX as <-. rewrite Rmult_1_r in ST.
  assert (i = 1). { destruct ST as [(m' & N & CL) _]. destruct i as [|[|i]]; [|reflexivity|destruct i; discriminate]. cbn in N. injection N as <-. elim (zero_far 30 ltac:(lra) CL). }
  subst i. assert (EC : covs = [mzero; mkM (mkV 7 0 0) vzero vzero]) by (revert DG; cbn; congruence). subst covs. cbn in NM. injection NM as <-.
  split; [exact W|]. destruct TG as [[_ ->]|(q & Q & _)]; [|discriminate]. cbn [vl_calculated] in OK.
  rewrite (proj1 (exit_code_spec r)), E3. cbn [components r1 r2 r3 vzero vx vy vz] in OK. rewrite <- OK. split; intro H; [apply H; left; reflexivity|]. intros s [<-|[]]. exact H.
Qed.
Lemma between_stations : exists r, validate_workbook (constant_engine 7) no_text (book (mk_totals [(0, 0); (30, 7)]%R) (mk_checks [(15%R, [0; 0; 0; 0; 0; 0; 9; 9; 9; 9; 9; 9]%R)])) (lit "M") milli tiny = Some r /\
  rp_sources r = [] /\ rp_missing r = [] /\ exit_code r = 0.
Proof.
  destruct (book_report 7 [(0, 0); (30, 7)]%R [(15%R, [0; 0; 0; 0; 0; 0; 9; 9; 9; 9; 9; 9]%R)] milli tiny) as (r & rows & V & P).
  { cbn; lia. } { intros md vals [E|[]]. injection E as <- <-. reflexivity. }
  exists r. split; [exact V|]. destruct (P _ eq_refl) as (S & F & _). cbn [map fst snd firstn skipn] in S.
  assert (R : rp_sources r = []).
  { match type of S with selects (comparable ?c 1) [?v] _ => assert (C : ~ comparable c 1 v) end.
    { intros (_ & x & i & E & (m & N & CL) & _). cbn [vl_md] in E. injection E as <-. rewrite Rmult_1_r in CL. destruct i as [|[|i]]; [| |destruct i; discriminate]; cbn in N; injection N as <-.
      - apply (zero_far 15); [lra|exact CL].
      - unfold close_to in CL. assert (E8 : (10 ^ 8 = 100000000)%R) by (cbn; ring). assert (E5 : (10 ^ 5 = 100000)%R) by (cbn; ring). rewrite E8, E5 in CL.
        rewrite (Rabs_pos_eq (30 - 15)), (Rabs_pos_eq 15) in CL by lra. lra. }
    inversion S as [|? ? ? PC _|? ? ? _ S']; subst; [contradiction|]. inversion S'; subst. inversion F. reflexivity. }
  split; [exact R|]. split; [|apply exit_code_spec; rewrite R; intros s []].
  destruct (report_read _ _ _ _ _ _ _ V) as (ex & s & inp & c & L & _ & _ & G & _ & _ & _ & MI & _). destruct (rp_missing r) as [|n l] eqn:E; [reflexivity|].
  exfalso. destruct (proj1 (MI n) (or_introl eq_refl)) as [(t & IT & ET) NM]. apply NM.
  assert (X : n = lit "ABZ").
  { subst n. clear -L IT. destruct (workbook_parts _ _ _ L) as ((sh & GS & PM) & _). revert GS PM. cbn [book dget]. change (text_eqb (lit "Model") (lit "Model")) with true. cbv iota. intros GS PM.
    injection GS as <-. cbn [sh_rows] in PM. revert PM. unfold parse_model_sheet, parse_rows, term_cells. cbn [row_entry truthy row_term at_or_none nth numeric S_ str andb length Nat.ltb Nat.leb].
    intro PM. assert (ET : ex_terms ex = snd (fst ([] : list nat, ex_header ex), ex_terms ex)) by reflexivity. cbn in PM. injection PM as _ _ PM. rewrite <- PM in IT. destruct IT as [<-|[]]. reflexivity. }
  subst n. exists [mzero; mkM (mkV 7 0 0) vzero vzero]. unfold constant_engine in G. injection G as <-. rewrite X. reflexivity.
Qed.
