(** The Validation sheet. *)
Require Import Reals ZArith Ascii String List Bool Lra Lia.
Require Import Verif.Base Verif.NumPy Verif.M_Utils Verif.M_DmsText.
Require Import Verif.M_Text Verif.Spec_Text Verif.P_Text Verif.M_Ingest Verif.Spec_Ingest Verif.P_Ingest Verif.P_Ingest2 Verif.P_Ingest4.
Import ListNotations.
Open Scope list_scope.
Local Open Scope nat_scope.

Lemma is_nev_spec : forall c, is_nev c = true <-> covariance_name c.
Proof.
  intro c. unfold is_nev, covariance_name. rewrite existsb_exists. split; intros (l & I & H); exists l; (split; [exact I|]); apply is_label_spec; exact H.
Qed.
Lemma positions_spec : forall p row k j i, nth_error (positions p k row) j = Some i <->
  k <= i /\ (exists c, nth_error row (i - k) = Some c /\ p c = true) /\ length (filter p (firstn (i - k) row)) = j.
Proof.
  intros p row. induction row as [|c row IH]; intros k j i; cbn [positions].
  - split; [destruct j; discriminate|]. intros (_ & (c & H & _) & _). destruct (i - k); discriminate.
  - assert (Shift : forall q, S k <= i -> i - k = S (i - S k) /\ (q = q :> nat)) by (intros; lia).
    destruct (p c) eqn:P.
    + destruct j as [|j]; cbn [nth_error].
      * split.
        { intro H. injection H as <-. rewrite Nat.sub_diag. split; [lia|]. split; [exists c; auto|reflexivity]. }
        { intros (L & _ & C). destruct (Nat.eq_dec i k) as [->|N]; [reflexivity|]. destruct (Shift 0) as [E _]; [lia|]. rewrite E in C. cbn [firstn filter] in C.
          rewrite P in C. discriminate. }
      * rewrite IH. split.
        { intros (L & H & C). destruct (Shift 0 L) as [E _]. rewrite E. split; [lia|]. split; [exact H|]. cbn [firstn filter]. rewrite P. cbn [length]. rewrite C. reflexivity. }
        { intros (L & H & C). destruct (Nat.eq_dec i k) as [->|N]; [rewrite Nat.sub_diag in C; discriminate|]. destruct (Shift 0) as [E _]; [lia|].
          rewrite E in H, C. cbn [firstn filter] in C. rewrite P in C. cbn [length] in C. split; [lia|]. split; [exact H|]. lia. }
    + rewrite IH. split.
      * intros (L & H & C). destruct (Shift 0 L) as [E _]. rewrite E. split; [lia|]. split; [exact H|]. cbn [firstn filter]. rewrite P. exact C.
      * intros (L & H & C). destruct (Nat.eq_dec i k) as [->|N].
        { rewrite Nat.sub_diag in H. destruct H as (c' & H & Q). cbn in H. injection H as <-. congruence. }
        { destruct (Shift 0) as [E _]; [lia|]. rewrite E in H, C. cbn [firstn filter] in C. rewrite P in C. split; [lia|]. auto. }
Qed.
Lemma kth_spec : forall header k i, nth_error (positions is_nev 0 header) k = Some i <-> kth_covariance header k i.
Proof.
  intros header k i. rewrite positions_spec, Nat.sub_0_r. unfold kth_covariance. split.
  - intros (_ & (c & H & N) & L). split; [exists c; split; [exact H|apply is_nev_spec; exact N]|]. exists (filter is_nev (firstn i header)).
    split; [apply filter_selects; apply is_nev_spec|exact L].
  - intros ((c & H & N) & b & S & L). split; [lia|]. split; [exists c; split; [exact H|apply is_nev_spec; exact N]|].
    rewrite <- (selects_filter _ _ _ is_nev_spec _ _ S). exact L.
Qed.
Lemma nth_firstn6 : forall (A : Type) n (l : list A) k x, nth_error (firstn n l) k = Some x <-> k < n /\ nth_error l k = Some x.
Proof.
  intros A n. induction n as [|n IH]; intros l k x; [cbn; split; [destruct k; discriminate|intros [H _]; lia]|].
  destruct l as [|a l]; [cbn; split; [destruct k; discriminate|intros [_ H]; destruct k; discriminate]|]. destruct k as [|k]; cbn.
  - split; [intro H; split; [lia|exact H]|tauto].
  - rewrite IH. split; intros [H E]; split; auto; lia.
Qed.
Lemma nth_skipn6 : forall (A : Type) n (l : list A) k, nth_error (skipn n l) k = nth_error l (n + k).
Proof. intros A n. induction n as [|n IH]; intros l k; [reflexivity|]. destruct l; [destruct k; reflexivity|]. apply IH. Qed.
Lemma map_cells : forall py r idx d, all_some (map (fun i => option_map (to_float py) (nth_error r i)) idx) = Some d ->
  forall k x, nth_error d k = Some x <-> exists i, nth_error idx k = Some i /\ x = to_float py (col i r).
Proof.
  intros py r idx d H. apply all_some_forall in H. induction H as [|i y idx d E H IH]; intros k x.
  - split; [destruct k; discriminate|]. intros (i & N & _). destruct k; discriminate.
  - destruct k as [|k]; cbn [nth_error]; [|apply IH]. destruct (nth_error r i) as [c|] eqn:C; [|discriminate]. cbn in E. injection E as <-.
    assert (G : to_float py c = to_float py (col i r)) by (unfold col; rewrite (nth_error_nth _ _ _ C); reflexivity).
    split; [intro J; injection J as <-; eauto|]. intros (i' & J & ->). injection J as <-. congruence.
Qed.
Lemma validation_row_cases : forall py header r out,
  let i := match index_of "MD" header with Some i => i | None => 0 end in
  let j := match index_of "Source" header with Some i => i | None => 1 end in
  let p := positions is_nev 0 header in
  validation_row py i j (firstn 6 p) (firstn 6 (skipn 6 p)) r = Some out ->
  (~ validated header r /\ out = []) \/ (validated header r /\ exists v, out = [v] /\ describes_validation py header r v).
Proof.
  intros py header r out i j p H. unfold validation_row in H. destruct (nth_error r i) as [md|] eqn:MD; [|discriminate].
  destruct (nth_error r j) as [src|] eqn:SRC; [|discriminate].
  pose proof (index_or "MD" header 0) as NI. fold i in NI. pose proof (index_or "Source" header 1) as NJ. fold j in NJ.
  assert (CI : col i r = md) by (unfold col; apply nth_error_nth; exact MD). assert (CJ : col j r = src) by (unfold col; apply nth_error_nth; exact SRC).
  assert (VI : validated header r <-> md <> Blank /\ src <> Blank).
  { split.
    - intros (i' & j' & A & B & C & D). rewrite (named_or_unique _ _ _ _ _ A NI) in C. rewrite (named_or_unique _ _ _ _ _ B NJ) in D. rewrite CI in C. rewrite CJ in D. auto.
    - intros [A B]. exists i, j. rewrite CI, CJ. auto. }
  assert (D : (md = Blank \/ src = Blank) \/ (md <> Blank /\ src <> Blank)) by (destruct md; [left; auto| | | |]; destruct src; try (left; right; reflexivity); right; split; discriminate).
  destruct D as [D|D].
  - left. split; [rewrite VI; tauto|]. destruct D as [->| ->]; [|destruct md]; injection H as <-; reflexivity.
  - right. split; [apply VI; exact D|].
    assert (H' : match all_some (map (fun i => option_map (to_float py) (nth_error r i)) (firstn 6 p)),
                   all_some (map (fun i => option_map (to_float py) (nth_error r i)) (firstn 6 (skipn 6 p))), float_cell py md with
             | Some d, Some c, Some m => Some [mkVal m (str py src) d c] | _, _, _ => None end = Some out).
    { destruct D as [D1 D2]. destruct md; [contradiction| | | |]; destruct src; try contradiction; exact H. }
    destruct (all_some (map (fun i => option_map (to_float py) (nth_error r i)) (firstn 6 p))) as [d|] eqn:DG; [|discriminate].
    destruct (all_some (map (fun i => option_map (to_float py) (nth_error r i)) (firstn 6 (skipn 6 p)))) as [c|] eqn:CL; [|discriminate].
    destruct (float_cell py md) as [m|] eqn:FM; [|discriminate]. injection H' as <-. eexists. split; [reflexivity|].
    exists i, j, md, src. destruct D as [D1 D2]. split; [exact NI|]. split; [exact NJ|]. split; [exact MD|]. split; [exact SRC|]. split; [exact D1|]. split; [exact D2|].
    cbn [vl_md vl_source vl_diagnostic vl_calculated].
    split; [destruct md; [contradiction| | | |]; exact FM|]. split; [reflexivity|]. split; intros k x.
    + rewrite (map_cells _ _ _ _ DG). split.
      * intros (q & N & E). apply nth_firstn6 in N. destruct N as [L N]. split; [exact L|]. exists q. split; [apply kth_spec; exact N|exact E].
      * intros (L & q & N & E). exists q. split; [apply nth_firstn6; split; [exact L|apply kth_spec; exact N]|exact E].
    + rewrite (map_cells _ _ _ _ CL). split.
      * intros (q & N & E). apply nth_firstn6 in N. destruct N as [L N]. rewrite nth_skipn6 in N. split; [exact L|]. exists q. split; [apply kth_spec; exact N|exact E].
      * intros (L & q & N & E). exists q. split; [apply nth_firstn6; split; [exact L|rewrite nth_skipn6; apply kth_spec; exact N]|exact E].
Qed.
Lemma validation_read : forall py rows vs, parse_validation_sheet py rows = Some vs ->
  (length rows < 3 -> vs = []) /\
  (3 <= length rows -> exists header data, nth_error rows 1 = Some header /\ selects (validated header) (skipn 2 rows) data /\
     Forall2 (describes_validation py header) data vs).
Proof.
  intros py rows vs H. unfold parse_validation_sheet in H. destruct (Nat.ltb_spec (length rows) 3) as [L|L].
  - injection H as <-. split; [reflexivity|lia].
  - split; [lia|]. intros _. exists (nth 1 rows []).
    destruct (all_some (map (validation_row py (match index_of "MD" (nth 1 rows []) with Some i => i | None => 0 end)
       (match index_of "Source" (nth 1 rows []) with Some i => i | None => 1 end) (firstn 6 (positions is_nev 0 (nth 1 rows [])))
       (firstn 6 (skipn 6 (positions is_nev 0 (nth 1 rows []))))) (skipn 2 rows))) as [outs|] eqn:E; [|discriminate].
    cbn [option_map] in H. injection H as <-. apply all_some_forall in E.
    assert (NE : nth_error rows 1 = Some (nth 1 rows [])) by (apply nth_error_nth'; lia). clear L.
    assert (G : exists data, selects (validated (nth 1 rows [])) (skipn 2 rows) data /\ Forall2 (describes_validation py (nth 1 rows [])) data (concat outs)).
    { induction E as [|r out l outs R E (data & S & F)]; [exists []; split; constructor|].
      destruct (validation_row_cases _ _ _ _ R) as [[N ->]|(V & v & -> & D)].
      - exists data. split; [apply sel_drop; assumption|exact F].
      - exists (r :: data). split; [apply sel_keep; assumption|]. constructor; assumption. }
    destruct G as (data & S & F). exists data. split; [exact NE|split; assumption].
Qed.
