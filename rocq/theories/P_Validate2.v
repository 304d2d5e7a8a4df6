(** The report on a workbook. *)
Require Import Reals ZArith Ascii String List Bool Lra Lia.
Require Import Verif.Base Verif.NumPy Verif.M_Utils Verif.M_DmsText Verif.M_Text Verif.M_Ingest Verif.Spec_Ingest.
Require Import Verif.P_Ingest Verif.P_Ingest4 Verif.P_Ingest7 Verif.M_Validate Verif.Spec_Validate Verif.P_Validate.
Import ListNotations.
Open Scope list_scope.
Local Open Scope nat_scope.

(** ** the survey *)
Lemma prefix_rest_spec : forall p s r, prefix_rest p s = Some r <-> s = p ++ r.
Proof.
  induction p as [|a p IH]; intros [|b s] r; cbn; split; intro H; try discriminate; try congruence.
  - destruct (Ascii.eqb_spec a b) as [->|N]; [|discriminate]. apply IH in H. congruence.
  - injection H as -> ->. rewrite Ascii.eqb_refl. apply IH. reflexivity.
Qed.
Lemma scale_spec : forall wp, metres_per_unit wp (depth_scale wp).
Proof.
  intro wp. unfold metres_per_unit, depth_scale, starts_with, in_feet. destruct (prefix_rest (lit "ft") (wp_units wp)) as [r|] eqn:E.
  - left. split; [|reflexivity]. exists r. apply prefix_rest_spec. exact E.
  - right. split; [|reflexivity]. intros (u & U). apply prefix_rest_spec in U. congruence.
Qed.
Lemma input_spec : forall wp model inp, build_survey wp model = Some inp -> describes_input wp model (depth_scale wp) inp /\ wp_stations wp <> [].
Proof.
  intros wp model inp H. unfold build_survey in H. destruct (wp_stations wp) as [|st ss] eqn:E; [discriminate|]. rewrite <- E in H. split; [|discriminate].
  assert (X : inp = mkInput (wp_name wp) (wp_latitude wp) (wp_g wp) (wp_btotal wp) (wp_dip wp) (wp_declination wp)
              (map (fun s => scaled_by (depth_scale wp) (nth 0 s NaN)) (wp_stations wp))
              (map (fun s => nth 1 s NaN) (wp_stations wp)) (map (fun s => nth 2 s NaN) (wp_stations wp)) model) by congruence.
  subst inp. unfold describes_input. cbn [si_name si_latitude si_g si_btotal si_dip si_declination si_md si_inc si_azi si_model].
  rewrite !map_length. repeat (split; [reflexivity|]). intros k md inc azi rest K. rewrite !nth_error_map, K. cbn. auto.
Qed.

(** ** the rows compared *)
Lemma isclose_spec : forall m b, isclose m b = true <-> exists x, b = Fin x /\ close_to m x.
Proof.
  intros m [r| | |]; cbn.
  - unfold close_to. destruct (Rle_dec (Rabs (m - r)) (1 / (10 * (10 * (10 * (10 * (10 * (10 * (10 * (10 * 1)))))))) + 1 / (10 * (10 * (10 * (10 * (10 * 1))))) * Rabs r)) as [L|L]; split; intro H; try discriminate; try reflexivity.
    + exists r. split; [reflexivity|]. exact L.
    + destruct H as (x & E & H). injection E as <-. elim L. exact H.
  - split; [discriminate|intros (x & E & _); discriminate].
  - split; [discriminate|intros (x & E & _); discriminate].
  - split; [discriminate|intros (x & E & _); discriminate].
Qed.
Lemma scaled_fin : forall s e y, scaled_by s e = Fin y <-> exists x, e = Fin x /\ y = (x * s)%R.
Proof.
  intros s e y. split.
  - destruct e as [x| | |]; cbn; try discriminate.
    + intro H. injection H as <-. exists x. auto.
    + destruct (Rlt_dec 0 s); [discriminate|]. destruct (Rlt_dec s 0); discriminate.
    + destruct (Rlt_dec 0 s); [discriminate|]. destruct (Rlt_dec s 0); discriminate.
  - intros (x & -> & ->). reflexivity.
Qed.
Lemma first_where_some : forall (A : Type) (p : A -> bool) l i, first_where p l = Some i <->
  (exists a, nth_error l i = Some a /\ p a = true) /\ forall j a, j < i -> nth_error l j = Some a -> p a = false.
Proof.
  intros A p. induction l as [|a l IH]; intro i; cbn.
  - split; [discriminate|]. intros [(x & E & _) _]. destruct i; discriminate.
  - destruct (p a) eqn:P.
    + split.
      * intro H. injection H as <-. split; [exists a; auto|]. intros j b L. lia.
      * intros [_ F]. destruct i as [|i]; [reflexivity|]. specialize (F 0 a ltac:(lia) eq_refl). congruence.
    + destruct (first_where p l) as [k|] eqn:E; cbn.
      * split.
        -- intro H. injection H as <-. destruct (proj1 (IH k) eq_refl) as [X F]. split; [exact X|]. intros [|j] b L N; [cbn in N; congruence|]. apply (F j); [lia|exact N].
        -- intros [(x & N & X) F]. destruct i as [|i]; [cbn in N; congruence|]. f_equal. assert (Some k = Some i) by (apply IH; split; [exists x; auto|]; intros j b L M; apply (F (S j)); [lia|exact M]). congruence.
      * split; [discriminate|]. intros [(x & N & X) F]. destruct i as [|i]; [cbn in N; congruence|].
        assert (None = Some i) by (apply IH; split; [exists x; auto|]; intros j b L M; apply (F (S j)); [lia|exact M]). discriminate.
Qed.
Lemma first_where_none : forall (A : Type) (p : A -> bool) l, first_where p l = None -> forall i a, nth_error l i = Some a -> p a = false.
Proof.
  intros A p. induction l as [|a l IH]; cbn; intros H i b N; [destruct i; discriminate|]. destruct (p a) eqn:P; [discriminate|].
  destruct (first_where p l); [discriminate|]. destruct i as [|i]; [cbn in N; congruence|]. exact (IH eq_refl i b N).
Qed.
Lemma station_spec : forall c s v i, first_where (fun m => isclose m (scaled_by s (vl_md v))) (cp_md c) = Some i <->
  exists x, vl_md v = Fin x /\ station_at c (x * s) i.
Proof.
  intros c s v i. rewrite first_where_some. split.
  - intros [(m & N & I) F]. apply isclose_spec in I. destruct I as (y & E & I). apply scaled_fin in E. destruct E as (x & E & ->).
    exists x. split; [exact E|]. split; [exists m; auto|]. intros j m' L N' C. specialize (F j m' L N').
    assert (isclose m' (scaled_by s (vl_md v)) = true); [|congruence]. apply isclose_spec. exists (x * s)%R. split; [apply scaled_fin; exists x; auto|exact C].
  - intros (x & E & (m & N & C) & F). split.
    + exists m. split; [exact N|]. apply isclose_spec. exists (x * s)%R. split; [apply scaled_fin; exists x; auto|exact C].
    + intros j m' L N'. destruct (isclose m' (scaled_by s (vl_md v))) eqn:I; [|reflexivity]. apply isclose_spec in I. destruct I as (y & EY & I).
      apply scaled_fin in EY. destruct EY as (x' & E' & ->). assert (x' = x) by congruence. subst x'. elim (F j m' L N'). exact I.
Qed.
Lemma pack_components : forall m, pack m = components m. Proof. reflexivity. Qed.
Lemma compare_source_cases : forall tr ta s c v l, compare_source tr ta s c v = Some l ->
  (comparable c s v /\ exists o, l = [o] /\ describes_source tr ta c s v o) \/ (~ comparable c s v /\ l = []).
Proof.
  intros tr ta s c v l H. unfold compare_source in H. destruct (dget text_eqb (vl_source v) (cp_errors c)) as [covs|] eqn:D.
  - destruct (first_where (fun m => isclose m (scaled_by s (vl_md v))) (cp_md c)) as [i|] eqn:W.
    + destruct (nth_error covs i) as [m|] eqn:M; [|discriminate]. destruct (judge tr ta (vl_calculated v) (pack m)) as [[[a r] ok]|] eqn:J; [|discriminate].
      injection H as <-. pose proof W as W'. apply station_spec in W'. destruct W' as (x & E & A). left. split.
      * split; [exists covs; exact D|]. exists x, i. auto.
      * eexists. split; [reflexivity|]. unfold describes_source. cbn [sc_code sc_md sc_diagnostic sc_calculated sc_welleng sc_ok]. repeat (split; [reflexivity|]).
        destruct (judge_targets tr ta (vl_calculated v) (pack m) (a, r, ok) eq_refl J) as (full & T & J' & L).
        exists x, i, covs, m, full. repeat (split; [eassumption || reflexivity|]). apply (judge_same tr ta full (pack m) a r ok); [exact L|exact J'].
    + injection H as <-. right. split; [|reflexivity]. intros (_ & x & i & E & A).
      assert (G : first_where (fun m => isclose m (scaled_by s (vl_md v))) (cp_md c) = Some i) by (apply station_spec; exists x; auto). congruence.
  - injection H as <-. right. split; [|reflexivity]. intros ((covs & E) & _). congruence.
Qed.
Lemma concat_selects : forall (A B : Type) (f : A -> option (list B)) (P : A -> Prop) (D : A -> B -> Prop),
  (forall v l, f v = Some l -> (P v /\ exists o, l = [o] /\ D v o) \/ (~ P v /\ l = [])) ->
  forall vs ll, all_some (map f vs) = Some ll -> exists picked, selects P vs picked /\ Forall2 D picked (concat ll).
Proof.
  intros A B f P D H vs ll E. apply all_some_forall in E. induction E as [|v l vs ll E F (picked & S & G)].
  - exists []. split; constructor.
  - destruct (H _ _ E) as [(PV & o & -> & DV)|(PV & ->)].
    + exists (v :: picked). split; constructor; assumption.
    + exists picked. split; [constructor; assumption|exact G].
Qed.

(** ** the totals *)
Lemma totals_spec : forall tr ta s total mds nevs l, Forall (fun nev => length nev = 6) nevs -> compare_totals tr ta s total mds nevs = Some l ->
  length l = length mds /\ forall k md nev, nth_error mds k = Some md -> nth_error nevs k = Some nev ->
    exists o m, nth_error l k = Some o /\ nth_error total k = Some m /\ (forall x, md = Fin x -> tc_md o = Fin (x * s)) /\
      tc_workbook o = nev /\ tc_welleng o = components m /\ (tc_ok o = true <-> accepted tr ta nev (components m)).
Proof.
  intros tr ta s total mds. revert total. induction mds as [|md mds IH]; intros total nevs l L H.
  - cbn in H. injection H as <-. split; [reflexivity|]. intros [|k] md nev N; discriminate.
  - cbn in H. destruct nevs as [|nev nevs]; [discriminate|]. destruct total as [|m total]; [discriminate|].
    destruct (judge tr ta nev (pack m)) as [[[a r] ok]|] eqn:J; [|discriminate]. destruct (compare_totals tr ta s total mds nevs) as [q|] eqn:Q; [|discriminate].
    injection H as <-. inversion L as [|? ? L0 L1]; subst. destruct (IH _ _ _ L1 Q) as [LQ F]. split; [cbn; congruence|].
    intros [|k] md' nev' A B; [|exact (F k md' nev' A B)]. cbn in A, B. injection A as <-. injection B as <-.
    exists (mkTotals (scaled_by s md) nev (pack m) a r ok), m. cbn [tc_md tc_workbook tc_welleng tc_ok nth_error]. repeat (split; [reflexivity|]).
    split; [intros x ->; reflexivity|]. repeat (split; [reflexivity|]). apply (judge_same tr ta nev (pack m) a r ok); [exact L0|exact J].
Qed.
Lemma totals_run : forall tr ta s mds total nevs, Forall (fun nev => length nev = 6) nevs -> length nevs = length mds ->
  ((exists l, compare_totals tr ta s total mds nevs = Some l) <-> length mds <= length total).
Proof.
  intros tr ta s mds. induction mds as [|md mds IH]; intros total nevs L E.
  - split; [intros _; cbn; lia|]. intros _. eexists. reflexivity.
  - destruct nevs as [|nev nevs]; [discriminate|]. injection E as E. inversion L as [|? ? L0 L1]; subst. destruct total as [|m total]; cbn [compare_totals length].
    + split; [intros (l & H); discriminate|lia].
    + destruct (proj2 (judge_runs tr ta nev (pack m) eq_refl) (or_introl L0)) as ([[a r] ok] & ->). specialize (IH total nevs L1 E). split.
      * intros (l & H). destruct (compare_totals tr ta s total mds nevs) as [q|]; [|discriminate]. apply le_n_S. apply IH. exists q. reflexivity.
      * intro LE. destruct IH as [_ IH]. destruct IH as (q & ->); [lia|]. eexists. reflexivity.
Qed.

(** ** sorted texts *)
Lemma text_leb_before : forall a b, a <> b -> (text_leb a b = true <-> before a b).
Proof.
  induction a as [|x a IH]; intros [|y b] N; cbn [text_leb].
  - contradiction.
  - split; [|reflexivity]. intros _. left. exists (y :: b). split; [discriminate|reflexivity].
  - split; [discriminate|]. intros [(z & Z & E)|(p & u & w & a' & b' & _ & E & _)]; [discriminate|destruct p; discriminate].
  - destruct (Ascii.eqb_spec x y) as [->|XY].
    + assert (AB : a <> b) by congruence. rewrite (IH b AB). split.
      * intros [(z & Z & ->)|(p & u & w & a' & b' & -> & -> & L)]; [left; exists z; auto|]. right. exists (y :: p), u, w, a', b'. auto.
      * intros [(z & Z & E)|(p & u & w & a' & b' & E & F & L)].
        -- left. exists z. split; [exact Z|]. injection E as E. exact E.
        -- destruct p as [|q p]; cbn in E, F; [injection E as -> ->; injection F as -> ->; lia|]. injection E as -> ->. injection F as ->.
           right. exists p, u, w, a', b'. auto.
    + rewrite Nat.ltb_lt. split.
      * intro L. right. exists [], x, y, a, b. auto.
      * intros [(z & Z & E)|(p & u & w & a' & b' & E & F & L)]; [cbn in E; congruence|]. destruct p as [|q p]; cbn in E, F; [|congruence].
        injection E as -> ->. injection F as -> ->. exact L.
Qed.
Lemma text_leb_total : forall a b, text_leb a b = false -> text_leb b a = true.
Proof.
  induction a as [|x a IH]; intros [|y b]; cbn [text_leb]; try discriminate; try reflexivity. destruct (Ascii.eqb_spec x y) as [->|N].
  - rewrite Ascii.eqb_refl. apply IH.
  - intro H. destruct (Ascii.eqb_spec y x) as [E|_]; [congruence|]. rewrite Nat.ltb_ge in H. apply Nat.ltb_lt.
    assert (nat_of_ascii x <> nat_of_ascii y). { intro E. apply N. rewrite <- (ascii_nat_embedding x), <- (ascii_nat_embedding y), E. reflexivity. } lia.
Qed.
Lemma text_leb_trans : forall a b c, text_leb a b = true -> text_leb b c = true -> text_leb a c = true.
Proof.
  induction a as [|x a IH]; intros [|y b] [|z c]; cbn [text_leb]; try discriminate; try reflexivity.
  destruct (Ascii.eqb_spec x y) as [->|XY].
  - destruct (Ascii.eqb_spec y z) as [->|YZ]; [apply IH|auto].
  - rewrite Nat.ltb_lt. destruct (Ascii.eqb_spec y z) as [->|YZ].
    + destruct (Ascii.eqb_spec x z) as [->|XZ]; [lia|]. intros L _. apply Nat.ltb_lt. exact L.
    + rewrite Nat.ltb_lt. intros L M. destruct (Ascii.eqb_spec x z) as [->|XZ]; [lia|]. apply Nat.ltb_lt. lia.
Qed.
Lemma before_neq : forall a b, before a b -> a <> b.
Proof.
  intros a b [(x & X & E)|(p & x & y & a' & b' & -> & -> & L)] F.
  - subst a. assert (length b = length (b ++ x)) by congruence. rewrite app_length in H. destruct x; [contradiction|cbn in H; lia].
  - apply app_inv_head in F. injection F as -> _. lia.
Qed.
Lemma before_trans : forall a b c, before a b -> before b c -> before a c.
Proof.
  intros a b c P Q. pose proof (before_neq _ _ P) as NP. pose proof (before_neq _ _ Q) as NQ.
  pose proof (proj2 (text_leb_before _ _ NP) P) as P'. pose proof (proj2 (text_leb_before _ _ NQ) Q) as Q'.
  destruct (list_eq_dec ascii_dec a c) as [->|N].
  - exfalso. assert (X : forall u v, text_leb u v = true -> text_leb v u = true -> u = v).
    { clear. induction u as [|x u IH]; intros [|y v]; cbn [text_leb]; try discriminate; [reflexivity|]. destruct (Ascii.eqb_spec x y) as [->|N].
      - rewrite Ascii.eqb_refl. intros A B. f_equal. apply IH; assumption.
      - destruct (Ascii.eqb_spec y x) as [E|_]; [congruence|]. rewrite !Nat.ltb_lt. lia. }
    apply NP. apply X; assumption.
  - apply (text_leb_before a c N). eapply text_leb_trans; eassumption.
Qed.
Lemma insert_text_in : forall x l y, In y (insert_text x l) <-> y = x \/ In y l.
Proof.
  intros x l y. induction l as [|z l IH]; cbn; [intuition|]. destruct (text_eqb x z) eqn:E; [apply text_eqb_spec in E; subst z; cbn; intuition|].
  destruct (text_leb x z); cbn; [intuition|]. rewrite IH. intuition.
Qed.
Lemma insert_text_sorted : forall x l, alphabetical l -> alphabetical (insert_text x l).
Proof.
  intros x l. induction l as [|z l IH]; cbn; intro H; [split; [intros b []|exact I]|]. destruct H as [H1 H2].
  destruct (text_eqb x z) eqn:E; [split; assumption|]. apply text_eqb_neq in E. destruct (text_leb x z) eqn:L.
  - split; [|split; assumption]. assert (B : before x z) by (apply (text_leb_before x z E); exact L). intros b [<-|I]; [exact B|]. exact (before_trans _ _ _ B (H1 b I)).
  - split; [|apply IH; exact H2]. intros b I. apply insert_text_in in I. destruct I as [->|I]; [|exact (H1 b I)].
    apply text_leb_total in L. apply text_leb_before; [congruence|exact L].
Qed.
Lemma sorted_set_spec : forall l, alphabetical (sorted_set l) /\ forall y, In y (sorted_set l) <-> In y l.
Proof.
  induction l as [|x l [IH1 IH2]]; cbn; [split; [exact I|tauto]|]. split; [apply insert_text_sorted; exact IH1|]. intro y. rewrite insert_text_in, IH2. intuition.
Qed.

(** ** the report *)
Lemma totals_rows : forall py wb ex, load_iscwsa_example py wb = Some ex ->
  Forall (fun nev => length nev = 6) (cs_nev (ex_totals ex)) /\ length (cs_nev (ex_totals ex)) = length (cs_md (ex_totals ex)).
Proof.
  intros py wb ex H. destruct (workbook_parts py wb ex H) as (_ & _ & (s & _ & T) & _). unfold parse_totals_sheet in T.
  destruct (nth_error (sh_rows s) 1) as [names|]; [|discriminate]. destruct (all_some _) as [md|] eqn:A in T; [|discriminate]. injection T as <-. cbn [cs_nev cs_md].
  apply all_some_forall in A. assert (LA : forall (A B : Type) (P : A -> B -> Prop) x y, Forall2 P x y -> length x = length y) by (intros ? ? ? ? ? F; induction F; cbn; congruence). apply LA in A. rewrite map_length. split; [|exact A].
  apply Forall_forall. intros nev I. apply in_map_iff in I. destruct I as (r & <- & _). reflexivity.
Qed.
Lemma report_read : forall engine py wb model tr ta r, validate_workbook engine py wb model tr ta = Some r ->
  exists ex s inp c, load_iscwsa_example py wb = Some ex /\ metres_per_unit (ex_wellpath ex) s /\
    describes_input (ex_wellpath ex) model s inp /\ engine inp = Some c /\
    (exists rows, selects (comparable c s) (ex_validation ex) rows /\ Forall2 (describes_source tr ta c s) rows (rp_sources r)) /\
    length (rp_totals r) = length (cs_md (ex_totals ex)) /\
    (forall k md nev, nth_error (cs_md (ex_totals ex)) k = Some md -> nth_error (cs_nev (ex_totals ex)) k = Some nev ->
       exists o, nth_error (rp_totals r) k = Some o /\ describes_total tr ta s c md nev k o) /\
    (forall n, In n (rp_missing r) <-> (exists t, In t (ex_terms ex) /\ tm_code t = n) /\ ~ modelled c n) /\ alphabetical (rp_missing r).
Proof.
  intros engine py wb model tr ta r H. unfold validate_workbook in H. destruct (load_iscwsa_example py wb) as [ex|] eqn:L; [|discriminate].
  destruct (build_survey (ex_wellpath ex) model) as [inp|] eqn:B; [|discriminate]. destruct (engine inp) as [c|] eqn:G; [|discriminate]. cbn zeta in H.
  destruct (all_some _) as [ss|] eqn:A in H; [|discriminate]. destruct (compare_totals _ _ _ _ _ _) as [ts|] eqn:T in H; [|discriminate]. injection H as <-.
  exists ex, (depth_scale (ex_wellpath ex)), inp, c. split; [reflexivity|]. split; [apply scale_spec|]. split; [apply input_spec; exact B|]. split; [exact G|].
  cbn [rp_sources rp_totals rp_missing]. split; [apply (concat_selects _ _ _ _ _ (compare_source_cases tr ta _ c) _ _ A)|].
  destruct (totals_rows _ _ _ L) as [L6 LN]. destruct (totals_spec _ _ _ _ _ _ _ L6 T) as [LT F]. split; [exact LT|]. split.
  { intros k md nev M N. destruct (F k md nev M N) as (o & m & O & TM & R). exists o. split; [exact O|]. exists m. split; [exact TM|exact R]. }
  destruct (sorted_set_spec (filter (fun n => match dget text_eqb n (cp_errors c) with Some _ => false | None => true end) (map tm_code (ex_terms ex)))) as [SA SI].
  split; [|exact SA]. intro n. rewrite SI, filter_In, in_map_iff. unfold modelled. destruct (dget text_eqb n (cp_errors c)) as [covs|] eqn:D.
  - split; [intros [_ E]; discriminate|]. intros [_ N]. elim N. exists covs. reflexivity.
  - split.
    + intros [(t & E & I) _]. split; [exists t; auto|]. intros (q & Q). congruence.
    + intros [(t & I & E) _]. split; [exists t; auto|reflexivity].
Qed.
Lemma report_runs : forall engine py wb model tr ta, (exists r, validate_workbook engine py wb model tr ta = Some r) <->
  exists ex inp c, load_iscwsa_example py wb = Some ex /\ build_survey (ex_wellpath ex) model = Some inp /\ engine inp = Some c /\
    length (cs_md (ex_totals ex)) <= length (cp_total c) /\
    forall v covs x i s, In v (ex_validation ex) -> dget text_eqb (vl_source v) (cp_errors c) = Some covs -> metres_per_unit (ex_wellpath ex) s ->
      vl_md v = Fin x -> station_at c (x * s) i -> i < length covs /\ usable (vl_calculated v).
Proof.
  intros engine py wb model tr ta. unfold validate_workbook. destruct (load_iscwsa_example py wb) as [ex|] eqn:L.
  2: { split; [intros (r & H); discriminate|intros (ex & _ & _ & H & _); discriminate]. }
  destruct (build_survey (ex_wellpath ex) model) as [inp|] eqn:B.
  2: { split; [intros (r & H); discriminate|intros (ex' & inp & _ & E & H & _)]. injection E as <-. congruence. }
  destruct (engine inp) as [c|] eqn:G.
  2: { split; [intros (r & H); discriminate|intros (ex' & inp' & c & E & H & K & _)]. injection E as <-. congruence. }
  cbn zeta. destruct (totals_rows _ _ _ L) as [L6 LN]. pose proof (totals_run tr ta (depth_scale (ex_wellpath ex)) _ (cp_total c) _ L6 LN) as TR.
  pose proof (scale_spec (ex_wellpath ex)) as SC.
  assert (U : forall s, metres_per_unit (ex_wellpath ex) s -> s = depth_scale (ex_wellpath ex)).
  { intros s [[F ->]|[F ->]]; destruct SC as [[F' E]|[F' E]]; try contradiction; congruence. }
  assert (X : (exists ss, all_some (map (compare_source tr ta (depth_scale (ex_wellpath ex)) c) (ex_validation ex)) = Some ss) <->
    forall v covs x i s, In v (ex_validation ex) -> dget text_eqb (vl_source v) (cp_errors c) = Some covs -> metres_per_unit (ex_wellpath ex) s ->
      vl_md v = Fin x -> station_at c (x * s) i -> i < length covs /\ usable (vl_calculated v)).
  { split.
    - intros (ss & A) v covs x i s I D M E ST. apply U in M. subst s. apply all_some_forall in A.
      assert (C : exists l, compare_source tr ta (depth_scale (ex_wellpath ex)) c v = Some l).
      { clear -A I. induction A as [|v' l vs ll E F IH]; [destruct I|]. destruct I as [->|I]; [exists l; exact E|exact (IH I)]. }
      destruct C as (l & C). unfold compare_source in C. rewrite D in C.
      rewrite (proj2 (station_spec c (depth_scale (ex_wellpath ex)) v i)) in C by (exists x; auto).
      destruct (nth_error covs i) as [m|] eqn:M; [|discriminate]. split; [apply nth_error_Some; congruence|].
      destruct (judge tr ta (vl_calculated v) (pack m)) as [y|] eqn:J; [|discriminate]. apply (judge_runs tr ta (vl_calculated v) (pack m) eq_refl). exists y. exact J.
    - intro F. assert (C : forall v, In v (ex_validation ex) -> exists l, compare_source tr ta (depth_scale (ex_wellpath ex)) c v = Some l).
      { intros v I. unfold compare_source. destruct (dget text_eqb (vl_source v) (cp_errors c)) as [covs|] eqn:D; [|eexists; reflexivity].
        destruct (first_where _ _) as [i|] eqn:W; [|eexists; reflexivity]. apply station_spec in W. destruct W as (x & E & ST).
        destruct (F v covs x i _ I D SC E ST) as [LT US]. destruct (nth_error covs i) as [m|] eqn:M; [|apply nth_error_None in M; lia].
        apply (judge_runs tr ta (vl_calculated v) (pack m) eq_refl) in US. destruct US as ([[a r] ok] & ->). eexists. reflexivity. }
      clear F. induction (ex_validation ex) as [|v vs IH]; [exists []; reflexivity|]. destruct (C v (or_introl eq_refl)) as (l & E).
      destruct IH as (ll & EL); [intros v' I; apply C; right; exact I|]. exists (l :: ll). cbn. rewrite E, EL. reflexivity. }
  split.
  - intros (r & H). exists ex, inp, c. split; [reflexivity|]. split; [exact B|]. split; [exact G|].
    destruct (all_some _) as [ss|] eqn:A in H; [|discriminate]. destruct (compare_totals _ _ _ _ _ _) as [ts|] eqn:T in H; [|discriminate].
    split; [apply TR; exists ts; exact T|]. apply X. exists ss. exact A.
  - intros (ex' & inp' & c' & E & B' & G' & LE & F). injection E as <-. assert (inp' = inp) by congruence. subst inp'. assert (c' = c) by congruence. subst c'.
    apply X in F. destruct F as (ss & ->). apply TR in LE. destruct LE as (ts & ->). eexists. reflexivity.
Qed.
