(** The errors a report states. *)
Require Import Reals ZArith Ascii String List Bool Lra Lia.
Require Import Verif.Base Verif.NumPy Verif.M_Utils Verif.M_DmsText Verif.M_Text Verif.Spec_Text Verif.M_Ingest Verif.Spec_Ingest.
Require Import Verif.P_Ingest Verif.P_Ingest4 Verif.M_Validate Verif.Spec_Validate Verif.P_Validate Verif.P_Validate2 Verif.P_Validate3.
Import ListNotations.
Open Scope list_scope.
Local Open Scope nat_scope.

Lemma fold_emax : forall l x, exists e, fold_left emax2 (map Fin l) (Fin x) = Fin e /\ In e (x :: l) /\ forall y, In y (x :: l) -> (y <= e)%R.
Proof.
  induction l as [|y l IH]; intro x; cbn [map fold_left].
  - exists x. split; [reflexivity|]. split; [left; reflexivity|]. intros y [<-|[]]. lra.
  - cbn [emax2]. destruct (IH (Rmax x y)) as (e & E & I & M). exists e. split; [exact E|]. split.
    + destruct I as [<-|I]; [|right; right; exact I]. unfold Rmax. destruct Rle_dec; [right; left|left]; reflexivity.
    + pose proof (M _ (or_introl eq_refl)) as G. pose proof (Rmax_l x y). pose proof (Rmax_r x y). intros z [<-|[<-|Z]]; [lra|lra|]. apply M. right. exact Z.
Qed.
Lemma np_max_greatest : forall l, l <> [] -> exists e, np_max (map Fin l) = Some (Fin e) /\ In e l /\ forall y, In y l -> (y <= e)%R.
Proof. intros [|x l] N; [contradiction|]. destruct (fold_emax l x) as (e & E & I & M). exists e. cbn [map np_max]. rewrite E. auto. Qed.
Lemma in_combine_nth : forall (A B : Type) (l : list A) (m : list B) a b, In (a, b) (combine l m) <-> exists k, nth_error l k = Some a /\ nth_error m k = Some b.
Proof.
  intros A B. induction l as [|x l IH]; intros m a b; [split; [intros []|intros ([|k] & H & _); discriminate]|]. destruct m as [|y m]; [split; [intros []|intros ([|k] & _ & H); discriminate]|].
  cbn [combine In]. rewrite IH. split.
  - intros [E|(k & K)]; [injection E as -> ->; exists 0; auto|exists (S k); exact K].
  - intros ([|k] & K & L); [left; cbn in K, L; congruence|right; exists k; auto].
Qed.
Lemma judge_errors : forall tr ta target values a r ok, length target = length values -> target <> [] -> judge tr ta (map Fin target) values = Some (a, r, ok) -> errors_of target values a r.
Proof.
  intros tr ta target values a r ok L N J. unfold judge in J. destruct (abs_error (map Fin target) values) as [a'|] eqn:A; [|discriminate]. destruct (relative_error (map Fin target) values) as [r'|] eqn:B; [|discriminate]. injection J as -> -> _.
  split.
  - unfold abs_error in A. rewrite map_length, L, Nat.eqb_refl in A.
    assert (E : map (fun tp : ext * R => gap (snd tp) (fst tp)) (combine (map Fin target) values) = map Fin (map (fun tp => Rabs (snd tp - fst tp)) (combine target values))).
    { clear. revert values. induction target as [|t target IH]; intros [|v values]; cbn; [reflexivity|reflexivity|reflexivity|]. rewrite IH. reflexivity. }
    rewrite E in A. destruct (np_max_greatest (map (fun tp => Rabs (snd tp - fst tp)) (combine target values))) as (e & EQ & I & M); [destruct target, values; cbn; try discriminate; contradiction|].
    rewrite EQ in A. injection A as <-. exists e. split; [reflexivity|].
    assert (G : forall x, In x (map (fun tp => Rabs (snd tp - fst tp)) (combine target values)) <-> absolute_difference target values x).
    { intro x. rewrite in_map_iff. unfold absolute_difference. split.
      - intros ([t v] & <- & C). apply in_combine_nth in C. destruct C as (k & K). exists k, t, v. destruct K. auto.
      - intros (k & t & v & K & H & ->). exists (t, v). split; [reflexivity|]. apply in_combine_nth. exists k. auto. }
    split; [apply G; exact I|]. intros x X. apply M. apply G. exact X.
  - unfold relative_error in B. destruct (existsb nonzero (map Fin target)) eqn:Z.
    + right. rewrite map_length, L, Nat.eqb_refl in B.
      assert (E : map (fun tp : ext * R => relative_gap (snd tp) (fst tp)) (filter (fun tp => nonzero (fst tp)) (combine (map Fin target) values)) =
        map Fin (map (fun tp => Rabs (snd tp - fst tp) / Rabs (fst tp))%R (filter (fun tp => nonzero (Fin (fst tp))) (combine target values)))).
      { clear. revert values. induction target as [|t target IH]; intros [|v values]; cbn [map combine filter fst snd]; try reflexivity. destruct (nonzero (Fin t)); cbn [map fst snd relative_gap]; rewrite IH; reflexivity. }
      rewrite E in B.
      assert (G : forall x, In x (map (fun tp => Rabs (snd tp - fst tp) / Rabs (fst tp))%R (filter (fun tp => nonzero (Fin (fst tp))) (combine target values))) <-> relative_difference target values x).
      { intro x. rewrite in_map_iff. unfold relative_difference. split.
        - intros ([t v] & <- & C). apply filter_In in C. destruct C as [C NZ]. apply in_combine_nth in C. destruct C as (k & K & H). exists k, t, v. cbn in NZ. destruct (Req_EM_T t 0); [discriminate|]. auto.
        - intros (k & t & v & K & H & NZ & ->). exists (t, v). split; [reflexivity|]. apply filter_In. split; [apply in_combine_nth; exists k; auto|]. cbn. destruct (Req_EM_T t 0); [contradiction|reflexivity]. }
      destruct (np_max_greatest (map (fun tp => Rabs (snd tp - fst tp) / Rabs (fst tp))%R (filter (fun tp => nonzero (Fin (fst tp))) (combine target values)))) as (e & EQ & I & M).
      { apply existsb_exists in Z. destruct Z as (y & Y & NZ). apply in_map_iff in Y. destruct Y as (t & <- & T). apply In_nth_error in T. destruct T as (k & K).
        destruct (nth_error values k) as [v|] eqn:V.
        2:{ apply nth_error_None in V. assert (k < length target) by (apply nth_error_Some; congruence). lia. }
        intro X. assert (In (Rabs (v - t) / Rabs t)%R []) as []. rewrite <- X. apply in_map_iff. exists (t, v). split; [reflexivity|]. apply filter_In. split; [|exact NZ]. apply in_combine_nth. exists k. auto. }
      rewrite EQ in B. injection B as <-. exists e. split; [reflexivity|]. split; [apply G; exact I|]. intros x X. apply M. apply G. exact X.
    + left. injection B as <-. split; [|reflexivity]. apply Forall_forall. intros t T. destruct (Req_EM_T t 0) as [|NZ]; [assumption|]. exfalso.
      assert (existsb nonzero (map Fin target) = true) by (apply existsb_exists; exists (Fin t); split; [apply in_map; exact T|cbn; destruct (Req_EM_T t 0); [contradiction|reflexivity]]). congruence.
Qed.

Lemma sources_judged : forall tr ta s c vs ll o, all_some (map (compare_source tr ta s c) vs) = Some ll -> In o (concat ll) ->
  judge tr ta (sc_calculated o) (sc_welleng o) = Some (sc_abs o, sc_rel o, sc_ok o) /\ length (sc_welleng o) = 6.
Proof.
  intros tr ta s c vs ll o A I. apply all_some_forall in A. induction A as [|v l vs ll E A IH]; [destruct I|]. cbn [concat] in I. apply in_app_or in I. destruct I as [I|I]; [|exact (IH I)].
  unfold compare_source in E. destruct (dget text_eqb (vl_source v) (cp_errors c)); [|injection E as <-; destruct I]. destruct (first_where _ _) as [i|]; [|injection E as <-; destruct I].
  destruct (nth_error _ i) as [m|]; [|discriminate]. destruct (judge tr ta (vl_calculated v) (pack m)) as [[[x y] z]|] eqn:J; [|discriminate]. injection E as <-. destruct I as [<-|[]]. cbn [sc_calculated sc_welleng sc_abs sc_rel sc_ok]. auto.
Qed.
Lemma totals_judged : forall tr ta s mds total nevs l o, compare_totals tr ta s total mds nevs = Some l -> In o l ->
  judge tr ta (tc_workbook o) (tc_welleng o) = Some (tc_abs o, tc_rel o, tc_ok o) /\ length (tc_welleng o) = 6.
Proof.
  induction mds as [|md mds IH]; intros total nevs l o H I; cbn [compare_totals] in H; [injection H as <-; destruct I|].
  destruct nevs as [|nev nevs]; [discriminate|]. destruct total as [|m total]; [discriminate|]. destruct (judge tr ta nev (pack m)) as [[[x y] z]|] eqn:J; [|discriminate].
  destruct (compare_totals tr ta s total mds nevs) as [l'|] eqn:T; [|discriminate]. injection H as <-. destruct I as [<-|I]; [cbn; auto|exact (IH _ _ _ _ T I)].
Qed.
Lemma report_errors : forall engine py wb model tr ta r, validate_workbook engine py wb model tr ta = Some r ->
  (forall o target, In o (rp_sources r) -> sc_calculated o = map Fin target -> length target = 6 -> errors_of target (sc_welleng o) (sc_abs o) (sc_rel o)) /\
  (forall o target, In o (rp_totals r) -> tc_workbook o = map Fin target -> length target = 6 -> errors_of target (tc_welleng o) (tc_abs o) (tc_rel o)).
Proof.
  intros engine py wb model tr ta r H. unfold validate_workbook in H. destruct (load_iscwsa_example py wb) as [ex|]; [|discriminate].
  destruct (build_survey (ex_wellpath ex) model) as [inp|]; [|discriminate]. destruct (engine inp) as [c|]; [|discriminate]. cbn zeta in H.
  destruct (all_some _) as [ss|] eqn:A in H; [|discriminate]. destruct (compare_totals _ _ _ _ _ _) as [ts|] eqn:T in H; [|discriminate]. injection H as <-. cbn [rp_sources rp_totals]. split.
  - intros o target I E L. destruct (sources_judged _ _ _ _ _ _ _ A I) as [J LW]. rewrite E in J. apply (judge_errors tr ta target (sc_welleng o) _ _ (sc_ok o)); [congruence|destruct target; [discriminate|discriminate]|exact J].
  - intros o target I E L. destruct (totals_judged _ _ _ _ _ _ _ _ T I) as [J LW]. rewrite E in J. apply (judge_errors tr ta target (tc_welleng o) _ _ (tc_ok o)); [congruence|destruct target; [discriminate|discriminate]|exact J].
Qed.
