(** Whole .wbp files written and read back; strip_duplicates. *)
Require Import Reals ZArith Ascii String List Bool Lia Lra.
Require Import Verif.Base Verif.M_Text Verif.Spec_Text Verif.P_Text Verif.M_Wbp Verif.Spec_Wbp Verif.P_Wbp Verif.P_Wbp2.
Import ListNotations.
Open Scope list_scope.
Local Open Scope nat_scope.

(** rewriting up to conversion *)
Ltac rew E := match type of E with read_plan ?rd ?q ?c ?y = _ => match goal with |- context [read_plan rd q c ?x] => change (read_plan rd q c x) with (read_plan rd q c y) end end; rewrite E.
Section Reader.
Variable rd : reader.
Hypothesis Hrd : reads_numbers rd.

Lemma read_next : forall p c l r p' c', read_line rd p c l = Some (Next p' c') -> read_plan rd p c (l :: r) = read_plan rd p' c' r.
Proof. intros p c l r p' c' E. cbn [read_plan]. rewrite E. reflexivity. Qed.

(** ** steps *)
Lemma read_step : forall s first p c rest ls, step_fits first s -> p_tie p = first -> p_flag p <> Targets -> step_lines s = Some ls ->
  read_plan rd p c (map rstrip ls ++ rest) = read_plan rd (set_tie false (set_steps (p_steps p ++ [step_round s]) p)) c rest.
Proof.
  intros [t|x] first p c rest ls F T Fl H; cbn [step_lines] in H.
  - destruct F as (Ti & (q & Hq & Fq) & MT). rewrite Hq in H. injection H as <-. cbn [map app].
    assert (SF : step_fits (p_tie p) (Turn t)) by (rewrite T; split; [auto|]; split; eauto).
    rewrite (read_next _ _ _ _ _ _ (line_turn rd Hrd p c t SF Fl)).
    erewrite read_next; [|apply (line_loc rd Hrd _ c q (p_steps p)); [exact Fq|exact Fl|reflexivity]].
    cbn [step_round]. rewrite Hq. reflexivity.
  - destruct F as (L & (ws & Fw & Tw) & (st & Hst) & q & Hq & Fq). rewrite Hst in H. cbn [ob] in H. rewrite Hq in H. injection H as <-. cbn [map app].
    rewrite (read_next _ _ _ _ _ _ (line_point rd Hrd p c x ws Fw Tw L Fl)).
    erewrite read_next; [|apply (line_station rd Hrd _ c st (p_steps p)); [exact Fl|reflexivity]].
    erewrite read_next; [|apply (line_loc rd Hrd _ c q (p_steps p)); [exact Fq|exact Fl|reflexivity]].
    cbn [step_round]. rewrite Hq, Hst. destruct st as [[md azi] inc]. reflexivity.
Qed.
Lemma read_steps : forall ss first p c rest ls, steps_fit first ss -> p_tie p = first -> p_flag p <> Targets ->
  concat_all (map step_lines ss) = Some ls ->
  exists b, read_plan rd p c (map rstrip ls ++ rest) = read_plan rd (set_tie b (set_steps (p_steps p ++ map step_round ss) p)) c rest.
Proof.
  induction ss as [|s ss IH]; intros first p c rest ls F T Fl H.
  - injection H as <-. exists (p_tie p). cbn [map app]. rewrite app_nil_r. destruct p; reflexivity.
  - cbn in H. inv H. inv H. injection H as <-. destruct F as [Fs F]. rewrite map_app, <- app_assoc.
    rewrite (read_step s first) by auto. destruct (IH false _ c rest _ F (eq_refl : p_tie (set_tie false (set_steps (p_steps p ++ [step_round s]) p)) = false) Fl E0) as (b & ->).
    exists b. cbn. rewrite <- app_assoc. reflexivity.
Qed.
Lemma step_lines_some : forall first s, step_fits first s -> exists ls, step_lines s = Some ls.
Proof.
  intros first [t|x] F; cbn in *.
  - destruct F as (_ & (q & -> & _) & _). eexists. reflexivity.
  - destruct F as (_ & _ & (st & ->) & q & -> & _). eexists. reflexivity.
Qed.
Lemma steps_some : forall ss first, steps_fit first ss -> exists ls, concat_all (map step_lines ss) = Some ls.
Proof.
  induction ss as [|s ss IH]; intros first F; [eexists; reflexivity|]. destruct F as [Fs F].
  destruct (step_lines_some _ _ Fs) as (a & E). destruct (IH _ F) as (b & E'). cbn. rewrite E, E'. eexists. reflexivity.
Qed.

(** ** header lines *)
Lemma line_head : forall p c r h, read_header rd ("W"%char :: colon :: r) = Some h -> p_flag p = NoFlag \/ p_flag p = Wellplans ->
  read_line rd p c ("W"%char :: colon :: r) = Some (Next (set_head h (set_tie true (set_flag Done p))) c).
Proof.
  intros p c r h H Fl. destruct (words_prefix "W"%char colon r eq_refl eq_refl) as (w & ws & E). letter E.
  rewrite letter_split by discriminate. rewrite ?is_word_self, H. cbn [ob]. destruct Fl as [-> | ->]; reflexivity.
Qed.
Lemma line_next : forall p c r, p_flag p = Done -> read_line rd p c ("W"%char :: colon :: r) = Some Stop.
Proof.
  intros p c r Fl. destruct (words_prefix "W"%char colon r eq_refl eq_refl) as (w & ws & E). letter E.
  rewrite letter_split by discriminate. rewrite ?is_word_self, Fl. reflexivity.
Qed.
(** the lines of a plan, and what is read from them *)
Lemma read_body : forall p, plan_fits p -> exists r ss h', body_lines p = Some (("W"%char :: colon :: r) :: ss) /\
  rstrip ("W"%char :: colon :: r) = "W"%char :: colon :: r /\
  (forall h, p_head p = Some h -> header_back h h') /\
  forall q c rest, p_flag q = NoFlag \/ p_flag q = Wellplans -> p_steps q = [] ->
    (rest = [] \/ exists r' rest', rest = ("W"%char :: colon :: r') :: rest') ->
    exists b, read_plan rd q c (("W"%char :: colon :: r) :: map rstrip ss ++ rest) =
      Some (mkPlan (p_depth q) (p_surface q) (p_targets q) (Some h') (map step_round (p_steps p)) Done b, c, rest).
Proof.
  intros p (De & Su & (h & Hh & Fh) & Fs). destruct (p_depth p) as [de|] eqn:Ed; [|congruence]. destruct (p_surface p) as [su|] eqn:Es; [|congruence].
  destruct (header_round rd Hrd de su h Fh) as (line & h' & Hl & Rs & (r & ->) & Rh & Bk).
  destruct (steps_some _ _ Fs) as (ss & Hss). exists r, ss, h'. split; [|split; [|split]].
  - unfold body_lines. rewrite Hh. cbn [ob]. rewrite Ed, Es, Hl. cbn [ob]. rewrite Hss. reflexivity.
  - exact Rs.
  - intros g Hg. rewrite Hh in Hg. injection Hg as <-. exact Bk.
  - intros q c rest Fl Sq Rest. rewrite (read_next _ _ _ _ _ _ (line_head q c r h' Rh Fl)).
    destruct (read_steps (p_steps p) true (set_head h' (set_tie true (set_flag Done q))) c rest ss Fs eq_refl ltac:(discriminate) Hss) as (b & ->).
    exists b. cbn [p_steps set_head set_tie set_flag]. rewrite Sq. cbn [app].
    destruct Rest as [->|(r' & rest' & ->)]; [reflexivity|]. cbn [read_plan]. rewrite line_next by reflexivity. reflexivity.
Qed.
Lemma bodies_some : forall ps, Forall plan_fits ps -> exists ls, concat_all (map body_lines ps) = Some ls /\
  (ps = [] -> ls = []) /\ (ps <> [] -> exists r l, ls = ("W"%char :: colon :: r) :: l /\ rstrip ("W"%char :: colon :: r) = "W"%char :: colon :: r).
Proof.
  intros ps F. induction F as [|p ps Fp F IH]; [exists []; cbn; split; [reflexivity|]; split; [auto|congruence]|].
  destruct IH as (ls & E & _). destruct (read_body p Fp) as (r & ss & h' & B & R & _). cbn. rewrite B. cbn [ob]. rewrite E. cbn [ob].
  eexists. split; [reflexivity|]. split; [discriminate|]. intros _. exists r, (ss ++ ls). auto.
Qed.
(** reading the plans from the first header on *)
Lemma read_first : forall p ps ls q c fuel, Forall plan_fits (p :: ps) -> concat_all (map body_lines (p :: ps)) = Some ls ->
  p_flag q = NoFlag \/ p_flag q = Wellplans -> p_steps q = [] -> length ps <= fuel ->
  exists p' ps', (match read_plan rd q c (map rstrip ls) with
    | None => Raised
    | Some (p0, c0, []) => Plans [p0] c0
    | Some (p0, c0, rest) => match load_loop fuel rd (p_depth p0) (p_surface p0) c0 rest with Plans l c1 => Plans (p0 :: l) c1 | x => x end
    end) = Plans (p' :: ps') c /\ p_targets p' = p_targets q /\
    Forall2 (plan_back (p_depth q) (p_surface q)) (p :: ps) (p' :: ps') /\ Forall (fun p0 => p_targets p0 = []) ps'.
Proof.
  intros p ps. revert p. induction ps as [|p2 ps IH]; intros p ls q c fuel F H Fl Sq Fu.
  - inversion F; subst. destruct (read_body p H2) as (r & ss & h' & B & R & Bk & Rd).
    cbn [concat_all map] in H. rewrite B in H. cbn [ob] in H. injection H as <-. rewrite app_nil_r. cbn [map]. rewrite R.
    destruct (Rd q c [] Fl Sq ltac:(auto)) as (b & E). rewrite app_nil_r in E. rew E.
    eexists _, []. split; [reflexivity|]. split; [reflexivity|]. split; [|constructor]. constructor; [|constructor].
    split; [reflexivity|]. split; [reflexivity|]. split; [reflexivity|]. destruct H2 as (_ & _ & (h & Hh & _) & _). exists h, h'. auto.
  - inversion F; subst. destruct (read_body p H2) as (r & ss & h' & B & R & Bk & Rd).
    destruct (bodies_some (p2 :: ps) H3) as (ls2 & E2 & _ & Sh). destruct (Sh ltac:(discriminate)) as (r2 & l2 & -> & R2).
    change (map body_lines (p :: p2 :: ps)) with (body_lines p :: map body_lines (p2 :: ps)) in H. cbn [concat_all] in H. rewrite B in H. cbn [ob] in H. rewrite E2 in H. cbn [ob] in H. injection H as <-.
    cbn [map app]. rewrite R, map_app. cbn [map]. rewrite R2.
    destruct (Rd q c (("W"%char :: colon :: r2) :: map rstrip l2) Fl Sq) as (b & E); [right; eauto|]. rew E.
    destruct fuel as [|fuel]; [cbn in Fu; lia|].
    destruct (IH p2 _ (fresh (p_depth q) (p_surface q)) c fuel H3 E2 (or_introl eq_refl) eq_refl ltac:(cbn in Fu; lia)) as (p' & ps' & E3 & Tg & Fb & Ft).
    cbn [map] in E3. rewrite R2 in E3.
    assert (E4 : load_loop (S fuel) rd (p_depth q) (p_surface q) c (("W"%char :: colon :: r2) :: map rstrip l2) = Plans (p' :: ps') c) by exact E3.
    cbn [p_depth p_surface].
    match type of E4 with ?a = _ => match goal with |- context [load_loop ?n ?x ?d ?s ?e ?l] => change (load_loop n x d s e l) with a end end.
    rewrite E4. eexists _, _. split; [reflexivity|]. split; [reflexivity|]. split.
    + constructor; [|exact Fb]. split; [reflexivity|]. split; [reflexivity|]. split; [reflexivity|].
      destruct H2 as (_ & _ & (h & Hh & _) & _). exists h, h'. auto.
    + constructor; auto.
Qed.

(** ** front matter *)
Lemma line_word : forall w t, token w -> words (rstrip (w ++ space :: t)) = w :: words t.
Proof. intros w t T. rewrite words_rstrip. apply words_app; [exact T|reflexivity]. Qed.
Lemma line_units : forall p c de su u, unit_key depth_dict de su = Some u -> look u depth_dict = Some (su, de) -> token [u] ->
  read_line rd p c (rstrip (lit "DEPTH " ++ [u])) = Some (Next (set_flag NoFlag (set_units de su p)) c).
Proof.
  intros p c de su u K L T. unfold read_line. change (lit "DEPTH " ++ [u]) with (lit "DEPTH" ++ space :: [u]).
  rewrite line_word by (split; [discriminate|repeat constructor]). rewrite words_token by auto.
  replace (is_word "!" (lit "DEPTH")) with false by reflexivity. replace (is_word "DEPTH" (lit "DEPTH")) with true by reflexivity.
  rewrite L. reflexivity.
Qed.
Lemma line_comment : forall p c t, read_line rd p c (rstrip (lit "! " ++ t)) = Some (Next p c).
Proof.
  intros p c t. unfold read_line. change (lit "! " ++ t) with (lit "!" ++ space :: t).
  rewrite line_word by (split; [discriminate|repeat constructor]). reflexivity.
Qed.
Lemma read_comments : forall cs p c rest, read_plan rd p c (map rstrip (map (fun t => lit "! " ++ t) cs) ++ rest) = read_plan rd p c rest.
Proof. induction cs as [|t cs IH]; intros; [reflexivity|]. cbn [map app]. rewrite (read_next _ _ _ _ _ _ (line_comment p c t)). apply IH. Qed.
Lemma line_target : forall p c nm, p_flag p = Targets -> no_colon nm -> no_trailing nm ->
  read_line rd p c (rstrip (lit "T:" ++ nm)) = Some (Next (set_targets (p_targets p ++ [(nm, None)]) p) c).
Proof.
  intros p c nm Fl C T.
  assert (R : rstrip (lit "T:" ++ nm) = "T"%char :: colon :: nm).
  { destruct nm as [|a nm]; [reflexivity|]. rewrite rstrip_app; rewrite rstrip_id by auto; [reflexivity|discriminate]. }
  rewrite R. destruct (words_prefix "T"%char colon nm eq_refl eq_refl) as (w & ws & E). letter E.
  rewrite letter_split1 by (auto; discriminate). rewrite ?is_word_self, Fl. reflexivity.
Qed.
Lemma line_target_loc : forall p c q ts nm o, p_flag p = Targets -> loc_fits q -> p_targets p = ts ++ [(nm, o)] ->
  read_line rd p c (rstrip (location_line q)) = Some (Next (set_targets (ts ++ [(nm, Some (loc_round q))]) p) c).
Proof.
  intros p c q ts nm o Fl F T. rewrite loc_rstrip by auto.
  destruct (words_prefix "L"%char colon (rstrip (loc_body q)) eq_refl eq_refl) as (w & ws & E). letter E.
  rewrite loc_split by auto. cbn [nth_error ob]. rewrite (read_loc_line rd Hrd) by auto. rewrite ?is_word_self, ?is_word_first by reflexivity.
  cbn [ob]. rewrite Fl, T, upd_last_app. reflexivity.
Qed.
Lemma line_colour : forall p c z, p_flag p = Targets -> p_targets p <> [] -> length (show_int z) <= 3 ->
  read_line rd p c (rstrip (lit "C:" ++ rjust 3 (show_int z))) = Some (Next p (mkCell (Some z) (c_text c))).
Proof.
  intros p c z Fl T L. assert (Tk : token (show_int z)).
  { destruct (show_int_decimal z) as (b & ds & N & Fd & E & _). split; [rewrite E; destruct b, ds; try discriminate; congruence|].
    rewrite E. apply Forall_app. split; [destruct b; repeat constructor|]. eapply Forall_impl; [|exact Fd]. intros a A. apply (digit_plain a A). }
  assert (Rs : rstrip (rjust 3 (show_int z)) = rjust 3 (show_int z)).
  { unfold rjust. assert (Q : rstrip (show_int z) = show_int z) by (apply rstrip_id, trimmed_trailing, token_trimmed; auto).
    rewrite rstrip_app; rewrite Q; [reflexivity|apply Tk]. }
  assert (W : words (rjust 3 (show_int z)) <> []) by (rewrite words_rjust, words_token by auto; discriminate).
  change (lit "C:" ++ rjust 3 (show_int z)) with ("C"%char :: colon :: rjust 3 (show_int z)). rewrite letter_rstrip, Rs by auto.
  destruct (words_prefix "C"%char colon (rjust 3 (show_int z)) eq_refl eq_refl) as (w & ws & E). letter E.
  rewrite letter_split by discriminate. rewrite ?is_word_self, ?is_word_first by reflexivity. rewrite Fl.
  destruct (p_targets p) as [|t ts]; [congruence|]. unfold read_colour. cbn [length]. rewrite rjust_length by auto. change (5 <? 5) with false. cbn [skipn].
  replace (to_int rd (rjust 3 (show_int z))) with (Some z); [reflexivity|]. symmetry. apply Hrd.
  assert (Ss : strip (rjust 3 (show_int z)) = show_int z).
  { unfold rjust. pose proof (strip_pad (3 - length (show_int z)) 0 (show_int z) (token_trimmed _ Tk)) as H. cbn [repeat] in H. rewrite app_nil_r in H. exact H. }
  rewrite Ss. apply show_int_decimal.
Qed.
Lemma read_targets : forall ts cs p c rest ls, Forall target_fits ts -> Forall colour_fits cs -> length ts = length cs -> p_flag p = Targets ->
  concat_all (map target_lines (combine ts cs)) = Some ls ->
  read_plan rd p c (map rstrip ls ++ rest) = read_plan rd (set_targets (p_targets p ++ map target_round ts) p) (last_colour cs c) rest.
Proof.
  induction ts as [|t ts IH]; intros cs p c rest ls Ft Fc Len Fl H; destruct cs as [|o cs]; try discriminate.
  - injection H as <-. cbn [map app]. rewrite app_nil_r. destruct p; reflexivity.
  - inversion Ft; subst. inversion Fc; subst. destruct H2 as (Nc & Nt & q & Hq & Fq). destruct H4 as (z & -> & Lz).
    destruct t as [nm o]. cbn [fst snd] in *. subst o. cbn [combine map concat_all target_lines fst snd ob show_colour] in H. inv H. injection H as <-.
    cbn [map app]. rewrite (read_next _ _ _ _ _ _ (line_target p c nm Fl Nc Nt)).
    erewrite read_next; [|apply (line_target_loc _ c q (p_targets p) nm None); [exact Fl|exact Fq|reflexivity]].
    erewrite read_next; [|apply line_colour; [exact Fl|cbn; destruct (p_targets p); discriminate|exact Lz]].
    erewrite IH; [|exact H3|exact H5|cbn in Len; lia|exact Fl|exact E].
    assert (Lc : last_colour cs (mkCell (Some z) (c_text c)) = last_colour (Some z :: cs) c) by (destruct cs; reflexivity).
    rewrite Lc. cbn [p_targets set_targets]. rewrite <- app_assoc. reflexivity.
Qed.
Lemma targets_some : forall ts cs, Forall target_fits ts -> exists ls, concat_all (map target_lines (combine ts cs)) = Some ls.
Proof.
  induction ts as [|t ts IH]; intros cs F; [eexists; reflexivity|]. destruct cs as [|o cs]; [eexists; reflexivity|].
  inversion F; subst. destruct (IH cs H2) as (ls & E). destruct H1 as (_ & _ & q & Hq & _). cbn. unfold target_lines at 1. cbn [fst snd]. rewrite Hq. cbn [ob]. rewrite E. eexists. reflexivity.
Qed.
End Reader.

Theorem file_round : forall rd p ps colours comments c, reads_numbers rd ->
  Forall plan_fits (p :: ps) -> Forall target_fits (p_targets p) -> Forall colour_fits colours -> length (p_targets p) = length colours ->
  exists lines p' ps', export (p :: ps) colours comments [] = Some lines /\
    (forall fuel, length lines < fuel -> load fuel rd c lines = Plans (p' :: ps') (last_colour colours c)) /\
    Forall2 (plan_back (p_depth p) (p_surface p)) (p :: ps) (p' :: ps') /\
    p_targets p' = map target_round (p_targets p) /\ Forall (fun q => p_targets q = []) ps'.
Proof.
  intros rd p ps colours comments c Hrd F Ft Fc Len.
  destruct (targets_some (p_targets p) colours Ft) as (ts & Ets). destruct (bodies_some rd Hrd (p :: ps) F) as (bs & Ebs & _).
  assert (Fp : plan_fits p) by (inversion F; auto). destruct Fp as (Nd & Ns & _).
  destruct (p_depth p) as [de|] eqn:Ed; [|congruence]. destruct (p_surface p) as [su|] eqn:Es; [|congruence].
  destruct (unit_keys de su) as (u & Ku & Lu).
  assert (Tu : token [u]) by (destruct de, su; injection Ku as <-; (split; [discriminate|repeat constructor])).
  set (lines := (lit "DEPTH " ++ [u]) :: map (fun t => lit "! " ++ t) comments ++ [lit "TARGETS:"] ++ ts ++ [lit "WELLPLANS:"] ++ [] ++ bs).
  assert (X : export (p :: ps) colours comments [] = Some lines).
  { unfold export. rewrite Ed, Es. cbn [ob]. rewrite Ku. cbn [ob]. rewrite Ets. cbn [ob]. rewrite Ebs. reflexivity. }
  set (q := set_tie true (set_flag Wellplans (set_targets (map target_round (p_targets p)) (set_flag Targets (set_flag NoFlag (set_units de su (fresh None None))))))).
  assert (Rf : read_plan rd (fresh None None) c (map rstrip lines) = read_plan rd q (last_colour colours c) (map rstrip bs)).
  { unfold lines. cbn [map]. rewrite (read_next _ _ _ _ _ _ _ (line_units rd _ c de su u Ku Lu Tu)). rewrite map_app, read_comments.
    rewrite !map_app. cbn [map app].
    erewrite (read_next rd _ _ (rstrip (lit "TARGETS:"))) by reflexivity.
    rewrite (read_targets rd Hrd (p_targets p) colours) by (auto; reflexivity).
    erewrite (read_next rd _ _ (rstrip (lit "WELLPLANS:"))) by reflexivity. reflexivity. }
  destruct (read_first rd Hrd p ps bs q (last_colour colours c) (length ps) F Ebs (or_intror eq_refl) eq_refl ltac:(lia)) as (p' & ps' & E & Tg & Fb & Fn).
  exists lines, p', ps'. split; [exact X|]. split; [|split; [exact Fb|split; [exact Tg|exact Fn]]].
  intros fuel Fu. destruct (load_ends rd c lines fuel Fu) as [_ ->].
  assert (G : load (S (length ps)) rd c lines = Plans (p' :: ps') (last_colour colours c)).
  { unfold load. cbn [load_loop]. rewrite Rf. exact E. }
  rewrite <- G. unfold load. destruct (Nat.le_ge_cases (S (length ps)) (S (length lines))) as [Le|Ge].
  - apply loop_mono; [|exact Le]. fold (load (S (length ps)) rd c lines). rewrite G. discriminate.
  - symmetry. apply loop_mono; [|exact Ge]. apply loop_terminates. rewrite map_length. lia.
Qed.

(** ** strip_duplicates *)
Definition strip_fold (rs : list srow) (s0 : list srow * srow) : list srow * srow :=
  fold_left (fun '(temp, last) s => if Req_EM_T (row_inc s) (row_inc last) then (temp, last) else (temp ++ [s], s)) rs s0.
Lemma strip_inv : forall rs r, exists kept, changes (r :: rs) kept /\ fst (strip_fold rs ([r], r)) = kept /\
  row_inc (snd (strip_fold rs ([r], r))) = row_inc (last rs r).
Proof.
  intros rs r. induction rs as [|s rs IH] using rev_ind.
  - exists [r]. split; [constructor|]. split; reflexivity.
  - destruct IH as (kept & C & E & L). unfold strip_fold in *. rewrite fold_left_app. cbn [fold_left].
    destruct (fold_left _ rs ([r], r)) as [temp lst]. cbn [fst snd] in *. subst temp.
    assert (Sh : exists a, r :: rs = a ++ [last rs r]).
    { destruct rs as [|x rs _] using rev_ind; [exists []; reflexivity|]. exists (r :: rs). rewrite last_last. reflexivity. }
    destruct Sh as (a & Sh). assert (Sh' : r :: rs ++ [s] = a ++ [last rs r; s]).
    { change (r :: rs ++ [s]) with ((r :: rs) ++ [s]). rewrite Sh, <- app_assoc. reflexivity. }
    rewrite Sh', last_last. rewrite Sh in C. destruct (Req_EM_T (row_inc s) (row_inc lst)) as [Q|Q]; cbn [fst snd].
    + exists kept. split; [|split; [reflexivity|congruence]]. apply ch_same; [exact C|congruence].
    + exists (kept ++ [s]). split; [|split; reflexivity]. apply ch_new; [exact C|congruence].
Qed.
Theorem strip_changes : forall rows, changes rows (strip_duplicates rows).
Proof.
  intros [|r rs]; [constructor|]. destruct (strip_inv rs r) as (kept & C & E & _). unfold strip_duplicates. fold (strip_fold rs ([r], r)). rewrite E. exact C.
Qed.
