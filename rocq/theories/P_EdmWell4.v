(** C127, C128: sorted groups, look-ups and cases. *)
Require Import Reals Bool String List Sorted Lra Lia.
Require Import Verif.M_Edm Verif.Spec_Edm Verif.M_EdmWell Verif.Spec_EdmWell Verif.P_EdmWell Verif.P_EdmWell2 Verif.P_EdmWell3.
Import ListNotations.
Open Scope string_scope.
Open Scope list_scope.
Local Open Scope R_scope.

(** ** look-ups *)
Lemma matching_spec : forall k id rows, (forall row, In row rows -> get k row <> None) -> matching k id rows = Some (with_value k id rows).
Proof.
  intros k id rows. unfold with_value. induction rows as [|p rows IH]; intro H; [reflexivity|]. cbn [matching filter].
  rewrite IH by (intros; apply H; right; assumption). destruct (get k p) as [v|] eqn:E; [|destruct (H p (or_introl eq_refl) E)].
  assert (Q : in_group k id p = String.eqb v id) by (unfold in_group; rewrite E; reflexivity). rewrite Q. reflexivity.
Qed.
Lemma matching_fail : forall k id rows, matching k id rows = None <-> exists row, In row rows /\ get k row = None.
Proof.
  intros k id rows. induction rows as [|p rows IH]; cbn [matching]; [split; [discriminate|intros (r & [] & _)]|].
  destruct (get k p) as [v|] eqn:E.
  - destruct (matching k id rows) as [l|].
    + split; [discriminate|]. intros (r & [->|I] & G); [congruence|]. destruct IH as [_ IH]. discriminate IH. eauto.
    + split; [|reflexivity]. intros _. destruct IH as [IH _]. destruct (IH eq_refl) as (r & I & G). exists r. split; [right|]; assumption.
  - split; [|reflexivity]. intros _. exists p. split; [left; reflexivity|exact E].
Qed.
Definition look (d : data) (k t id : string) : option value :=
  match get t d with
  | None => None
  | Some rows => match matching k id rows with None => None | Some [] => Some Nothing | Some l => Some (Rows l) end
  end.
Lemma look_spec : forall d k t id v, look d k t id = Some v <-> exists rows, has_table d t k rows /\ v = rows_or_nothing (with_value k id rows).
Proof.
  intros d k t id v. unfold look, has_table. destruct (get t d) as [rows|]; [|split; [discriminate|intros (r & [H _] & _); discriminate]].
  destruct (matching k id rows) as [l|] eqn:E.
  - assert (H : forall row, In row rows -> get k row <> None).
    { intros row I G. assert (X : matching k id rows = None) by (apply matching_fail; eauto). congruence. }
    rewrite matching_spec in E by exact H. injection E as <-.
    assert (Q : match with_value k id rows with [] => Some Nothing | l => Some (Rows l) end = Some (rows_or_nothing (with_value k id rows))) by (destruct (with_value k id rows); reflexivity).
    replace (match with_value k id rows with [] => Some Nothing | a :: l => Some (Rows (with_value k id rows)) end) with (Some (rows_or_nothing (with_value k id rows))) by (rewrite <- Q; destruct (with_value k id rows); reflexivity).
    split; [intro X; injection X as <-; exists rows; auto|]. intros (r & [R1 R2] & ->). congruence.
  - split; [discriminate|]. intros (r & [R1 R2] & _). injection R1 as ->. apply matching_fail in E. destruct E as (row & I & G). destruct (R2 row I G).
Qed.
Lemma get_data_rows : forall d id label tag suffix v,
  get_data d id label tag suffix = Some v <->
  exists rows, has_table d (upper ("CD_" ++ tag)) (label ++ "_" ++ suffix) rows /\ v = rows_or_nothing (with_value (label ++ "_" ++ suffix) id rows).
Proof. intros. exact (look_spec d (label ++ "_" ++ suffix) (upper ("CD_" ++ tag)) id v). Qed.

(** ** cases *)
Definition step3 (s : string * string * string * string) : string * string * string :=
  let '(label, tag, suffix, out) := s in (out, (label ++ "_" ++ suffix)%string, upper ("CD_" ++ tag)).
Definition set1 (d : data) (case : list (string * value)) (s : string * string * string) : option (list (string * value)) :=
  let '(out, k, t) := s in
  match get k case with
  | None => Some case
  | Some (Text id) => match look d k t id with Some v => Some (put out v case) | None => None end
  | Some _ => Some (put out Nothing case)
  end.
Fixpoint sets (d : data) (case : list (string * value)) (l : list (string * string * string)) : option (list (string * value)) :=
  match l with [] => Some case | s :: r => match set1 d case s with Some c => sets d c r | None => None end end.
Lemma set_sets : forall d l case, set_attributes d case l = sets d case (map step3 l).
Proof.
  intros d l. induction l as [|[[[label tag] suffix] out] l IH]; intro case; [reflexivity|]. cbn [set_attributes map sets].
  change (set1 d case (step3 (label, tag, suffix, out))) with (set_attribute d case label tag suffix out).
  destruct (set_attribute d case label tag suffix out); [apply IH|reflexivity].
Qed.
Definition all_steps : list (string * string * string) :=
  [("wellbore", "wellbore_id", "CD_WELLBORE"); ("fluid", "fluid_id", "CD_FLUID"); ("scenario", "scenario_id", "CD_SCENARIO");
   ("well", "well_id", "CD_WELL"); ("datum", "datum_id", "CD_DATUM"); ("hole_sect_group", "hole_sect_group_id", "CD_HOLE_SECT_GROUP");
   ("assembly", "assembly_id", "CD_ASSEMBLY"); ("hole_sect", "hole_sect_group_id", "CD_HOLE_SECT"); ("assembly", "assembly_id", "CD_ASSEMBLY_COMP");
   ("survey_header", "wellbore_id", "CD_SURVEY_HEADER")].
Lemma steps_are : map step3 case_steps = all_steps.
Proof. vm_compute. reflexivity. Qed.

Definition texts (row : attrib) : list (string * value) := fold_left (fun c kv => put (fst kv) (Text (snd kv)) c) row [].
Lemma texts_get : forall row k, a_dict row -> get k (texts row) = option_map Text (get k row).
Proof.
  intros row k D. unfold texts.
  assert (G : forall acc, get k (fold_left (fun c kv => put (fst kv) (Text (snd kv)) c) row acc) =
    match get k row with Some v => Some (Text v) | None => get k acc end).
  { induction row as [|[j v] row IH]; intro acc; [reflexivity|]. inversion D as [|? ? D1 D2]; subst. cbn [fold_left fst snd]. rewrite (IH D2). rewrite get_put. cbn [get].
    destruct (String.eqb_spec k j) as [->|N]; [|reflexivity]. replace (get j row) with (@None string); [reflexivity|]. symmetry. apply get_none. exact D1. }
  rewrite G. destruct (get k row); reflexivity.
Qed.
(** one step, when the id attributes still have the values of the row *)
Definition want (d : data) (row : attrib) (s : string * string * string) (c : list (string * value)) : Prop :=
  let '(out, k, t) := s in
  match get k row with
  | None => True
  | Some id => exists rows, has_table d t k rows /\ get out c = Some (rows_or_nothing (with_value k id rows))
  end.
Lemma sets_spec : forall d row l case,
  (forall s s', In s l -> In s' l -> fst (fst s) <> snd (fst s')) ->
  (forall s, In s l -> get (snd (fst s)) case = option_map Text (get (snd (fst s)) row)) ->
  (sets d case l <> None <-> (forall out k t, In (out, k, t) l -> get k row <> None -> exists rows, has_table d t k rows)).
Proof.
  intros d row l. induction l as [|[[out k] t] l IH]; intros case A B; [split; [intros _ ? ? ? []|discriminate]|].
  cbn [sets set1]. pose proof (B _ (or_introl eq_refl)) as Bk. cbn [fst snd] in Bk. rewrite Bk. destruct (get k row) as [id|] eqn:K; cbn [option_map].
  - destruct (look d k t id) as [v|] eqn:L.
    + rewrite IH; cycle 1.
      { intros s s' I I'. apply A; right; assumption. }
      { intros s I. rewrite get_put. destruct (String.eqb_spec (snd (fst s)) out) as [E|E]; [|apply B; right; assumption].
        exfalso. apply (A (out, k, t) s (or_introl eq_refl) (or_intror I)). symmetry. exact E. }
      split; intros H o k' t' I G; [|apply H with (out := o); [right; exact I|exact G]]. destruct I as [I|I]; [|eauto]. injection I as <- <- <-.
      apply look_spec in L. destruct L as (rows & T & _). eauto.
    + split; [congruence|]. intro H. exfalso. destruct (H out k t (or_introl eq_refl)) as (rows & T); [congruence|].
      assert (X : look d k t id = Some (rows_or_nothing (with_value k id rows))) by (apply look_spec; eauto). congruence.
  - rewrite IH; [|intros; apply A; right; assumption|intros; apply B; right; assumption].
    split; intros H o k' t' I G; [|apply H with (out := o); [right; exact I|exact G]]. destruct I as [I|I]; [|eauto]. injection I as <- <- <-. contradiction.
Qed.
Lemma sets_get : forall d row l case c,
  (forall s s', In s l -> In s' l -> fst (fst s) <> snd (fst s')) ->
  (forall s, In s l -> get (snd (fst s)) case = option_map Text (get (snd (fst s)) row)) ->
  sets d case l = Some c ->
  (forall x, (forall k t, In (x, k, t) l -> get k row = None) -> get x c = get x case) /\
  (forall before out k t after id, l = before ++ (out, k, t) :: after -> (forall k' t', ~ In (out, k', t') after) -> get k row = Some id ->
     exists rows, has_table d t k rows /\ get out c = Some (rows_or_nothing (with_value k id rows))).
Proof.
  intros d row l. induction l as [|[[out k] t] l IH]; intros case c A B H.
  { cbn in H. injection H as <-. split; [reflexivity|]. intros before ? ? ? ? ? E. destruct before; discriminate. }
  cbn [sets set1] in H. pose proof (B _ (or_introl eq_refl)) as Bk. cbn [fst snd] in Bk. rewrite Bk in H. destruct (get k row) as [id|] eqn:K; cbn [option_map] in H.
  - destruct (look d k t id) as [v|] eqn:L; [|discriminate].
    destruct (IH (put out v case) c) as [I1 I2]; [intros; apply A; right; assumption| |exact H|].
    { intros s I. rewrite get_put. destruct (String.eqb_spec (snd (fst s)) out) as [E|E]; [|apply B; right; assumption].
      exfalso. apply (A (out, k, t) s (or_introl eq_refl) (or_intror I)). symmetry. exact E. }
    split.
    + intros x Q. rewrite I1 by (intros; eapply Q; right; eassumption). rewrite get_put. destruct (String.eqb_spec x out) as [->|N]; [|reflexivity].
      specialize (Q k t (or_introl eq_refl)). congruence.
    + intros [|s before] o k' t' after id' E N G; cbn in E; [injection E as <- <- <- <-|injection E as E1 E2; eapply I2; eassumption].
      apply look_spec in L. destruct L as (rows & T & ->). exists rows. split; [exact T|].
      rewrite I1 by (intros k'' t'' I; destruct (N _ _ I)). rewrite get_put, String.eqb_refl. congruence.
  - destruct (IH case c) as [I1 I2]; [intros; apply A; right; assumption|intros; apply B; right; assumption|exact H|].
    split.
    + intros x Q. apply I1. intros; eapply Q; right; eassumption.
    + intros [|s before] o k' t' after id' E N G; cbn in E; [congruence|injection E as E1 E2; eapply I2; eassumption].
Qed.
Lemma find_case_acc : forall id rows found x, find_case rows id found = Some x ->
  (forall row, In row rows -> get "case_id" row <> None) /\
  ((x = found /\ forall row, In row rows -> ~ is_case id row) \/ (exists row, x = Some row /\ last_row (is_case id) rows row)).
Proof.
  intros id rows. induction rows as [|p rows IH]; intros found x H.
  { cbn in H. injection H as <-. split; [intros ? []|]. left. split; [reflexivity|intros ? []]. }
  cbn [find_case] in H. destruct (get "case_id" p) as [i|] eqn:G; [|discriminate]. apply IH in H. destruct H as [A B]. split.
  { intros row [<-|I]; [congruence|auto]. }
  destruct B as [[-> N]|(row & -> & b & a & -> & P & Q)].
  - destruct (String.eqb_spec i id) as [->|NE].
    + right. exists p. split; [reflexivity|]. exists [], rows. split; [reflexivity|]. split; [exact G|exact N].
    + left. split; [reflexivity|]. intros row [<-|I]; [unfold is_case; congruence|auto].
  - right. exists row. split; [reflexivity|]. exists (p :: b), a. split; [reflexivity|]. auto.
Qed.
Lemma find_case_some : forall id rows found, (forall row, In row rows -> get "case_id" row <> None) -> exists x, find_case rows id found = Some x.
Proof.
  intros id rows. induction rows as [|p rows IH]; intros found H; [eexists; reflexivity|]. cbn [find_case].
  destruct (get "case_id" p) as [i|] eqn:G; [apply IH; intros; apply H; right; assumption|]. destruct (H p (or_introl eq_refl) G).
Qed.
Lemma last_row_unique : forall P rows r r', last_row P rows r -> last_row P rows r' -> r = r'.
Proof.
  intros P rows r r' (b & a & -> & H1 & H2) (b' & a' & E & H1' & H2'). revert b' E. induction b as [|x b IH]; intros [|x' b'] E; cbn in E; injection E as E1 E2.
  - exact E1.
  - exfalso. apply (H2 r'); [rewrite E2; apply in_elt|exact H1'].
  - exfalso. apply (H2' r); [rewrite <- E2; apply in_elt|exact H1].
  - eapply IH; eassumption.
Qed.
Lemma outs_not_keys : forall s s', In s all_steps -> In s' all_steps -> fst (fst s) <> snd (fst s').
Proof.
  intros s s' I I' E. cbn in I, I'.
  repeat (destruct I as [<-|I]; [repeat (destruct I' as [<-|I']; [discriminate|]); destruct I'|]). destruct I.
Qed.
Lemma keys_of_row : forall row, a_dict row -> forall s, In s all_steps -> get (snd (fst s)) (texts row) = option_map Text (get (snd (fst s)) row).
Proof. intros row D s _. apply texts_get. exact D. Qed.

(** make_case succeeds exactly when … *)
Lemma case_made : forall d id, (forall rows row, get "CD_CASE" d = Some rows -> In row rows -> a_dict row) ->
  (make_case d id <> None <->
   exists rows row, has_table d "CD_CASE" "case_id" rows /\ last_row (is_case id) rows row /\
     (forall out k t, In (out, k, t) looked_up -> get k row <> None -> exists rs, has_table d t k rs) /\
     (get "assembly_id" row <> None -> exists rs, has_table d "CD_ASSEMBLY" "assembly_id" rs) /\
     exists w headers h, get "wellbore_id" row = Some w /\ get "CD_SURVEY_HEADER" d = Some headers /\ In h headers /\ get "wellbore_id" h = Some w).
Proof.
  intros d id DD. unfold make_case, has_table at 1. unfold attrib, data in *. destruct (get "CD_CASE" d) as [rows|] eqn:T; [|split; [intro X0; destruct (X0 eq_refl)|intros (r & x & [[H _] _]); discriminate]].
  match goal with |- context [find_case ?a ?b ?c] => destruct (find_case a b c) as [[row|]|] eqn:F end.
  2:{ split; [intro X0; destruct (X0 eq_refl)|]. intros (r & x & [H1 _] & L & _). injection H1 as <-. apply find_case_acc in F. destruct F as [_ [[_ N]|(y & Y & _)]]; [|discriminate].
      destruct L as (b & a & -> & P & _). exfalso. apply (N x); [apply in_elt|exact P]. }
  2:{ split; [intro X0; destruct (X0 eq_refl)|]. intros (r & x & [H1 H2] & _). injection H1 as <-. destruct (find_case_some id rows None H2) as [y Y]. unfold attrib in *. rewrite F in Y. discriminate. }
  apply find_case_acc in F. destruct F as [F1 [[E _]|(row' & E & L)]]; [discriminate|]. injection E as <-.
  assert (D : a_dict row). { apply (DD rows); [reflexivity|]. destruct L as (b & a & -> & _). apply in_elt. }
  fold (texts row). rewrite set_sets, steps_are.
  pose proof (sets_spec d row all_steps (texts row) outs_not_keys (keys_of_row row D)) as SS.
  transitivity ((forall out k t, In (out, k, t) all_steps -> get k row <> None -> exists rs, has_table d t k rs) /\
     exists w headers h, get "wellbore_id" row = Some w /\ get "CD_SURVEY_HEADER" d = Some headers /\ In h headers /\ get "wellbore_id" h = Some w).
  { destruct (sets d (texts row) all_steps) as [c|] eqn:EC.
    - destruct (sets_get d row all_steps (texts row) c outs_not_keys (keys_of_row row D) EC) as [G1 G2].
      destruct (get "wellbore_id" row) as [w|] eqn:W.
      + destruct (G2 (removelast all_steps) "survey_header" "wellbore_id" "CD_SURVEY_HEADER" [] w eq_refl (fun _ _ H => H) W) as (hs & [H1 H2] & H3).
        rewrite H3. unfold rows_or_nothing, with_value. split.
        * intro X. split; [apply SS; discriminate|]. destruct (filter (in_group "wellbore_id" w) hs) as [|h l] eqn:Q; [congruence|].
          assert (I : In h (filter (in_group "wellbore_id" w) hs)) by (rewrite Q; left; reflexivity). apply filter_In in I. destruct I as [I1 I2].
          exists w, hs, h. repeat split; auto. unfold in_group in I2. destruct (get "wellbore_id" h) as [v|]; [|discriminate]. apply String.eqb_eq in I2. congruence.
        * intros [_ (w' & hs' & h & W' & T' & I & G)]. assert (I' : In h (filter (in_group "wellbore_id" w) hs)).
          { apply filter_In. unfold attrib in *. rewrite H1 in T'. injection T' as <-. split; [exact I|]. unfold in_group. rewrite G. apply String.eqb_eq. congruence. }
          destruct (filter (in_group "wellbore_id" w) hs); [destruct I'|discriminate].
      + rewrite G1. 2:{ intros k t I. cbn in I. repeat (destruct I as [I|I]; [try discriminate I|]); [injection I as <- <-; exact W|destruct I]. }
        rewrite texts_get by exact D. destruct (get "survey_header" row); cbn [option_map]; (split; [intro X0; destruct (X0 eq_refl)|]); intros [_ (w' & hs' & h & W' & _)]; discriminate.
    - split; [intro X0; destruct (X0 eq_refl)|]. intros [X _]. apply SS in X. congruence. }
  split.
  - intros [X Y]. exists rows, row. split; [split; [reflexivity|exact F1]|]. split; [exact L|]. split; [|split; [|exact Y]].
    + intros out k t I. apply (X out k t). cbn in I |- *. tauto.
    + apply (X "assembly" "assembly_id" "CD_ASSEMBLY"). cbn. tauto.
  - intros (r & x & [H1 H2] & L' & X & Y & Z). injection H1 as <-. pose proof (last_row_unique _ _ _ _ L L') as <-. split; [|exact Z].
    intros out k t I N. cbn in I. repeat (destruct I as [I|I]; [first [apply (X out k t); [cbn; tauto|exact N]|injection I as <- <- <-; exact (Y N)]|]). destruct I.
Qed.
Lemma case_attributes : forall d id c, (forall rows row, get "CD_CASE" d = Some rows -> In row rows -> a_dict row) -> make_case d id = Some c ->
  exists rows row, get "CD_CASE" d = Some rows /\ last_row (is_case id) rows row /\
    (forall out k t v, In (out, k, t) looked_up -> get k row = Some v ->
       exists rs, get t d = Some rs /\ get out c = Some (rows_or_nothing (with_value k v rs))) /\
    (forall x, (forall k t, In (x, k, t) looked_up -> get k row = None) -> get x c = option_map Text (get x row)).
Proof.
  intros d id c DD H. unfold make_case in H. unfold attrib, data in *. destruct (get "CD_CASE" d) as [rows|] eqn:T; [|discriminate].
  match type of H with context [find_case ?a ?b ?c] => destruct (find_case a b c) as [[row|]|] eqn:F end; try discriminate.
  apply find_case_acc in F. destruct F as [F1 [[E _]|(row' & E & L)]]; [discriminate|]. injection E as <-.
  assert (D : a_dict row). { apply (DD rows); [reflexivity|]. destruct L as (b & a & -> & _). apply in_elt. }
  fold (texts row) in H. rewrite set_sets, steps_are in H. destruct (sets d (texts row) all_steps) as [c'|] eqn:EC; [|discriminate].
  assert (c' = c) as -> by (destruct (get "survey_header" c') as [[| |]|]; congruence). clear H.
  destruct (sets_get d row all_steps (texts row) c outs_not_keys (keys_of_row row D) EC) as [G1 G2].
  exists rows, row. split; [reflexivity|]. split; [exact L|]. split.
  - intros out k t v I G.
    assert (Q : exists before after, all_steps = before ++ (out, k, t) :: after /\ forall k' t', ~ In (out, k', t') after).
    { cbn in I. repeat (destruct I as [I|I]; [injection I as <- <- <-|]); [..|destruct I];
      match goal with |- exists before after, _ = before ++ ?s :: after /\ _ =>
        first [ exists (firstn 0 all_steps), (skipn 1 all_steps); split; [reflexivity|cbn; intros ? ? K; repeat (destruct K as [K|K]; [discriminate|]); exact K]
              | exists (firstn 1 all_steps), (skipn 2 all_steps); split; [reflexivity|cbn; intros ? ? K; repeat (destruct K as [K|K]; [discriminate|]); exact K]
              | exists (firstn 2 all_steps), (skipn 3 all_steps); split; [reflexivity|cbn; intros ? ? K; repeat (destruct K as [K|K]; [discriminate|]); exact K]
              | exists (firstn 3 all_steps), (skipn 4 all_steps); split; [reflexivity|cbn; intros ? ? K; repeat (destruct K as [K|K]; [discriminate|]); exact K]
              | exists (firstn 4 all_steps), (skipn 5 all_steps); split; [reflexivity|cbn; intros ? ? K; repeat (destruct K as [K|K]; [discriminate|]); exact K]
              | exists (firstn 5 all_steps), (skipn 6 all_steps); split; [reflexivity|cbn; intros ? ? K; repeat (destruct K as [K|K]; [discriminate|]); exact K]
              | exists (firstn 7 all_steps), (skipn 8 all_steps); split; [reflexivity|cbn; intros ? ? K; repeat (destruct K as [K|K]; [discriminate|]); exact K]
              | exists (firstn 8 all_steps), (skipn 9 all_steps); split; [reflexivity|cbn; intros ? ? K; repeat (destruct K as [K|K]; [discriminate|]); exact K]
              | exists (firstn 9 all_steps), (skipn 10 all_steps); split; [reflexivity|cbn; intros ? ? K; repeat (destruct K as [K|K]; [discriminate|]); exact K] ]
      end. }
    destruct Q as (b & a & E & N). destruct (G2 b out k t a v E N G) as (rs & [R1 _] & R2). eauto.
  - intros x Q. rewrite G1; [apply texts_get; exact D|]. intros k t I. cbn in I.
    repeat (destruct I as [I|I]; [first [apply (Q k t); cbn; tauto|injection I as <- <- <-; apply (Q "assembly_id" "CD_ASSEMBLY_COMP"); cbn; tauto]|]). destruct I.
Qed.

(** ** profile tables of a case *)
Lemma group_key_is : forall row, group_key row = group_id_of row.
Proof. intro row. unfold group_id_of. induction row as [|[k v] row IH]; cbn; [reflexivity|]. destruct (index 0 "_group_id" k); [reflexivity|exact IH]. Qed.
Lemma group_rows_spec : forall rows acc, a_dict acc -> (forall row, In row rows -> group_id_of row <> None) ->
  exists d, group_rows rows acc = Some d /\ a_dict d /\
    forall g, all g d = all g acc ++ filter (of_any_group g) rows /\ (get g d = None <-> get g acc = None /\ filter (of_any_group g) rows = []).
Proof.
  intros rows. induction rows as [|p rows IH]; intros acc D H.
  { exists acc. split; [reflexivity|]. split; [exact D|]. intro g. cbn [filter]. rewrite app_nil_r. split; [reflexivity|tauto]. }
  cbn [group_rows]. rewrite group_key_is. destruct (group_id_of p) as [g0|] eqn:G; [|destruct (H p (or_introl eq_refl) G)].
  destruct (IH (push g0 p acc) (dict_push _ _ _ _ D)) as (d & E & D' & C); [intros; apply H; right; assumption|].
  exists d. split; [exact E|]. split; [exact D'|]. intro g. destruct (C g) as [C1 C2]. cbn [filter].
  assert (OG : of_any_group g p = String.eqb g0 g) by (unfold of_any_group; rewrite G; reflexivity). rewrite OG.
  unfold all at 2 in C1. rewrite get_push in C1, C2. destruct (String.eqb_spec g g0) as [E0|N].
  - rewrite <- E0. rewrite String.eqb_refl. rewrite C1, <- app_assoc. split; [reflexivity|]. rewrite C2. split; [intros [X _]; discriminate|intros [_ X]; discriminate].
  - replace (String.eqb g0 g) with false by (symmetry; apply String.eqb_neq; congruence). split; [exact C1|exact C2].
Qed.
Lemma tvds_ok : forall num rows, (forall row, In row rows -> depth num row <> None) -> tvds num rows = Ok (map (depth_or_0 num) rows).
Proof.
  intros num rows. induction rows as [|p rows IH]; intro H; [reflexivity|]. cbn [tvds map]. pose proof (H p (or_introl eq_refl)) as P. unfold depth_or_0 at 1. unfold depth in *.
  destruct (get "tvd" p) as [s|]; [|contradiction]. destruct (num s) as [t|]; [|contradiction]. rewrite IH by (intros; apply H; right; assumption). reflexivity.
Qed.
Lemma tvds_missing : forall num rows, (forall row s, In row rows -> get "tvd" row = Some s -> num s <> None) ->
  (exists row, In row rows /\ get "tvd" row = None) -> tvds num rows = KeyErr.
Proof.
  intros num rows. induction rows as [|p rows IH]; intros H (row & I & G); [destruct I|]. cbn [tvds].
  destruct (get "tvd" p) as [s|] eqn:E; [|reflexivity]. pose proof (H p s (or_introl eq_refl) E) as P. destruct (num s); [|contradiction].
  rewrite IH; [reflexivity|intros; eapply H; [right|]; eassumption|]. destruct I as [->|I]; [congruence|eauto].
Qed.
Lemma place_pair : forall (key : attrib -> R) p l, map snd (place fst (key p, p) (map (fun r => (key r, r)) l)) = place key p l /\
  place fst (key p, p) (map (fun r => (key r, r)) l) = map (fun r => (key r, r)) (place key p l).
Proof.
  intros key p l.
  assert (Q : place fst (key p, p) (map (fun r => (key r, r)) l) = map (fun r => (key r, r)) (place key p l)).
  { induction l as [|x l IH]; [reflexivity|]. cbn. destruct (Rlt_dec (key p) (key x)); cbn; [reflexivity|rewrite IH; reflexivity]. }
  split; [rewrite Q, map_map; cbn; apply map_id|exact Q].
Qed.
Lemma sort_pairs : forall (key : attrib -> R) l, map snd (sort_by fst (combine (map key l) l)) = sort_by key l.
Proof.
  intros key l. unfold sort_by.
  assert (G : forall acc, fold_left (fun a x => place fst x a) (combine (map key l) l) (map (fun r => (key r, r)) acc) =
                          map (fun r => (key r, r)) (fold_left (fun a x => place key x a) l acc)).
  { induction l as [|p l IH]; intro acc; [reflexivity|]. cbn [combine map fold_left]. destruct (place_pair key p acc) as [_ ->]. apply IH. }
  specialize (G []). cbn [map] in G. rewrite G, map_map. cbn. apply map_id.
Qed.
Lemma sort_groups_ok : forall num d, (forall g rows row, In (g, rows) d -> In row rows -> depth num row <> None) ->
  sort_groups num d = Ok (map (fun kl => (fst kl, sort_by (depth_or_0 num) (snd kl))) d).
Proof.
  intros num d. induction d as [|[g rows] d IH]; intro H; [reflexivity|]. cbn [sort_groups map fst snd].
  rewrite tvds_ok by (intros row I; exact (H g rows row (or_introl eq_refl) I)). rewrite IH by (intros; eapply H; [right|]; eassumption).
  rewrite sort_pairs. reflexivity.
Qed.
Lemma sort_groups_missing : forall num d, (forall g rows row s, In (g, rows) d -> In row rows -> get "tvd" row = Some s -> num s <> None) ->
  (exists g rows row, In (g, rows) d /\ In row rows /\ get "tvd" row = None) -> sort_groups num d = KeyErr.
Proof.
  intros num d. induction d as [|[g rows] d IH]; intros H (g' & rows' & row & I & I' & G); [destruct I|]. cbn [sort_groups].
  destruct (tvds num rows) as [ts| |] eqn:E.
  - destruct I as [I|I].
    + injection I as <- <-. rewrite tvds_missing in E; [discriminate|intros r s K; exact (H g rows r s (or_introl eq_refl) K)|eauto].
    + rewrite IH; [reflexivity|intros; eapply H; [right|..]; eassumption|eauto 6].
  - reflexivity.
  - exfalso. assert (N : tvds num rows <> ValueErr); [|contradiction].
    assert (HH : forall row s, In row rows -> get "tvd" row = Some s -> num s <> None) by (intros r s K; exact (H g rows r s (or_introl eq_refl) K)).
    clear - HH. induction rows as [|p rows IH]; [discriminate|]. cbn [tvds]. destruct (get "tvd" p) as [s|] eqn:E; [|discriminate].
    pose proof (HH p s (or_introl eq_refl) E) as P. destruct (num s); [|contradiction]. specialize (IH (fun r s' I => HH r s' (or_intror I))). destruct (tvds num rows); congruence.
Qed.
(** every row of a group, when the groups are read from rows *)
Lemma group_mem : forall rows d, a_dict d -> (forall g, all g d = filter (of_any_group g) rows) ->
  forall g l row, In (g, l) d -> In row l -> In row rows.
Proof.
  intros rows d D H g l row I I'. specialize (H g). unfold all in H. rewrite (In_get (list attrib) g l d D I) in H. subst l. apply filter_In in I'. apply I'.
Qed.
Lemma sorted_profile : forall num rows, (forall row, In row rows -> group_id_of row <> None /\ depth num row <> None) ->
  exists ps, sort_ppfpt num rows = Some ps /\ a_dict ps /\
    (forall g, get g ps = None <-> (forall row, In row rows -> group_id_of row <> Some g)) /\
    (forall g l, get g ps = Some l -> sorted_from (depth_or_0 num) (filter (of_any_group g) rows) l).
Proof.
  intros num rows H. unfold sort_ppfpt.
  destruct (group_rows_spec rows [] (NoDup_nil _)) as (d & E & D & C); [intros row I; apply H; exact I|]. rewrite E.
  assert (C' : forall g, all g d = filter (of_any_group g) rows) by (intro g; apply (C g)).
  rewrite sort_groups_ok by (intros g l row I I'; apply H; exact (group_mem rows d D C' g l row I I')).
  eexists. split; [reflexivity|]. split; [unfold a_dict in *; rewrite map_map; cbn [fst]; exact D|]. split.
  - intro g. rewrite (get_map _ _ (sort_by (depth_or_0 num))). destruct (C g) as [_ C2].
    transitivity (filter (of_any_group g) rows = []). { transitivity (get g d = None); [destruct (get g d); cbn; split; congruence|]. rewrite C2. cbn. tauto. }
    split.
    + intros F row I G. assert (X : In row (filter (of_any_group g) rows)) by (apply filter_In; split; [exact I|unfold of_any_group; rewrite G; apply String.eqb_refl]). rewrite F in X. destruct X.
    + intro N. destruct (filter (of_any_group g) rows) as [|y ys] eqn:Y; [reflexivity|]. exfalso. assert (I : In y (filter (of_any_group g) rows)) by (rewrite Y; left; reflexivity).
      apply filter_In in I. destruct I as [I1 I2]. unfold of_any_group in I2. destruct (group_id_of y) as [h|] eqn:G; [|discriminate]. apply String.eqb_eq in I2. subst h. exact (N y I1 G).
  - intros g l. rewrite (get_map _ _ (sort_by (depth_or_0 num))). specialize (C' g). unfold all in C'. destruct (get g d) as [m|]; [|discriminate]. cbn. intro X. injection X as <-. subst m. apply sort_by_spec.
Qed.
Lemma unsorted_profile : forall num rows, (forall row, In row rows -> group_id_of row <> None) ->
  (forall row s, In row rows -> get "tvd" row = Some s -> num s <> None) -> (exists row, In row rows /\ get "tvd" row = None) ->
  exists ps, sort_ppfpt num rows = Some ps /\ a_dict ps /\
    forall g, get g ps = match filter (of_any_group g) rows with [] => None | l => Some l end.
Proof.
  intros num rows H HN (row & I & G). unfold sort_ppfpt.
  destruct (group_rows_spec rows [] (NoDup_nil _) H) as (d & E & D & C). rewrite E.
  assert (C' : forall g, all g d = filter (of_any_group g) rows) by (intro g; apply (C g)).
  rewrite sort_groups_missing.
  - exists d. split; [reflexivity|]. split; [exact D|]. intro g. destruct (C g) as [C1 C2]. cbn in C1, C2. unfold all in C1. destruct (get g d) as [m|].
    + subst m. destruct (filter (of_any_group g) rows); [|reflexivity]. destruct C2 as [_ C2]. discriminate C2. auto.
    + rewrite <- C1. reflexivity.
  - intros g l r s J J'. apply HN. exact (group_mem rows d D C' g l r J J').
  - destruct (group_id_of row) as [g|] eqn:GG; [|destruct (H row I GG)].
    assert (X : In row (filter (of_any_group g) rows)) by (apply filter_In; split; [exact I|unfold of_any_group; rewrite GG; apply String.eqb_refl]).
    exists g, (filter (of_any_group g) rows), row. split; [|split; [exact X|exact G]]. specialize (C' g). unfold all in C'. destruct (get g d) as [m|] eqn:Q; [subst m; apply get_In; exact Q|]. rewrite <- C' in X. destruct X.
Qed.
