(** Proofs about the wells, sites and case names of a document (C166). *)
Require Import Bool String List.
Require Import Verif.M_Edm Verif.M_EdmWell Verif.Spec_EdmWell Verif.P_EdmWell Verif.M_EdmNames Verif.Spec_EdmNames.
Import ListNotations.
Open Scope string_scope.
Open Scope list_scope.

Lemma by_attribute_none : forall tag key doc d, by_attribute tag key doc d = None <-> exists a, In (tag, a) doc /\ get key a = None.
Proof.
  intros tag key. induction doc as [|[t a] doc IH]; intros d; cbn.
  - split; [discriminate|intros (a & [] & _)].
  - destruct (String.eqb_spec t tag) as [->|N].
    + destruct (get key a) as [n|] eqn:E.
      * rewrite IH. split; [intros (b & B & C); exists b; split; [right; exact B|exact C]|].
        intros (b & [B|B] & C); [injection B as <-; congruence|exists b; split; assumption].
      * split; [intros _; exists a; split; [left; reflexivity|exact E]|reflexivity].
    + rewrite IH. split; [intros (b & B & C); exists b; split; [right; exact B|exact C]|].
      intros (b & [B|B] & C); [injection B as -> _; congruence|exists b; split; assumption].
Qed.
Lemma by_attribute_get : forall tag key doc d d', a_dict d -> by_attribute tag key doc d = Some d' -> a_dict d' /\
  forall n a, get n d' = Some a <-> last_with doc tag key n a \/ ((forall a', In (tag, a') doc -> get key a' <> Some n) /\ get n d = Some a).
Proof.
  intros tag key. induction doc as [|[t b] doc IH]; intros d d' D H; cbn in H.
  - injection H as <-. split; [exact D|]. intros n a. split; [intros G; right; split; [intros a' []|exact G]|].
    intros [(x & y & E & _)|[_ G]]; [destruct x; discriminate|exact G].
  - destruct (String.eqb_spec t tag) as [->|N].
    + destruct (get key b) as [k|] eqn:K; [|discriminate]. destruct (IH _ _ (dict_put _ k b d D) H) as (D' & G). split; [exact D'|].
      intros n a. rewrite G, get_put. split.
      * intros [(x & y & -> & A & B)|[A B]].
        -- left. exists ((tag, b) :: x), y. split; [reflexivity|]. split; assumption.
        -- destruct (String.eqb_spec n k) as [->|Nk].
           ++ injection B as <-. left. exists [], doc. split; [reflexivity|]. split; assumption.
           ++ right. split; [|exact B]. intros a' [E|I]; [injection E as <-; rewrite K; congruence|apply A; exact I].
      * intros [(x & y & E & A & B)|[A B]].
        -- destruct x as [|p x]; cbn in E; injection E as E1 E2.
           ++ subst. right. split; [exact B|]. rewrite K in A. injection A as ->. rewrite String.eqb_refl. reflexivity.
           ++ left. exists x, y. split; [exact E2|]. split; assumption.
        -- right. split; [intros a' I; apply A; right; exact I|]. destruct (String.eqb_spec n k) as [->|_]; [|exact B]. exfalso. apply (A b); [left; reflexivity|exact K].
    + destruct (IH _ _ D H) as (D' & G). split; [exact D'|]. intros n a. rewrite G. split.
      * intros [(x & y & -> & A)|[A B]]; [left; exists ((t, b) :: x), y; split; [reflexivity|exact A]|].
        right. split; [|exact B]. intros a' [E|I]; [injection E as -> _; congruence|apply A; exact I].
      * intros [(x & y & E & A)|[A B]].
        -- destruct x as [|p x]; cbn in E; injection E as E1 E2; [congruence|]. left. exists x, y. split; assumption.
        -- right. split; [intros a' I; apply A; right; exact I|exact B].
Qed.
Lemma wells_by_name : forall doc,
  (get_wells doc = None <-> exists a, In ("CD_WELL_ALL", a) doc /\ get "well_common_name" a = None) /\
  forall d, get_wells doc = Some d -> a_dict d /\ forall n a, get n d = Some a <-> last_with doc "CD_WELL_ALL" "well_common_name" n a.
Proof.
  intros doc. split; [apply by_attribute_none|]. intros d H. assert (Z : @a_dict attrib []) by constructor. destruct (by_attribute_get _ _ _ _ _ Z H) as (D & G). split; [exact D|].
  intros n a. rewrite G. split; [intros [K|[_ K]]; [exact K|discriminate]|left; assumption].
Qed.
Lemma sites_by_name : forall doc,
  (get_sites doc = None <-> exists a, In ("CD_SITE", a) doc /\ get "site_name" a = None) /\
  forall d, get_sites doc = Some d -> a_dict d /\ forall n a, get n d = Some a <-> last_with doc "CD_SITE" "site_name" n a.
Proof.
  intros doc. split; [apply by_attribute_none|]. intros d H. assert (Z : @a_dict attrib []) by constructor. destruct (by_attribute_get _ _ _ _ _ Z H) as (D & G). split; [exact D|].
  intros n a. rewrite G. split; [intros [K|[_ K]]; [exact K|discriminate]|left; assumption].
Qed.
Lemma case_name_found : forall doc id,
  (forall n, get_case_name_from_id doc id = CaseName n <-> exists x a y, doc = x ++ ("CD_CASE", a) :: y /\
     get "case_id" a = Some id /\ get "case_name" a = Some n /\ forall a', In ("CD_CASE", a') x -> another_case id a') /\
  (get_case_name_from_id doc id = NoCase <-> forall a, In ("CD_CASE", a) doc -> another_case id a).
Proof.
  intros doc id. induction doc as [|[t b] doc (IH1 & IH2)]; cbn [get_case_name_from_id].
  - split; [|split; [intros _ a []|reflexivity]]. intros n. split; [discriminate|]. intros (x & a & y & E & _). destruct x; discriminate.
  - unfold tag_of. cbn [fst snd]. destruct (String.eqb_spec t "CD_CASE") as [->|N].
    + destruct (get "case_id" b) as [i|] eqn:K.
      2:{ split; [|split; [discriminate|]].
          - intros n. split; [discriminate|]. intros (x & a & y & E & A & _ & B). destruct x as [|p x]; cbn in E; injection E as E1 E2; [congruence|].
            subst p. destruct (B b (or_introl eq_refl)) as (i & I & _). congruence.
          - intros H. destruct (H b (or_introl eq_refl)) as (i & I & _). congruence. }
      destruct (String.eqb_spec i id) as [->|Ni].
      * split; [intros n; split|split].
        -- destruct (get "case_name" b) as [m|] eqn:M; [|discriminate]. intros [= <-]. exists [], b, doc. split; [reflexivity|]. split; [exact K|]. split; [exact M|intros a' []].
        -- intros (x & a & y & E & A & A' & B). destruct x as [|p x]; cbn in E; injection E as E1 E2; [subst; rewrite A'; reflexivity|].
           subst p. destruct (B b (or_introl eq_refl)) as (i & I & J). congruence.
        -- destruct (get "case_name" b); discriminate.
        -- intros H. destruct (H b (or_introl eq_refl)) as (i & I & J). congruence.
      * split.
        -- intros n. rewrite IH1. split.
           ++ intros (x & a & y & -> & A & A' & B). exists (("CD_CASE", b) :: x), a, y. split; [reflexivity|]. split; [exact A|]. split; [exact A'|].
              intros a' [E|I]; [injection E as <-; exists i; split; assumption|apply B; exact I].
           ++ intros (x & a & y & E & A & A' & B). destruct x as [|p x]; cbn in E; injection E as E1 E2; [subst; congruence|].
              exists x, a, y. split; [exact E2|]. split; [exact A|]. split; [exact A'|]. intros a' I. apply B. right. exact I.
        -- rewrite IH2. split; [intros H a [E|I]; [injection E as <-; exists i; split; assumption|apply H; exact I]|intros H a I; apply H; right; exact I].
    + split.
      * intros n. rewrite IH1. split.
        -- intros (x & a & y & -> & A & A' & B). exists ((t, b) :: x), a, y. split; [reflexivity|]. split; [exact A|]. split; [exact A'|].
           intros a' [E|I]; [injection E as -> _; congruence|apply B; exact I].
        -- intros (x & a & y & E & A & A' & B). destruct x as [|p x]; cbn in E; injection E as E1 E2; [congruence|].
           exists x, a, y. split; [exact E2|]. split; [exact A|]. split; [exact A'|]. intros a' I. apply B. right. exact I.
      * rewrite IH2. split; [intros H a [E|I]; [injection E as -> _; congruence|apply H; exact I]|intros H a I; apply H; right; exact I].
Qed.
Lemma cases_from_get : forall rows d d', cases_from rows d = Some d' ->
  forall i n, get i d' = Some n -> (exists c, In c rows /\ get "case_id" c = Some i /\ get "case_name" c = Some n) \/ get i d = Some n.
Proof.
  induction rows as [|c rows IH]; intros d d' H i n G; cbn in H.
  - injection H as <-. right. exact G.
  - destruct (get "case_id" c) as [j|] eqn:J; [|discriminate]. destruct (get "case_name" c) as [m|] eqn:M; [|discriminate].
    destruct (IH _ _ H i n G) as [(c' & I & A)|K]; [left; exists c'; split; [right; exact I|exact A]|].
    rewrite get_put in K. destruct (String.eqb_spec i j) as [->|N]; [|right; exact K]. injection K as <-. left. exists c. split; [left; reflexivity|]. split; assumption.
Qed.
Lemma cases_from_has : forall rows d d', cases_from rows d = Some d' ->
  Forall (fun c => (exists i, get "case_id" c = Some i /\ exists n, get i d' = Some n) /\ exists n, get "case_name" c = Some n) rows /\ forall i n, get i d = Some n -> exists m, get i d' = Some m.
Proof.
  induction rows as [|c rows IH]; intros d d' H; cbn in H.
  - injection H as <-. split; [constructor|]. intros i n G. exists n. exact G.
  - destruct (get "case_id" c) as [j|] eqn:J; [|discriminate]. destruct (get "case_name" c) as [m|] eqn:M; [|discriminate].
    destruct (IH _ _ H) as (F & K). split.
    + constructor; [|exact F]. split; [|exists m; exact M]. exists j. split; [exact J|]. apply (K j m). rewrite get_put, String.eqb_refl. reflexivity.
    + intros i n G. destruct (String.eqb_spec i j) as [->|N]; [apply (K j m); rewrite get_put, String.eqb_refl; reflexivity|].
      apply (K i n). rewrite get_put. destruct (String.eqb_spec i j); [congruence|exact G].
Qed.
Lemma cases_agree : forall doc d rows m, case_ids_differ doc -> (forall a, In ("CD_CASE", a) doc -> exists i, get "case_id" a = Some i) ->
  get "CD_CASE" d = Some rows -> (forall c, In c rows -> In ("CD_CASE", c) doc) -> get_cases d = Some m ->
  (forall i n, get i m = Some n -> get_case_name_from_id doc i = CaseName n) /\
  (forall c, In c rows -> exists i n, get "case_id" c = Some i /\ get "case_name" c = Some n /\ get i m = Some n).
Proof.
  intros doc d rows m HD HI HR HC HM. unfold get_cases in HM. rewrite HR in HM.
  assert (U : forall a b, In ("CD_CASE", a) doc -> In ("CD_CASE", b) doc -> get "case_id" a = get "case_id" b -> a = b).
  { intros a b Ia Ib E. apply in_split in Ia. destruct Ia as (x & y & Ea). rewrite Ea in Ib. apply in_app_or in Ib. destruct Ib as [Ib|[Ib|Ib]].
    - apply in_split in Ib. destruct Ib as (u & v & ->). exfalso. apply (HD u b v a y); [rewrite Ea, <- app_assoc; reflexivity|congruence].
    - injection Ib as ->. reflexivity.
    - apply in_split in Ib. destruct Ib as (u & v & ->). exfalso. apply (HD x a u b v); [exact Ea|congruence]. }
  assert (F : forall c i n, In c rows -> get "case_id" c = Some i -> get "case_name" c = Some n -> get_case_name_from_id doc i = CaseName n).
  { intros c i n Ic Hi Hn. apply case_name_found. destruct (in_split _ _ (HC c Ic)) as (x & y & E). exists x, c, y. split; [exact E|]. split; [exact Hi|]. split; [exact Hn|].
    intros a' Ia. destruct (HI a') as (j & J). { rewrite E. apply in_or_app. left. exact Ia. } exists j. split; [exact J|]. intros ->.
    apply in_split in Ia. destruct Ia as (u & v & ->). apply (HD u a' v c y); [rewrite E, <- app_assoc; reflexivity|congruence]. }
  split.
  - intros i n G. destruct (cases_from_get _ _ _ HM i n G) as [(c & Ic & A & B)|K]; [exact (F c i n Ic A B)|discriminate].
  - intros c Ic. destruct (cases_from_has _ _ _ HM) as (Q & _). rewrite Forall_forall in Q. destruct (Q c Ic) as ((i & Hi & n & Hn) & n' & Hn'). exists i, n'. split; [exact Hi|]. split; [exact Hn'|].
    destruct (cases_from_get _ _ _ HM i n Hn) as [(c' & Ic' & A & B)|K]; [|discriminate].
    assert (c = c') by (apply U; [apply HC; exact Ic|apply HC; exact Ic'|congruence]). subst c'. congruence.
Qed.
Lemma cases_reused : forall n1 n2, n1 <> n2 ->
  get_case_name_from_id (two_cases n1 n2) "7" = CaseName n1 /\
  exists m, get_cases (get_attributes (two_cases n1 n2) ["CD_CASE"] [] AND) = Some m /\ get "7" m = Some n2.
Proof. intros n1 n2 N. split; [reflexivity|]. eexists. split; [cbn; reflexivity|reflexivity]. Qed.
