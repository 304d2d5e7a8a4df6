(** Proofs about the workbook of the standard set of wellpaths. *)
Require Import Reals ZArith Ascii String List Bool Lia.
Require Import Verif.Base Verif.NumPy Verif.M_Utils Verif.M_DmsText Verif.M_Text Verif.Spec_Text Verif.P_Text Verif.M_Ingest Verif.Spec_Ingest Verif.P_Ingest Verif.P_Ingest4.
Require Import Verif.M_StandardSet Verif.Spec_StandardSet.
Import ListNotations.
Open Scope list_scope.
Local Open Scope nat_scope.

Lemma teq : forall a b, text_eqb a b = true <-> a = b.
Proof. intros a b. unfold text_eqb. destruct (list_eq_dec ascii_dec a b); split; auto; discriminate. Qed.

(** ** the last word *)
Lemma exists_last_or : forall {A} (l : list A), l = [] \/ exists p c, l = p ++ [c].
Proof. intros A l. induction l using rev_ind; eauto. Qed.
Lemma words_nil : forall s, words s = [] <-> blanks s.
Proof.
  intro s. split.
  - induction s as [|c s IH]; intro H; [constructor|]. destruct (is_space c) eqn:E.
    + rewrite words_space in H by auto. constructor; auto. apply IH. auto.
    + exfalso. rewrite words_cons in H by auto. destruct s as [|d s]; [discriminate|].
      destruct (is_space d); [discriminate|]. destruct (words (d :: s)); discriminate.
  - apply words_blank.
Qed.
Lemma words_split : forall e, is_space e = true -> forall t x, words (t ++ e :: x) = words t ++ words x.
Proof.
  intros e F. induction t as [|g t IHt]; intro x.
  - cbn [app]. rewrite words_space by auto. reflexivity.
  - cbn [app]. destruct (is_space g) eqn:G.
    + rewrite !words_space by auto. apply IHt.
    + rewrite !words_cons by auto. destruct t as [|i t].
      * cbn [app]. rewrite F. rewrite words_space by auto. reflexivity.
      * cbn [app] in *. rewrite IHt. destruct (is_space i) eqn:II; [reflexivity|].
        destruct (words (i :: t)) eqn:WW; [|reflexivity].
        exfalso. apply words_nil in WW. inversion WW; subst. congruence.
Qed.
Lemma last_word_words : forall s w, last_word s w -> exists ws, words s = ws ++ [w].
Proof.
  intros s w (p & q & A & T & B & P). subst s. destruct P as [->|(p' & c & -> & C)].
  - exists []. cbn [app]. rewrite words_tail by auto. apply words_token. auto.
  - exists (words p'). rewrite <- app_assoc. cbn [app]. rewrite words_split by auto. rewrite words_tail by auto. rewrite (words_token w T). reflexivity.
Qed.
Lemma some_last_word : forall s, blanks s \/ exists w, last_word s w.
Proof.
  induction s as [|c s IH] using rev_ind; [left; constructor|]. destruct (is_space c) eqn:E.
  - destruct IH as [B|(w & p & q & A & T & B & P)].
    + left. apply Forall_app. split; auto.
    + right. exists w, p, (q ++ [c]). split; [rewrite A, <- !app_assoc; reflexivity|]. split; auto. split; auto. apply Forall_app. split; auto.
  - right. assert (T : token [c]) by (split; [discriminate|repeat constructor; auto]).
    destruct IH as [B|(w & p & q & A & T' & B & P)].
    + exists [c], s, []. split; [rewrite app_nil_r; reflexivity|]. split; auto. split; [constructor|].
      destruct (exists_last_or s) as [->|(s' & d & ->)]; [auto|]. right. exists s', d. split; auto.
      apply Forall_app in B. destruct B as [_ B]. inversion B; auto.
    + destruct (exists_last_or q) as [->|(q' & d & ->)].
      * exists (w ++ [c]), p, []. split; [rewrite A, !app_nil_r, <- app_assoc; reflexivity|]. split; [|split; [constructor|auto]].
        destruct T' as [T1 T2]. split; [destruct w; discriminate|]. apply Forall_app. split; auto.
      * exists [c], (p ++ w ++ q' ++ [d]), []. split; [rewrite A, app_nil_r; reflexivity|]. split; auto. split; [constructor|].
        right. exists (p ++ w ++ q'), d. split; [rewrite <- !app_assoc; reflexivity|]. apply Forall_app in B. destruct B as [_ B]. inversion B; auto.
Qed.
Lemma words_last_word : forall s ws w, words s = ws ++ [w] -> last_word s w.
Proof.
  intros s ws w H. destruct (some_last_word s) as [B|(v & L)].
  - apply words_nil in B. rewrite B in H. destruct ws; discriminate.
  - pose proof L as L0. apply last_word_words in L. destruct L as (vs & L). rewrite L in H. apply app_inj_tail in H. destruct H as [_ <-]. exact L0.
Qed.
Lemma well_sheet_spec : forall name,
  (well_sheet name = None <-> blanks name) /\ (well_sheet name = Some true <-> last_word name (lit "well")) /\
  (well_sheet name = Some false <-> exists w, last_word name w /\ w <> lit "well").
Proof.
  intro name. unfold well_sheet. destruct (exists_last_or (words name)) as [W|(ws & w & W)].
  - rewrite W. cbn [rev]. split; [split; auto; intros _; apply words_nil; auto|].
    split; split; try discriminate; [intro L|intros (v & L & _)]; apply last_word_words in L; destruct L as (vs & L); rewrite L in W; destruct vs; discriminate.
  - rewrite W, rev_app_distr. cbn [rev app]. pose proof (words_last_word _ _ _ W) as L.
    assert (U : forall v, last_word name v -> v = w).
    { intros v V. apply last_word_words in V. destruct V as (vs & V). rewrite V in W. apply app_inj_tail in W. tauto. }
    split; [split; [discriminate|]; intro B; apply words_nil in B; rewrite B in W; destruct ws; discriminate|].
    destruct (text_eqb w (lit "well")) eqn:E.
    + apply teq in E. split; split; auto; try discriminate.
      * intros _. rewrite <- E. exact L.
      * intros (v & V & N). apply U in V. congruence.
    + assert (w <> lit "well") by (intro K; apply teq in K; congruence). split; split; auto; try discriminate.
      * intro K. apply U in K. congruence.
      * intros _. exists w. auto.
Qed.
(** ** the sheets of wells *)
Lemma ref_well : a_well reference.
Proof. apply (proj1 (proj2 (well_sheet_spec reference))). reflexivity. Qed.
Lemma well_sheets_ok : forall names l, well_sheets names = Some l -> selects a_well names l /\ (forall n, In n names -> ~ blanks n).
Proof.
  induction names as [|n r IH]; intros l H; cbn in H.
  - injection H as <-. split; [constructor|intros ? []].
  - destruct (well_sheet_spec n) as (A & B & C). destruct (well_sheet n) as [b|] eqn:E; [|discriminate].
    destruct (well_sheets r) as [k|] eqn:F; [|discriminate]. destruct (IH _ eq_refl) as [S N]. injection H as <-. split.
    + destruct b; constructor; auto; [apply B; reflexivity|]. intro W. apply B in W. congruence.
    + intros m [<-|I]; auto. intro K. apply A in K. congruence.
Qed.
Lemma well_sheets_none : forall names, well_sheets names = None <-> exists n, In n names /\ blanks n.
Proof.
  induction names as [|n r IH]; cbn.
  - split; [discriminate|intros (? & [] & _)].
  - destruct (well_sheet_spec n) as (A & B & C). destruct (well_sheet n) as [b|] eqn:E.
    + assert (~ blanks n) by (intro K; apply A in K; congruence). destruct (well_sheets r) as [k|]; split; try discriminate.
      * intros (m & [<-|I] & K); [tauto|]. destruct IH as [_ IH]. exfalso. assert (Some k = None) by eauto. congruence.
      * intros _. destruct (proj1 IH eq_refl) as (m & I & K). eauto.
      * auto.
    + split; auto. intros _. exists n. split; auto. apply A. reflexivity.
Qed.
Lemma selects_in : forall (A : Type) (P : A -> Prop) l k, selects P l k -> forall x, In x k <-> In x l /\ P x.
Proof.
  intros A P l k S. induction S; intro y; cbn; [tauto| |].
  - rewrite IHS. split; [intros [<-|[]]; auto|intros [[<-|]]; auto].
  - rewrite IHS. split; [intros []; auto|intros [[<-|]]; tauto].
Qed.
Lemma selects_nodup : forall (A : Type) (P : A -> Prop) l k, selects P l k -> NoDup l -> NoDup k.
Proof.
  intros A P l k S. induction S; intro N; inversion N; subst; auto. constructor; auto.
  intro I. apply (selects_in _ _ _ _ S) in I. tauto.
Qed.
Lemma columns_ok : forall s, exists rows, selects (fun row => is_number (letter_col "B" row)) (skipn 16 s) rows /\
  well_columns s = map (fun nc => (fst nc, map (letter_col (snd nc)) rows)) station_columns.
Proof.
  intro s. exists (filter (fun row => numeric (nth 1 row Blank)) (skipn 16 s)). split; [|reflexivity].
  apply filter_selects. intro row. apply numeric_spec.
Qed.
Lemma cell_named_ok : forall s n, 0 < n -> cell_named "I" n s (cell_at s n 9).
Proof.
  intros s n N. unfold cell_named, cell_at. replace (n - 1) with (pred n) by lia. destruct (nth_error s (pred n)) as [row|] eqn:E.
  - left. exists row. split; auto. rewrite (nth_error_nth _ _ _ E). reflexivity.
  - right. apply nth_error_None in E. split; [lia|]. rewrite (nth_overflow s [] E). reflexivity.
Qed.
Lemma open_in : forall wb n s, open_sheet wb n = Some s -> In (n, s) wb.
Proof. intros. eapply dget_in; eauto using teq. Qed.
Lemma open_none : forall wb n, open_sheet wb n = None <-> ~ In n (map fst wb).
Proof. intros. apply dget_none. apply teq. Qed.
Lemma put_new : forall (V : Type) n (v : V) d, ~ In n (map fst d) -> dput text_eqb n v d = d ++ [(n, v)].
Proof.
  induction d as [|[a w] d IH]; intro N; [reflexivity|]. cbn in *. destruct (text_eqb n a) eqn:E; [apply teq in E; subst; tauto|].
  rewrite IH; tauto.
Qed.
Lemma load_ok : forall wb names d d', NoDup names -> (forall n, In n names -> ~ In n (map fst (d_wells d))) ->
  load_wells wb names d = Some d' ->
  exists new, d_wells d' = d_wells d ++ new /\ Forall2 (fun n kv => fst kv = n /\ describes_well wb n (snd kv)) names new /\
    (In reference names -> exists s, In (reference, s) wb /\ d_acr d' = acr_setup s) /\ (~ In reference names -> d_acr d' = d_acr d) /\
    (forall n, In n names -> n <> reference -> In (clearance_of n) (map fst wb)).
Proof.
  intros wb names. induction names as [|n r IH]; intros d d' ND F H; cbn [load_wells] in H.
  - injection H as <-. exists []. rewrite app_nil_r. split; [reflexivity|]. split; [constructor|]. split; [intros []|]. split; [reflexivity|intros ? []].
  - inversion ND as [|? ? N1 N2]; subst. destruct (open_sheet wb n) as [s|] eqn:O; [|discriminate]. apply open_in in O.
    destruct (columns_ok s) as (rows & S & C).
    assert (FN : ~ In n (map fst (d_wells d))) by (apply F; left; reflexivity).
    assert (FR : forall v m, In m r -> ~ In m (map fst (dput text_eqb n v (d_wells d)))).
    { intros v m M. rewrite put_new, map_app by auto. intro I. apply in_app_or in I. cbn in I.
      destruct I as [I|[<-|[]]]; [|tauto]. revert I. apply F. right. exact M. }
    destruct (text_eqb n (lit "Reference well")) eqn:E.
    + apply teq in E. change (n = reference) in E. apply IH in H; cbn [d_wells d_acr]; auto.
      destruct H as (new & A & B & _ & D & G). cbn [d_wells d_acr] in A, D. rewrite put_new in A by auto. rewrite <- app_assoc in A.
      exists ((n, mkWell (well_columns s) None) :: new). split; [exact A|]. split.
      { constructor; auto. split; auto. exists s, rows. cbn [snd w_columns w_sf]. repeat (split; auto). intro K. congruence. }
      split; [|split].
      * intros _. exists s. rewrite <- E. split; auto. apply D. rewrite <- E. exact N1.
      * intro K. elim K. left. exact E.
      * intros m [<-|M]; [congruence|auto].
    + assert (NE : n <> reference) by (intro K; apply teq in K; unfold reference in K; congruence).
      destruct (open_sheet wb (firstn 5 n ++ lit "clearance")) as [c|] eqn:P; [|discriminate]. apply open_in in P.
      apply IH in H; cbn [d_wells d_acr]; auto.
      destruct H as (new & A & B & X & D & G). cbn [d_wells d_acr] in A, D. rewrite put_new in A by auto. rewrite <- app_assoc in A.
      exists ((n, mkWell (well_columns s) (Some (factors c))) :: new). split; [exact A|]. split.
      { constructor; auto. split; auto. exists s, rows. cbn [snd w_columns w_sf]. repeat (split; auto); [congruence|]. intros _. exists c. auto. }
      split; [|split].
      * intros [K|K]; [congruence|auto].
      * intro K. apply D. intro I. apply K. right. exact I.
      * intros m [<-|M] Q; auto. apply in_map_iff. exists (clearance_of n, c). auto.
Qed.
Lemma load_none : forall wb names d, (forall n, In n names -> In n (map fst wb)) ->
  load_wells wb names d = None -> exists n, In n names /\ n <> reference /\ ~ In (clearance_of n) (map fst wb).
Proof.
  intros wb names. induction names as [|n r IH]; intros d I H; cbn [load_wells] in H; [discriminate|].
  destruct (open_sheet wb n) as [s|] eqn:O; [|apply open_none in O; elim O; apply I; left; reflexivity].
  assert (R : forall d0, load_wells wb r d0 = None -> exists m, In m (n :: r) /\ m <> reference /\ ~ In (clearance_of m) (map fst wb)).
  { intros d0 L. apply IH in L; [|intros; apply I; right; auto]. destruct L as (m & M & L). exists m. split; [right|]; auto. }
  destruct (text_eqb n (lit "Reference well")) eqn:E; [eauto|].
  destruct (open_sheet wb (firstn 5 n ++ lit "clearance")) as [c|] eqn:P; [eauto|].
  apply open_none in P. exists n. split; [left; auto|]. split; auto. intro K. apply teq in K. unfold reference in K. congruence.
Qed.
Lemma selects_total : forall names l, selects a_well names l -> forall n, In n l -> In n names.
Proof. intros names l S n I. apply (selects_in _ _ _ _ S) in I. tauto. Qed.

(** what is read *)
Lemma standard_data_read : forall wb d, NoDup (map fst wb) -> get_standard_data wb = Some d ->
  selects a_well (map fst wb) (map fst (d_wells d)) /\
  (forall name w, In (name, w) (d_wells d) -> describes_well wb name w) /\ describes_rule wb (d_acr d).
Proof.
  intros wb d ND H. unfold get_standard_data in H. destruct (well_sheets (map fst wb)) as [names|] eqn:W; [|discriminate].
  apply well_sheets_ok in W. destruct W as [S _]. apply load_ok in H; [|eapply selects_nodup; eauto|intros ? ? []].
  destruct H as (new & A & B & X & D & _). cbn [d_wells d_acr app] in A, D. rewrite A.
  assert (M : map fst new = names) by (clear - B; induction B as [|? ? ? ? [H _]]; cbn; congruence).
  rewrite M. split; [exact S|]. split.
  - intros name w I. clear - B I. induction B as [|n [m v] r r' [E P]]; [destruct I|]. cbn in E, P, I. destruct I as [I|I]; auto. injection I as <- <-. rewrite E. exact P.
  - assert (RW : In reference names <-> In reference (map fst wb)).
    { rewrite (selects_in _ _ _ _ S). pose proof ref_well. tauto. }
    split; rewrite <- RW; auto. intro R. destruct (X R) as (s & I & Q). exists s. split; auto. rewrite Q. split; [reflexivity|].
    intros i v N. cbn in N. do 5 (destruct i as [|i]; [cbn in N; injection N as <-; apply cell_named_ok; lia|]). destruct i; discriminate.
Qed.
Lemma standard_data_fails : forall wb, NoDup (map fst wb) ->
  (get_standard_data wb = None <->
   (exists name, In name (map fst wb) /\ blanks name) \/
   (exists name, In name (map fst wb) /\ a_well name /\ name <> reference /\ ~ In (clearance_of name) (map fst wb))).
Proof.
  intros wb ND. unfold get_standard_data. destruct (well_sheets (map fst wb)) as [names|] eqn:W.
  - pose proof W as W0. apply well_sheets_ok in W. destruct W as [S NB]. split.
    + intro L. right. apply load_none in L; [|eauto using selects_total]. destruct L as (n & I & P). exists n.
      apply (selects_in _ _ _ _ S) in I. tauto.
    + intros [(n & I & B)|(n & I & A & N & C)]; [elim (NB _ I B)|].
      destruct (load_wells wb names (mkData [] [])) as [d'|] eqn:L; [|reflexivity]. exfalso.
      apply load_ok in L; [|eapply selects_nodup; eauto|intros ? ? []]. destruct L as (_ & _ & _ & _ & _ & G). apply C, G; auto.
      apply (selects_in _ _ _ _ S). auto.
  - split; auto. intros _. left. apply well_sheets_none. exact W.
Qed.
(** the imported data are never enough for make_survey *)
Lemma no_survey_from_data : forall (A : Type) (rest : well -> option A) wb d, NoDup (map fst wb) ->
  get_standard_data wb = Some d -> make_survey rest d = None.
Proof.
  intros A rest wb d ND H. apply standard_data_read in H; auto. destruct H as (S & _ & _). unfold make_survey.
  replace (dget text_eqb (lit "offset") (d_wells d)) with (@None well); [reflexivity|]. symmetry. apply dget_none; [apply teq|].
  intro I. apply (selects_in _ _ _ _ S) in I. destruct I as [_ I]. unfold a_well in I.
  apply (proj1 (proj2 (well_sheet_spec _))) in I. discriminate.
Qed.

(** ** a workbook *)
Definition station (md : R) (rest : list cell) : list cell := Blank :: Num md :: rest.
Definition small_book : workbook :=
  [(lit "Reference well", repeat [] 16 ++ [station 0 []; [Blank; Str (lit "note")]; station 30 [Num 1]]);
   (lit "01 - well", repeat [] 16 ++ [station 0 []; station 30 []]);
   (lit "01 - clearance", repeat [] 4 ++ [repeat Blank 14 ++ [Num 2]]);
   (lit "01 - left well", repeat [] 16 ++ [station 5 []])].
Lemma small_names : NoDup (map fst small_book).
Proof. cbn. repeat constructor; cbn; intuition discriminate. Qed.
Lemma small_read : exists d, get_standard_data small_book = Some d /\
  map fst (d_wells d) = [lit "Reference well"; lit "01 - well"; lit "01 - left well"] /\
  (exists w, dget text_eqb (lit "Reference well") (d_wells d) = Some w /\ dget String.eqb "IncDeg"%string (w_columns w) = Some [Blank; Num 1]).
Proof. eexists. split; [reflexivity|]. split; [reflexivity|]. eexists. split; reflexivity. Qed.
(** factors are not matched with stations: there may be fewer, and two wells with the
    same first five characters get the same ones *)
Lemma factors_not_matched : exists wb d w1 w2 mds, NoDup (map fst wb) /\ get_standard_data wb = Some d /\
  In (lit "01 - well", w1) (d_wells d) /\ In (lit "01 - left well", w2) (d_wells d) /\
  w_sf w1 = w_sf w2 /\ In ("MD"%string, mds) (w_columns w1) /\ option_map (@length cell) (w_sf w1) = Some 1 /\ length mds = 2.
Proof.
  exists small_book. do 4 eexists. split; [apply small_names|]. split; [reflexivity|]. cbn -[lit]. split; [right; left; reflexivity|].
  split; [right; right; left; reflexivity|]. split; [reflexivity|]. split; [left; reflexivity|]. split; reflexivity.
Qed.
