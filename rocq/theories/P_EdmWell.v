(** C126-C128. *)
Require Import Reals Bool String List Sorted Lra Lia.
Require Import Verif.M_Edm Verif.Spec_Edm Verif.M_EdmWell Verif.Spec_EdmWell.
Import ListNotations.
Open Scope string_scope.
Open Scope list_scope.

(** ** dictionaries *)
Lemma get_put : forall V k k' (v : V) d, get k (put k' v d) = if String.eqb k k' then Some v else get k d.
Proof.
  intros V k k' v d. induction d as [|[j w] d IH]; cbn; [reflexivity|].
  destruct (String.eqb_spec k' j) as [->|N]; cbn.
  - destruct (String.eqb k j); reflexivity.
  - rewrite IH. destruct (String.eqb_spec k j) as [->|M]; [|reflexivity]. destruct (String.eqb_spec j k') as [->|_]; [contradiction|reflexivity].
Qed.
Lemma in_put : forall V k (v : V) d x, In x (map fst (put k v d)) <-> x = k \/ In x (map fst d).
Proof.
  intros V k v d x. induction d as [|[j w] d IH]; cbn; [split; intros [H|H]; auto|].
  destruct (String.eqb_spec k j) as [->|N]; cbn; [|rewrite IH]; intuition congruence.
Qed.
Lemma dict_put : forall V k (v : V) d, a_dict d -> a_dict (put k v d).
Proof.
  unfold a_dict. intros V k v d. induction d as [|[j w] d IH]; cbn; intro H; [repeat constructor; auto|].
  destruct (String.eqb_spec k j) as [->|N]; cbn; [exact H|]. inversion H as [|? ? H1 H2]; subst. constructor; [|auto].
  rewrite in_put. intros [E|E]; [congruence|contradiction].
Qed.
Lemma get_In : forall V k (v : V) d, get k d = Some v -> In (k, v) d.
Proof. intros V k v d. induction d as [|[j w] d IH]; cbn; intro H; [discriminate|]. destruct (String.eqb_spec k j) as [->|N]; [injection H as ->; auto|auto]. Qed.
Lemma In_get : forall V k (v : V) d, a_dict d -> In (k, v) d -> get k d = Some v.
Proof.
  unfold a_dict. intros V k v d. induction d as [|[j w] d IH]; cbn; intros H E; [destruct E|]. destruct E as [E|E].
  - injection E as -> ->. rewrite String.eqb_refl. reflexivity.
  - inversion H as [|? ? H1 H2]; subst. destruct (String.eqb_spec k j) as [->|N]; [|auto]. destruct H1. apply (in_map fst) in E. exact E.
Qed.
Lemma in_put_iff : forall V k (v : V) d x y, a_dict d -> (In (x, y) (put k v d) <-> (x = k /\ y = v) \/ (x <> k /\ In (x, y) d)).
Proof.
  intros V k v d x y H. split.
  - intro I. apply In_get in I; [|apply dict_put; exact H]. rewrite get_put in I. destruct (String.eqb_spec x k) as [->|N].
    + injection I as ->. auto. + right. split; [exact N|apply get_In; exact I].
  - intro I. apply get_In. rewrite get_put. destruct (String.eqb_spec x k) as [->|N].
    + destruct I as [[_ ->]|[I _]]; [reflexivity|contradiction]. + destruct I as [[-> _]|[_ I]]; [contradiction|apply In_get; auto].
Qed.

(** ** wellbores *)
Lemma last_named_cons : forall e doc n a, last_named (e :: doc) n a <->
  last_named doc n a \/ (e = ("CD_WELLBORE", a) /\ name_of a = Some n /\ forall b, wellbore doc b -> name_of b <> Some n).
Proof.
  intros e doc n a. unfold last_named. split.
  - intros ([|x before] & after & E & N & F); injection E as -> ->.
    + right. auto. + left. exists before, after. auto.
  - intros [(before & after & -> & N & F)|(-> & N & F)].
    + exists (e :: before), after. auto. + exists [], doc. auto.
Qed.
Lemma last_named_some : forall doc n a, wellbore doc a -> name_of a = Some n -> exists b, last_named doc n b.
Proof.
  unfold wellbore. intros doc n. induction doc as [|e doc IH]; intros a W N; [destruct W|].
  assert (DEC : (exists b, wellbore doc b /\ name_of b = Some n) \/ (forall b, wellbore doc b -> name_of b <> Some n)).
  { clear. unfold wellbore. induction doc as [|[t b] doc IH]; [right; intros b H; destruct H|].
    destruct IH as [(c & C & N)|F]; [left; exists c; split; [right; exact C|exact N]|].
    destruct (string_dec t "CD_WELLBORE") as [->|T].
    - destruct (option_map (String.eqb n) (name_of b)) as [[|]|] eqn:Q.
      + left. exists b. split; [left; reflexivity|]. destruct (name_of b) as [m|]; [|discriminate]. cbn in Q. injection Q as Q. apply String.eqb_eq in Q. congruence.
      + right. intros c [E|H]; [injection E as <-|auto]. destruct (name_of b) as [m|]; [|discriminate]. cbn in Q. injection Q as Q. apply String.eqb_neq in Q. congruence.
      + right. intros c [E|H]; [injection E as <-|auto]. destruct (name_of b) as [m|]; discriminate.
    - right. intros c [E|H]; [congruence|auto]. }
  destruct DEC as [(b & B & M)|F].
  - destruct (IH b B M) as [c C]. exists c. apply last_named_cons. auto.
  - destruct W as [->|W]; [|destruct (F a W N)]. exists a. apply last_named_cons. auto.
Qed.
Lemma last_named_in : forall doc n a, last_named doc n a -> wellbore doc a /\ name_of a = Some n.
Proof. intros doc n a (before & after & -> & N & _). split; [|exact N]. unfold wellbore. apply in_or_app. right. left. reflexivity. Qed.

Definition named_all (doc : list element) : Prop := forall a, wellbore doc a -> exists n, name_of a = Some n.
Lemma ids_from : forall doc d, a_dict d -> named_all doc ->
  exists l, wellbore_ids_from doc d = Some l /\ a_dict l /\
    forall n a, In (n, a) l <-> last_named doc n a \/ (In (n, a) d /\ forall b, wellbore doc b -> name_of b <> Some n).
Proof.
  induction doc as [|[t x] doc IH]; intros d D L.
  { exists d. split; [reflexivity|]. split; [exact D|]. intros n a. split.
    - intro I. right. split; [exact I|]. intros b B. destruct B.
    - intros [(before & after & E & _)|[I _]]; [destruct before; discriminate E|exact I]. }
  cbn [wellbore_ids_from]. unfold is_wellbore. cbn [tag_of fst snd].
  assert (L' : named_all doc) by (intros a W; apply L; right; exact W).
  destruct (String.eqb_spec t "CD_WELLBORE") as [->|T].
  - destruct (L x) as [m M]; [left; reflexivity|]. unfold name_of in M. rewrite M.
    destruct (IH (put m x d) (dict_put _ _ _ _ D) L') as (l & E & DL & C). exists l. split; [exact E|]. split; [exact DL|].
    intros n a. rewrite C, last_named_cons, in_put_iff by exact D. split.
    + intros [H|[[[-> ->]|[N I]] F]]; [auto| |].
      * left. right. auto.
      * right. split; [exact I|]. intros b [B|B]; [injection B as <-; unfold name_of; congruence|auto].
    + intros [[H|(E' & N & F)]|[I F]]; [auto| |].
      * injection E' as ->. unfold name_of in N. assert (n = m) by congruence. subst m. right. auto.
      * right. assert (N : n <> m). { intro Q. subst m. apply (F x); [left; reflexivity|exact M]. }
        split; [right; auto|]. intros b B. apply F. right. exact B.
  - destruct (IH d D L') as (l & E & DL & C). exists l. split; [exact E|]. split; [exact DL|].
    intros n a. rewrite C, last_named_cons. split.
    + intros [H|[I F]]; [auto|]. right. split; [exact I|]. intros b [B|B]; [congruence|auto].
    + intros [[H|(E' & _)]|[I F]]; [auto|congruence|]. right. split; [exact I|]. intros b B. apply F. right. exact B.
Qed.
Lemma wellbore_ids_spec : forall doc, named_all doc ->
  exists l, wellbore_ids doc = Some l /\ a_dict l /\ forall n a, In (n, a) l <-> last_named doc n a.
Proof.
  intros doc L. destruct (ids_from doc [] (NoDup_nil _) L) as (l & E & D & C). exists l. split; [exact E|]. split; [exact D|].
  intros n a. rewrite C. split; [intros [H|[[] _]]; exact H|auto].
Qed.
Lemma wellbore_ids_fail : forall doc d, ~ named_all doc -> wellbore_ids_from doc d = None.
Proof.
  induction doc as [|[t x] doc IH]; intros d L. { destruct L. intros a W. destruct W. }
  cbn [wellbore_ids_from]. unfold is_wellbore. cbn [tag_of fst snd]. destruct (String.eqb_spec t "CD_WELLBORE") as [->|T].
  - destruct (get "wellbore_name" x) as [m|] eqn:M; [|reflexivity]. apply IH. intro L'. apply L. intros a [W|W]; [injection W as <-; exists m; exact M|auto].
  - apply IH. intro L'. apply L. intros a [W|W]; [congruence|auto].
Qed.
Lemma labelled_named : forall doc, labelled doc -> named_all doc.
Proof. intros doc L a W. exact (proj1 (L a W)). Qed.

(** the two look-up tables *)
Lemma tables_spec : forall l d e, (forall n a, In (n, a) l -> name_of a = Some n /\ exists i, id_of a = Some i) -> a_dict l ->
  (forall n a n' a', In (n, a) l -> In (n', a') l -> id_of a = id_of a' -> n = n') ->
  exists d' e', name_tables l d e = Some (d', e') /\
    (forall i n, get i d' = Some n <-> (exists a, In (n, a) l /\ id_of a = Some i) \/ (get i d = Some n /\ forall m a, In (m, a) l -> id_of a <> Some i)) /\
    (forall n i, get n e' = Some i <-> (exists a, In (n, a) l /\ id_of a = Some i) \/ (get n e = Some i /\ ~ In n (map fst l))).
Proof.
  induction l as [|[n0 a0] l IH]; intros d e N D U.
  { exists d, e. split; [reflexivity|]. split; intros x y; (split; [intro H; right; split; [exact H|auto]|intros [(a & [] & _)|[H _]]; exact H]). }
  cbn [name_tables]. destruct (N n0 a0) as [M [i0 I0]]; [left; reflexivity|]. unfold name_of, id_of in M, I0. rewrite M, I0.
  inversion D as [|? ? D1 D2]; subst.
  assert (U' : forall n a n' a', In (n, a) l -> In (n', a') l -> id_of a = id_of a' -> n = n') by (intros; eapply U; eauto; right; auto).
  destruct (IH (put i0 n0 d) (put n0 i0 e)) as (d' & e' & E & C1 & C2); auto. { intros n a H. apply N. right. exact H. }
  exists d', e'. split; [exact E|]. split.
  - intros i n. rewrite C1, get_put. split.
    + intros [(a & A & Q)|[G F]]; [left; exists a; split; [right; exact A|exact Q]|].
      destruct (String.eqb_spec i i0) as [->|NE].
      * injection G as ->. left. exists a0. split; [left; reflexivity|exact I0].
      * right. split; [exact G|]. intros m a [H|H]; [injection H as <- <-; unfold id_of; congruence|eauto].
    + intros [(a & [A|A] & Q)|[G F]].
      * injection A as -> ->. unfold id_of in Q. assert (i = i0) by congruence. subst i.
        destruct (in_dec string_dec i0 (map (fun x : string * attrib => match id_of (snd x) with Some i => i | None => "" end) l)) as [Y|Y].
        { apply in_map_iff in Y. destruct Y as ([m b] & Y1 & Y2). cbn [snd] in Y1. destruct (N m b) as [_ [j J]]; [right; exact Y2|]. rewrite J in Y1. subst j.
          assert (n = m). { apply (U n a m b); [left; reflexivity|right; exact Y2|unfold id_of in *; congruence]. }
          subst m. left. exists b. auto. }
        { right. rewrite String.eqb_refl. split; [reflexivity|]. intros m b B Z. apply Y. apply in_map_iff. exists (m, b). split; [cbn [snd]; rewrite Z; reflexivity|exact B]. }
      * left. exists a. auto.
      * right. destruct (String.eqb_spec i i0) as [->|NE]; [destruct (F n0 a0); [left; reflexivity|exact I0]|]. split; [exact G|]. intros m a H. apply (F m). right. exact H.
  - intros n i. rewrite C2, get_put. split.
    + intros [(a & A & Q)|[G F]]; [left; exists a; split; [right; exact A|exact Q]|].
      destruct (String.eqb_spec n n0) as [->|NE].
      * injection G as ->. left. exists a0. split; [left; reflexivity|exact I0].
      * right. split; [exact G|]. intros [H|H]; [cbn in H; congruence|contradiction].
    + intros [(a & [A|A] & Q)|[G F]].
      * injection A as -> ->. right. rewrite String.eqb_refl. unfold id_of in Q. split; [congruence|exact D1].
      * left. exists a. auto.
      * right. destruct (String.eqb_spec n n0) as [->|NE]; [destruct F; left; reflexivity|]. split; [exact G|]. intro H. apply F. right. exact H.
Qed.

Lemma in_split_later : forall doc a b, wellbore doc a -> wellbore doc b -> a <> b ->
  exists before after, (doc = before ++ ("CD_WELLBORE", a) :: after /\ wellbore after b) \/ (doc = before ++ ("CD_WELLBORE", b) :: after /\ wellbore after a).
Proof.
  unfold wellbore. induction doc as [|e doc IH]; intros a b A B N; [destruct A|].
  destruct A as [->|A].
  - destruct B as [B|B]; [congruence|]. exists [], doc. auto.
  - destruct B as [->|B]; [exists [], doc; auto|]. destruct (IH a b A B N) as (x & y & [[-> W]|[-> W]]); exists (e :: x), y; auto.
Qed.
Lemma ids_inj : forall doc a b, ids_differ doc -> wellbore doc a -> wellbore doc b -> id_of a = id_of b -> a = b.
Proof.
  intros doc a b D A B E. assert (DEC : a = b \/ a <> b). { destruct (list_eq_dec (fun x y : string * string => ltac:(decide equality; apply string_dec)) a b); auto. }
  destruct DEC as [H|N]; [exact H|]. destruct (in_split_later doc a b A B N) as (x & y & [[-> W]|[-> W]]); exfalso; eapply D; eauto.
Qed.

Lemma table_of : forall doc, labelled doc -> ids_differ doc ->
  exists l d e, wellbore_ids doc = Some l /\ name_tables l [] [] = Some (d, e) /\
    (forall i n, get i d = Some n <-> exists a, last_named doc n a /\ id_of a = Some i) /\
    (forall n i, get n e = Some i <-> exists a, last_named doc n a /\ id_of a = Some i).
Proof.
  intros doc L D. destruct (wellbore_ids_spec doc (labelled_named _ L)) as (l & E & DL & C).
  destruct (tables_spec l [] []) as (d & e & T & T1 & T2).
  - intros n a I. apply C in I. destruct (last_named_in _ _ _ I) as [W N]. split; [exact N|exact (proj2 (L a W))].
  - exact DL.
  - intros n a n' a' I I' Q. apply C in I. apply C in I'. destruct (last_named_in _ _ _ I) as [W N]. destruct (last_named_in _ _ _ I') as [W' N'].
    assert (a = a') by (eapply ids_inj; eauto). congruence.
  - exists l, d, e. split; [exact E|]. split; [exact T|]. split.
    + intros i n. rewrite T1. split; [intros [(a & I & Q)|[X _]]; [exists a; rewrite <- C; auto|discriminate]|]. intros (a & I & Q). left. exists a. rewrite C. auto.
    + intros n i. rewrite T2. split; [intros [(a & I & Q)|[X _]]; [exists a; rewrite <- C; auto|discriminate]|]. intros (a & I & Q). left. exists a. rewrite C. auto.
Qed.
Lemma found_by_name : forall doc n i m, labelled doc -> ids_differ doc ->
  (find_wellbore doc n true = Some (i, m) <-> m = n /\ exists a, last_named doc n a /\ id_of a = Some i).
Proof.
  intros doc n i m L D. destruct (table_of doc L D) as (l & d & e & E & T & _ & T2). unfold find_wellbore. rewrite E, T. rewrite <- T2.
  destruct (get n e) as [j|]; split; [intro H; injection H as -> <-; auto|intros [-> H]; congruence|discriminate|intros [_ H]; discriminate].
Qed.
Lemma found_by_id : forall doc i j n, labelled doc -> ids_differ doc ->
  (find_wellbore doc i false = Some (j, n) <-> j = i /\ exists a, last_named doc n a /\ id_of a = Some i).
Proof.
  intros doc i j n L D. destruct (table_of doc L D) as (l & d & e & E & T & T1 & _). unfold find_wellbore. rewrite E, T. rewrite <- T1.
  destruct (get i d) as [m|]; split; [intro H; injection H as <- ->; auto|intros [-> H]; congruence|discriminate|intros [_ H]; discriminate].
Qed.
(** a wellbore whose name is used again later is not found by its id *)
Lemma shadowed : forall before a after b i, labelled (before ++ ("CD_WELLBORE", a) :: after) -> ids_differ (before ++ ("CD_WELLBORE", a) :: after) ->
  wellbore after b -> name_of b = name_of a -> id_of a = Some i -> find_wellbore (before ++ ("CD_WELLBORE", a) :: after) i false = None.
Proof.
  intros before a after b i L D B N I. destruct (find_wellbore _ i false) as [[j n]|] eqn:E; [|reflexivity].
  apply found_by_id in E; auto. destruct E as (_ & c & C & CI). exfalso. destruct (last_named_in _ _ _ C) as [W CN].
  assert (WA : wellbore (before ++ ("CD_WELLBORE", a) :: after) a) by (apply in_or_app; right; left; reflexivity).
  assert (c = a) by (eapply ids_inj; eauto; congruence). subst c.
  destruct C as (x & y & E' & _ & F).
  assert (SPLIT : wellbore y b).
  { revert x E'. clear - D B. induction before as [|z before IH]; intros [|w x] E'; cbn in E'.
    - injection E' as <-. exact B.
    - injection E' as <- E'. exfalso. assert (A : wellbore after a) by (rewrite E'; apply in_or_app; right; left; reflexivity). exact (D [] a after a eq_refl A eq_refl).
    - injection E' as -> E'. exfalso. assert (A : wellbore (before ++ ("CD_WELLBORE", a) :: after) a) by (apply in_or_app; right; left; reflexivity). exact (D [] a _ a eq_refl A eq_refl).
    - injection E' as <- E'. apply (IH (fun p q r s t u => D (z :: p) q r s (f_equal (cons z) t) u) x E'). }
  apply (F b SPLIT). congruence.
Qed.
Lemma graph_spec : forall l nodes edges, (forall n a, In (n, a) l -> exists i, id_of a = Some i) ->
  exists nodes' edges', graph_from l nodes edges = Some (nodes', edges') /\
    (forall p w, In (p, w) edges' <-> In (p, w) edges \/ exists n a, In (n, a) l /\ id_of a = Some w /\ get "parent_wellbore_id" a = Some p) /\
    (forall x, In x nodes' <-> In x nodes \/ exists n a, In (n, a) l /\ (id_of a = Some x \/ get "parent_wellbore_id" a = Some x)).
Proof.
  induction l as [|[n0 a0] l IH]; intros nodes edges L.
  { exists nodes, edges. split; [reflexivity|]. split; [intros p w|intro x]; (split; [auto|intros [H|(n & a & [] & _)]; exact H]). }
  cbn [graph_from]. destruct (L n0 a0) as [w0 W0]; [left; reflexivity|]. unfold id_of in W0. rewrite W0.
  assert (L' : forall n a, In (n, a) l -> exists i, id_of a = Some i) by (intros n a H; apply (L n a); right; exact H).
  destruct (get "parent_wellbore_id" a0) as [p0|] eqn:P.
  - destruct (IH (nodes ++ [p0; w0]) (edges ++ [(p0, w0)]) L') as (ns & es & E & C1 & C2). exists ns, es. split; [exact E|]. split.
    + intros p w. rewrite C1, in_app_iff. split.
      * intros [[H|[H|[]]]|(n & a & A & Q)]; [auto| |right; exists n, a; split; [right; exact A|exact Q]].
        injection H as <- <-. right. exists n0, a0. split; [left; reflexivity|auto].
      * intros [H|(n & a & [A|A] & Q1 & Q2)]; [auto| |right; exists n, a; auto]. injection A as -> ->. left. right. left. unfold id_of in Q1. congruence.
    + intro x. rewrite C2, in_app_iff. split.
      * intros [[H|[<-|[<-|[]]]]|(n & a & A & Q)]; [auto|right; exists n0, a0; split; [left; reflexivity|auto]|right; exists n0, a0; split; [left; reflexivity|auto]|].
        right. exists n, a. split; [right; exact A|exact Q].
      * intros [H|(n & a & [A|A] & Q)]; [auto| |right; exists n, a; auto]. injection A as -> ->. left. right. unfold id_of in Q. destruct Q as [Q|Q]; [right; left|left]; congruence.
  - destruct (IH (nodes ++ [w0]) edges L') as (ns & es & E & C1 & C2). exists ns, es. split; [exact E|]. split.
    + intros p w. rewrite C1. split.
      * intros [H|(n & a & A & Q)]; [auto|right; exists n, a; split; [right; exact A|exact Q]].
      * intros [H|(n & a & [A|A] & Q1 & Q2)]; [auto|injection A as -> ->; congruence|right; exists n, a; auto].
    + intro x. rewrite C2, in_app_iff. split.
      * intros [[H|[<-|[]]]|(n & a & A & Q)]; [auto|right; exists n0, a0; split; [left; reflexivity|auto]|]. right. exists n, a. split; [right; exact A|exact Q].
      * intros [H|(n & a & [A|A] & Q)]; [auto| |right; exists n, a; auto]. injection A as -> ->. left. right. left. unfold id_of in Q. destruct Q as [Q|Q]; congruence.
Qed.
Lemma graph_of_wells : forall doc, labelled doc ->
  exists nodes edges, wellbore_graph doc = Some (nodes, edges) /\
    (forall p w, In (p, w) edges <-> exists n a, last_named doc n a /\ id_of a = Some w /\ get "parent_wellbore_id" a = Some p) /\
    (forall x, In x nodes <-> exists n a, last_named doc n a /\ (id_of a = Some x \/ get "parent_wellbore_id" a = Some x)).
Proof.
  intros doc L. destruct (wellbore_ids_spec doc (labelled_named _ L)) as (l & E & DL & C). unfold wellbore_graph. rewrite E.
  destruct (graph_spec l [] []) as (ns & es & G & C1 & C2).
  { intros n a I. apply C in I. destruct (last_named_in _ _ _ I) as [W N]. exact (proj2 (L a W)). }
  exists ns, es. split; [exact G|]. split.
  - intros p w. rewrite C1. split; [intros [[]|(n & a & A & Q)]|intros (n & a & A & Q); right]; exists n, a; [rewrite <- C|rewrite C]; auto.
  - intro x. rewrite C2. split; [intros [[]|(n & a & A & Q)]|intros (n & a & A & Q); right]; exists n, a; [rewrite <- C|rewrite C]; auto.
Qed.
(** with different names the edges are the parents *)
Lemma graph_parents : forall doc, labelled doc -> names_differ doc ->
  exists nodes edges, wellbore_graph doc = Some (nodes, edges) /\ (forall p w, In (p, w) edges <-> parent_of doc w p) /\
    (forall a i, wellbore doc a -> id_of a = Some i -> In i nodes).
Proof.
  intros doc L D. destruct (graph_of_wells doc L) as (ns & es & G & C1 & C2). exists ns, es. split; [exact G|].
  assert (ALL : forall a n, wellbore doc a -> name_of a = Some n -> last_named doc n a).
  { intros a n W N. apply in_split in W. destruct W as (x & y & ->). exists x, y. split; [reflexivity|]. split; [exact N|]. intros b B. rewrite <- N. exact (D x a y b eq_refl B). }
  split.
  - intros p w. rewrite C1. split.
    + intros (n & a & A & Q1 & Q2). destruct (last_named_in _ _ _ A). exists a. auto.
    + intros (a & W & Q1 & Q2). destruct (L a W) as [[n N] _]. exists n, a. auto.
  - intros a i W I. rewrite C2. destruct (L a W) as [[n N] _]. exists n, a. auto.
Qed.
