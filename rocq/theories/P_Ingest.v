(** Reading the Model sheet and writing the dictionary of codes. *)
Require Import Reals ZArith Ascii String List Bool Lra Lia.
Require Import Verif.Base Verif.NumPy Verif.M_Utils Verif.M_Text Verif.Spec_Text Verif.P_Text Verif.P_Trig Verif.M_Ingest Verif.Spec_Ingest.
Import ListNotations.
Open Scope list_scope.
Local Open Scope nat_scope.

(** ** texts *)
Lemma text_eqb_spec : forall a b, text_eqb a b = true <-> a = b.
Proof. intros a b. unfold text_eqb. destruct (list_eq_dec ascii_dec a b); split; congruence. Qed.
Lemma text_eqb_neq : forall a b, text_eqb a b = false <-> a <> b.
Proof. intros a b. unfold text_eqb. destruct (list_eq_dec ascii_dec a b); split; congruence. Qed.
Lemma text_eqb_same : forall a, text_eqb a a = true.
Proof. intro a. apply text_eqb_spec. reflexivity. Qed.
Lemma lstrip_blanks : forall p s, blanks p -> lstrip (p ++ s) = lstrip s.
Proof. intros p s F. induction F as [|c p C F IH]; [reflexivity|]. cbn. rewrite C. exact IH. Qed.
Lemma rstrip_blanks : forall q s, blanks q -> rstrip (s ++ q) = rstrip s.
Proof. intros q s F. unfold rstrip. rewrite rev_app_distr, lstrip_blanks; [reflexivity|]. apply Forall_rev. exact F. Qed.
Lemma lstrip_split : forall s, exists p, s = p ++ lstrip s /\ blanks p.
Proof.
  induction s as [|c s (p & E & F)]; [exists []; split; [reflexivity|constructor]|]. cbn. destruct (is_space c) eqn:B.
  - exists (c :: p). split; [cbn; congruence|constructor; assumption].
  - exists []. split; [reflexivity|constructor].
Qed.
Lemma strip_spec : forall t l, strip t = l <-> stripped t l.
Proof.
  intros t l. split.
  - intros <-. destruct (lstrip_split t) as (p & E & F). destruct (rstrip_cases (lstrip t)) as (q & E2 & F2).
    exists p, q. unfold strip. split; [rewrite E at 1; rewrite E2 at 1; reflexivity|]. split; auto. split; auto.
    destruct (rstrip_trailing (lstrip t)) as [Z|T]; [left; exact Z|].
    destruct (rstrip (lstrip t)) as [|a r] eqn:Rs; [left; reflexivity|]. right. split; [|exact T].
    destruct (lstrip_cases t) as [Z|H]; [rewrite Z in E2; discriminate|]. rewrite E2 in H. exact H.
  - intros (p & q & -> & P & Q & T). unfold strip. rewrite lstrip_blanks by exact P. destruct T as [->|T].
    + cbn [app]. replace q with (q ++ []) by apply app_nil_r. rewrite lstrip_blanks by exact Q. reflexivity.
    + destruct l as [|a l]; [cbn in T; destruct T; discriminate|]. cbn [app]. rewrite lstrip_head by apply T.
      change (a :: l ++ q) with ((a :: l) ++ q). rewrite rstrip_blanks by exact Q. apply rstrip_id. right. apply T.
Qed.

(** ** cells *)
Lemma numeric_spec : forall c, numeric c = true <-> is_number c.
Proof.
  intro c. unfold is_number. destruct c; cbn; split; intro H; try discriminate; try reflexivity; eauto; destruct H as [[? H]|[? H]]; discriminate.
Qed.
Lemma truthy_spec : forall c, truthy c = true <-> filled c.
Proof.
  intro c. unfold filled. destruct c as [|x|b|t|t]; cbn.
  - split; [discriminate|]. intros [H _]. contradiction.
  - destruct (Req_EM_T x 0) as [->|N]; split; intro H; try discriminate; auto.
    + destruct H as (_ & H & _). contradiction.
    + repeat split; congruence.
  - split; [intros ->; repeat split; congruence|]. intros (_ & _ & H & _). destruct b; congruence.
  - destruct t as [|a t]; split; intro H; try discriminate; auto; [destruct H as (_ & _ & _ & H); contradiction|repeat split; congruence].
  - split; [repeat split; congruence|reflexivity].
Qed.
Lemma truthy_false : forall c, truthy c = false <-> ~ filled c.
Proof. intro c. rewrite <- truthy_spec. destruct (truthy c); split; congruence. Qed.
Lemma term_row_spec : forall row, (numeric (at_or_none 3 row) && truthy (at_or_none 4 row))%bool = true <-> term_row row.
Proof. intro row. rewrite andb_true_iff, numeric_spec, truthy_spec. reflexivity. Qed.
Lemma str_or_empty_spec : forall py c, shown_text py c (str_or_empty py c).
Proof. intros py c. unfold shown_text. destruct c; cbn; auto; right; split; congruence. Qed.
Lemma truncate_spec : forall x, whole_part x (truncate x).
Proof.
  intro x. unfold whole_part, truncate. destruct (Rle_dec 0 x) as [P|N]; (split; intro H; [|]); try lra.
  - pose proof (P_Trig.rfloor_spec x). lra.
  - pose proof (P_Trig.rfloor_spec (- x)). rewrite opp_IZR. lra.
Qed.

(** ** dictionaries *)
Section Dict.
  Context {K V : Type} (eqb : K -> K -> bool) (spec : forall a b, eqb a b = true <-> a = b).
  Lemma dget_put : forall (k k' : K) (v : V) d, dget eqb k (dput eqb k' v d) = if eqb k k' then Some v else dget eqb k d.
  Proof.
    intros k k' v d. induction d as [|[a w] d IH]; cbn; [reflexivity|]. destruct (eqb k' a) eqn:E; cbn.
    - apply spec in E. subst a. destruct (eqb k k'); reflexivity.
    - destruct (eqb k a) eqn:F; [|exact IH]. destruct (eqb k k') eqn:G; [|reflexivity].
      apply spec in F, G. rewrite <- G, <- F in E. assert (eqb k k = true) by (apply spec; reflexivity). congruence.
  Qed.
  Lemma dput_keys : forall (k : K) (v : V) d, map fst (dput eqb k v d) = if existsb (eqb k) (map fst d) then map fst d else map fst d ++ [k].
  Proof.
    intros k v d. induction d as [|[a w] d IH]; cbn; [reflexivity|]. destruct (eqb k a) eqn:E; cbn; [reflexivity|].
    rewrite IH. destruct (existsb (eqb k) (map fst d)); reflexivity.
  Qed.
  Lemma dput_nodup : forall (k : K) (v : V) d, NoDup (map fst d) -> NoDup (map fst (dput eqb k v d)).
  Proof.
    intros k v d N. rewrite dput_keys. destruct (existsb (eqb k) (map fst d)) eqn:E; [exact N|].
    apply NoDup_rev in N. rewrite <- (rev_involutive (map fst d ++ [k])). apply NoDup_rev. rewrite rev_app_distr. constructor; [|exact N].
    intro H. apply in_rev in H. assert (T : existsb (eqb k) (map fst d) = true); [|congruence].
    apply existsb_exists. exists k. split; [exact H|]. apply spec. reflexivity.
  Qed.
  Lemma dget_in : forall (k : K) (v : V) d, dget eqb k d = Some v -> In (k, v) d.
  Proof.
    intros k v d. induction d as [|[a w] d IH]; cbn; [discriminate|]. destruct (eqb k a) eqn:E; [|auto].
    apply spec in E. intro H. injection H as ->. subst. auto.
  Qed.
  Lemma dget_none : forall (k : K) (d : list (K * V)), dget eqb k d = None <-> ~ In k (map fst d).
  Proof.
    intros k d. induction d as [|[a w] d IH]; cbn; [tauto|]. destruct (eqb k a) eqn:E.
    - apply spec in E. split; [discriminate|]. intro H. elim H. auto.
    - rewrite IH. split; [|tauto]. intros H [->|I]; [|tauto]. assert (eqb k k = true) by (apply spec; reflexivity). congruence.
  Qed.
  (** entries put one after the other: the last one of a key stands *)
  Lemma puts_get : forall (l : list (K * V)) d k v, dget eqb k (fold_left (fun d kv => dput eqb (fst kv) (snd kv) d) l d) = Some v <->
    (exists a b, l = a ++ (k, v) :: b /\ forall w, ~ In (k, w) b) \/ ((forall w, ~ In (k, w) l) /\ dget eqb k d = Some v).
  Proof.
    intros l. induction l as [|[a w] l IH]; intros d k v; cbn.
    - split; [intro H; right; split; [tauto|exact H]|]. intros [(x & y & E & _)|[_ H]]; [destruct x; discriminate|exact H].
    - rewrite IH, dget_put. split.
      + intros [(x & y & -> & N)|[N H]]; [left; exists ((a, w) :: x), y; auto|].
        destruct (eqb k a) eqn:E.
        * apply spec in E. injection H as ->. subst a. left. exists [], l. auto.
        * right. split; [|exact H]. intros u [I|I]; [|exact (N _ I)]. injection I as -> ->.
          assert (eqb k k = true) by (apply spec; reflexivity). congruence.
      + intros [(x & y & E & N)|[N H]].
        * destruct x as [|p x]; cbn in E.
          { injection E as -> -> ->. right. split; [exact N|]. assert (T : eqb k k = true) by (apply spec; reflexivity). rewrite T. reflexivity. }
          { injection E as _ E. left. exists x, y. auto. }
        * right. split; [intros u I; apply (N u); auto|]. destruct (eqb k a) eqn:E; [|exact H].
          apply spec in E. subst a. elim (N w). auto.
  Qed.
  Lemma puts_nodup : forall (l : list (K * V)) d, NoDup (map fst d) -> NoDup (map fst (fold_left (fun d kv => dput eqb (fst kv) (snd kv) d) l d)).
  Proof. intro l. induction l as [|a l IH]; intros d N; cbn; [exact N|]. apply IH. apply dput_nodup. exact N. Qed.
  Lemma puts_keys : forall (l : list (K * V)) d k, In k (map fst (fold_left (fun d kv => dput eqb (fst kv) (snd kv) d) l d)) <-> In k (map fst l) \/ In k (map fst d).
  Proof.
    intro l. induction l as [|[a w] l IH]; intros d k; cbn; [tauto|]. rewrite IH, dput_keys.
    destruct (existsb (eqb a) (map fst d)) eqn:E.
    - apply existsb_exists in E. destruct E as (x & I & E). apply spec in E. subst x. split; [tauto|]. intros [[->|H]|H]; auto.
    - rewrite in_app_iff. cbn. tauto.
  Qed.
End Dict.

(** ** the Model sheet *)
Lemma row_term_cases : forall py row,
  (~ term_row row /\ row_term py row = Some []) \/
  (term_row row /\ length row < 12 /\ row_term py row = None) \/
  (term_row row /\ 12 <= length row /\ exists t, row_term py row = Some [t] /\ describes_term py row t).
Proof.
  intros py row. unfold row_term. destruct (numeric (at_or_none 3 row) && truthy (at_or_none 4 row))%bool eqn:T.
  - apply term_row_spec in T. destruct (Nat.ltb_spec (length row) 12) as [L|L]; [auto|]. right. right. split; auto. split; auto.
    eexists. split; [reflexivity|]. unfold describes_term. cbn [tm_no tm_code tm_description tm_wt_fn tm_wt_fn_source tm_type tm_magnitude tm_unit tm_propagation tm_p1 tm_p2 tm_p3 tm_comment tm_depth tm_inc tm_azi tm_sing_n tm_sing_e tm_sing_v tm_convert].
    unfold at_or_none, col in *. destruct T as [N _]. unfold col in N.
    split.
    { destruct N as [[x N]|[b N]]; rewrite N; cbn; [apply truncate_spec|destruct b; reflexivity]. }
    split; [apply strip_spec; reflexivity|].
    split; [apply str_or_empty_spec|]. split; [apply str_or_empty_spec|]. split; [apply str_or_empty_spec|]. split; [apply str_or_empty_spec|].
    split; [reflexivity|]. split; [apply str_or_empty_spec|].
    split.
    { exists (str_or_empty py (nth 11 row Blank)). split; [apply str_or_empty_spec|]. apply strip_spec.
      destruct (nth 11 row Blank); cbn; reflexivity. }
    split; [reflexivity|]. apply truthy_spec.
  - left. split; [|reflexivity]. intro H. apply term_row_spec in H. congruence.
Qed.
Lemma norm_spec : forall py key l, norm_label (str py key) = l <-> stripped (filter kept (str py key)) l.
Proof.
  intros py key l. unfold norm_label. rewrite strip_spec. replace (filter (fun c => negb (trimmed_char c)) (str py key)) with (filter kept (str py key)); [reflexivity|].
  apply filter_ext. intro c. unfold kept, trimmed_char. cbn. rewrite orb_false_r, orb_assoc. reflexivity.
Qed.
Lemma row_entry_cases : forall py row,
  (readable_row row \/ ~ readable_row row) /\
  (row <> [] /\ (filled (col 0 row) -> 2 <= length row) <-> exists e, row_entry py row = Some e /\ forall l v, In (l, v) e <-> gives py row l v).
Proof.
  intros py row. split.
  - destruct row as [|key r]; [right; intros [H _]; contradiction|].
    assert (D : (filled (col 0 (key :: r)) -> 2 <= length (key :: r)) \/ ~ (filled (col 0 (key :: r)) -> 2 <= length (key :: r))).
    { destruct (truthy key) eqn:K; [|left; intro F; apply truthy_spec in F; cbn in F; congruence].
      destruct r; [right|left; cbn; lia]. intro F. apply truthy_spec in K. specialize (F K). cbn in F. lia. }
    assert (D2 : (term_row (key :: r) -> 12 <= length (key :: r)) \/ ~ (term_row (key :: r) -> 12 <= length (key :: r))).
    { destruct (le_lt_dec 12 (length (key :: r))) as [L|L]; [left; auto|].
      destruct (row_term_cases py (key :: r)) as [[N _]|[[T _]|[_ [H _]]]]; [left; tauto|right; intro F; specialize (F T); lia|lia]. }
    unfold readable_row. destruct D as [D|D], D2 as [D2|D2]; [left; split; [discriminate|]; auto|right; tauto|right; tauto|right; tauto].
  - split.
    + intros [N F]. destruct row as [|key r]; [contradiction|]. cbn [row_entry]. destruct (truthy key) eqn:K.
      * destruct r as [|v r]; [apply truthy_spec in K; specialize (F K); cbn in F; lia|]. eexists. split; [reflexivity|].
        intros l w. split.
        { intros [E|[]]. injection E as <- <-. exists key, r. split; auto. split; [apply truthy_spec; exact K|]. apply norm_spec. reflexivity. }
        { intros (k & q & E & _ & G). injection E as <- <- <-. apply norm_spec in G. left. rewrite G. reflexivity. }
      * eexists. split; [reflexivity|]. intros l v. split; [intros []|]. intros (k & q & E & G & _). injection E as <- _ .
        apply truthy_spec in G. congruence.
    + intros (e & E & _). destruct row as [|key r]; [discriminate|]. split; [discriminate|]. intro F. apply truthy_spec in F. cbn in F.
      cbn [row_entry] in E. rewrite F in E. destruct r; [discriminate|]. cbn. lia.
Qed.
Lemma row_entry_some : forall py row e, row_entry py row = Some e -> forall l v, In (l, v) e <-> gives py row l v.
Proof.
  intros py row e E. destruct row as [|key r]; [discriminate|]. cbn [row_entry] in E. destruct (truthy key) eqn:K.
  - destruct r as [|v r]; [discriminate|]. injection E as <-. intros l w. split.
    { intros [E|[]]. injection E as <- <-. exists key, r. split; auto. split; [apply truthy_spec; exact K|]. apply norm_spec. reflexivity. }
    { intros (k & q & E & _ & G). injection E as <- <- <-. apply norm_spec in G. left. rewrite G. reflexivity. }
  - injection E as <-. intros l v. split; [intros []|]. intros (k & q & E & G & _). injection E as <- _. apply truthy_spec in G. congruence.
Qed.
Lemma row_entry_ok : forall py row, (exists e, row_entry py row = Some e) <-> row <> [] /\ (filled (col 0 row) -> 2 <= length row).
Proof.
  intros py row. split.
  - intros (e & E). apply (proj2 (proj2 (row_entry_cases py row))). exists e. split; [exact E|]. apply row_entry_some. exact E.
  - intro H. apply (proj2 (row_entry_cases py row)) in H. destruct H as (e & E & _). eauto.
Qed.
(** what the loop has read: all entries in order, all terms *)
Fixpoint entries (py : python) (rows : list (list cell)) : list (text * cell) :=
  match rows with [] => [] | row :: r => match row_entry py row with Some e => e | None => [] end ++ entries py r end.
Lemma put_all_app : forall a b d, put_all (a ++ b) d = put_all b (put_all a d).
Proof. intros. unfold put_all. apply fold_left_app. Qed.
Lemma parse_rows_spec : forall py rows h x ts h' x' ts', parse_rows py rows h x ts = Some (h', x', ts') ->
  Forall readable_row rows /\ (exists new, ts' = ts ++ new /\ terms_of py rows new) /\
  h' = put_all (filter (fun kv => known (fst kv)) (entries py rows)) h /\
  x' = put_all (filter (fun kv => negb (known (fst kv))) (entries py rows)) x.
Proof.
  intros py rows. induction rows as [|row rows IH]; intros h x ts h' x' ts' H.
  - cbn in H. injection H as <- <- <-. split; [constructor|]. split; [exists []; rewrite app_nil_r; split; [reflexivity|constructor]|]. split; reflexivity.
  - cbn [parse_rows] in H. destruct (row_entry py row) as [e|] eqn:E; [|discriminate].
    pose proof (proj1 (row_entry_ok py row) (ex_intro _ e E)) as [N F].
    destruct (row_term_cases py row) as [[T R0]|[(T & L & R0)|(T & L & t & R0 & D)]]; rewrite R0 in H; [| discriminate |];
    destruct (IH _ _ _ _ _ _ H) as (A & (new & B & C) & P & Q); cbn [entries]; rewrite E, !filter_app, !put_all_app.
    + split; [constructor; [split; auto; split; auto; tauto|exact A]|]. split; [|split; assumption].
      exists new. split; [rewrite B, app_nil_r; reflexivity|]. apply other_row; assumption.
    + split; [constructor; [split; auto|exact A]|]. split; [|split; assumption].
      exists (t :: new). split; [rewrite B, <- app_assoc; reflexivity|]. apply a_term; assumption.
Qed.
Lemma parse_rows_total : forall py rows h x ts, Forall readable_row rows -> exists r, parse_rows py rows h x ts = Some r.
Proof.
  intros py rows. induction rows as [|row rows IH]; intros h x ts F; [eexists; reflexivity|].
  inversion_clear F as [|? ? (N & K & T) F']. cbn [parse_rows]. destruct (proj2 (row_entry_ok py row) (conj N K)) as (e & ->).
  destruct (row_term_cases py row) as [[_ R0]|[(T' & L & _)|(_ & _ & t & R0 & _)]]; [rewrite R0; auto|specialize (T T'); lia|rewrite R0; auto].
Qed.

(** an exact account of which sheets can be read *)
Lemma model_readable : forall py rows, (exists h x ts, parse_model_sheet py rows = Some (h, x, ts)) <-> Forall readable_row rows.
Proof.
  intros py rows. split.
  - intros (h & x & ts & H). exact (proj1 (parse_rows_spec _ _ _ _ _ _ _ _ H)).
  - intro F. destruct (parse_rows_total py rows [] [] [] F) as ([[h x] ts] & H). exists h, x, ts. exact H.
Qed.
Lemma model_terms : forall py rows h x ts, parse_model_sheet py rows = Some (h, x, ts) -> terms_of py rows ts.
Proof. intros py rows h x ts H. destruct (parse_rows_spec _ _ _ _ _ _ _ _ H) as (_ & (new & E & T) & _). cbn in E. subst. exact T. Qed.

(** the position of an entry among the rows *)
Lemma entries_in : forall py rows l v, Forall readable_row rows -> (In (l, v) (entries py rows) <-> exists row, In row rows /\ gives py row l v).
Proof.
  intros py rows l v F. induction F as [|row rows (N & K & _) F IH]; cbn.
  - split; [tauto|]. intros (? & [] & _).
  - destruct (proj2 (row_entry_ok py row) (conj N K)) as (e & E). rewrite E, in_app_iff, IH, (row_entry_some _ _ _ E). split.
    + intros [H|(r & I & G)]; eauto.
    + intros (r & [->|I] & G); eauto.
Qed.
Lemma row_entry_short : forall py row e, row_entry py row = Some e -> e = [] \/ exists p, e = [p].
Proof.
  intros py row e E. destruct row as [|key r]; [discriminate|]. cbn [row_entry] in E. destruct (truthy key); [|injection E as <-; auto].
  destruct r; [discriminate|]. injection E as <-. eauto.
Qed.
Lemma entries_last : forall py rows l v, Forall readable_row rows ->
  ((exists a b, entries py rows = a ++ (l, v) :: b /\ forall w, ~ In (l, w) b) <-> last_given py rows l v).
Proof.
  intros py rows l v F. induction F as [|row rows RR F IH]; cbn [entries].
  - split; [intros (a & b & E & _); destruct a; discriminate|]. intros (a & r & b & E & _). destruct a; discriminate.
  - pose proof RR as (N & K & _). destruct (proj2 (row_entry_ok py row) (conj N K)) as (e & E). rewrite E. split.
    + intros (a & b & Q & NB). destruct (row_entry_short _ _ _ E) as [->|([l0 v0] & ->)]; cbn [app] in Q.
      * destruct (proj1 IH (ex_intro _ a (ex_intro _ b (conj Q NB)))) as (a' & r & b' & -> & G). exists (row :: a'), r, b'. auto.
      * destruct a as [|p a]; cbn in Q.
        { injection Q as -> -> Q. exists [], row, rows. split; auto. split; [apply (row_entry_some _ _ _ E); left; auto|].
          intros r w I G. apply (NB w). rewrite <- Q. apply entries_in; eauto. }
        { injection Q as _ Q. destruct (proj1 IH (ex_intro _ a (ex_intro _ b (conj Q NB)))) as (a' & r & b' & -> & G). exists (row :: a'), r, b'. auto. }
    + intros (a & r & b & Q & G & NG). destruct a as [|p a]; cbn in Q; injection Q as <- Q.
      * destruct (row_entry_short _ _ _ E) as [->|(p & ->)]; apply (row_entry_some _ _ _ E) in G; [destruct G|].
        destruct G as [->|[]]. subst b. exists [], (entries py rows). split; auto. intros w I. apply entries_in in I; auto.
        destruct I as (r & I & G). exact (NG _ _ I G).
      * destruct (proj2 IH) as (a' & b' & Q' & NB); [exists a, r, b; auto|]. exists (e ++ a'), b'. rewrite Q', app_assoc. auto.
Qed.
Lemma known_spec : forall l, known l = true <-> In l header_labels.
Proof.
  intro l. unfold known. rewrite existsb_exists. split.
  - intros (y & I & E). apply text_eqb_spec in E. subst. exact I.
  - intro I. exists l. split; [exact I|apply text_eqb_same].
Qed.
Lemma filter_split : forall (A : Type) (f : A -> bool) l y a b, filter f l = a ++ y :: b ->
  exists a' b', l = a' ++ y :: b' /\ filter f a' = a /\ filter f b' = b.
Proof.
  intros A f l. induction l as [|z l IH]; intros y a b H; [destruct a; discriminate|]. cbn in H. destruct (f z) eqn:Z.
  - destruct a as [|z' a]; cbn in H.
    + injection H as -> H. exists [], l. auto.
    + injection H as -> H. destruct (IH _ _ _ H) as (a' & b' & -> & P & Q). exists (z' :: a'), b'. cbn. rewrite Z, P. auto.
  - destruct (IH _ _ _ H) as (a' & b' & -> & P & Q). exists (z :: a'), b'. cbn. rewrite Z. auto.
Qed.
Lemma filtered_get : forall py rows f l v, Forall readable_row rows ->
  (dget text_eqb l (put_all (filter (fun kv => f (fst kv)) (entries py rows)) []) = Some v <-> f l = true /\ last_given py rows l v).
Proof.
  intros py rows f l v F. unfold put_all. rewrite (puts_get text_eqb text_eqb_spec). cbn [dget]. split.
  - intros [(a & b & E & NB)|[_ H]]; [|discriminate]. 
    assert (K : f l = true). { assert (I : In (l, v) (filter (fun kv => f (fst kv)) (entries py rows))) by (rewrite E; apply in_or_app; right; left; auto).
      apply filter_In in I. apply I. }
    split; [exact K|]. apply entries_last; [exact F|]. destruct (filter_split _ _ _ _ _ _ E) as (a' & b' & E' & _ & FB).
    exists a', b'. split; [exact E'|]. intros w I. apply (NB w). rewrite <- FB. apply filter_In. auto.
  - intros [K G]. apply entries_last in G; [|exact F]. destruct G as (a & b & E & NB). left. rewrite E, filter_app. cbn [filter fst]. rewrite K.
    eexists. eexists. split; [reflexivity|]. intros w I. apply filter_In in I. apply (NB w). apply I.
Qed.
Lemma model_header : forall py rows h x ts l v, parse_model_sheet py rows = Some (h, x, ts) ->
  (dget text_eqb l h = Some v <-> In l header_labels /\ last_given py rows l v) /\
  (dget text_eqb l x = Some v <-> ~ In l header_labels /\ last_given py rows l v).
Proof.
  intros py rows h x ts l v H. destruct (parse_rows_spec _ _ _ _ _ _ _ _ H) as (F & _ & -> & ->). split.
  - rewrite (filtered_get py rows known l v F), known_spec. reflexivity.
  - rewrite (filtered_get py rows (fun l => negb (known l)) l v F), negb_true_iff, <- known_spec. destruct (known l); intuition congruence.
Qed.
