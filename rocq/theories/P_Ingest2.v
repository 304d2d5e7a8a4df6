(** The dictionary of codes, and the revision named on the Readme sheet. *)
Require Import Reals ZArith Ascii String List Bool Lra Lia.
Require Import Verif.Base Verif.NumPy Verif.M_Utils Verif.M_DmsText Verif.P_DmsText.
Require Import Verif.M_Text Verif.Spec_Text Verif.P_Text Verif.M_Ingest Verif.Spec_Ingest Verif.P_Ingest.
Import ListNotations.
Open Scope list_scope.
Local Open Scope nat_scope.

(** ** replacing *)
Lemma prefix_rest_spec : forall p s r, prefix_rest p s = Some r <-> s = p ++ r.
Proof.
  induction p as [|a p IH]; intros s r; cbn.
  - destruct s; split; congruence.
  - destruct s as [|b s]; [split; discriminate|]. destruct (Ascii.eqb_spec a b) as [->|N].
    + rewrite IH. split; congruence.
    + split; congruence.
Qed.
Lemma prefix_rest_none : forall p s, prefix_rest p s = None <-> forall r, s <> p ++ r.
Proof.
  intros p s. destruct (prefix_rest p s) as [r|] eqn:E.
  - apply prefix_rest_spec in E. split; [discriminate|]. intro H. elim (H r E).
  - split; [|reflexivity]. intros _ r H. apply prefix_rest_spec in H. congruence.
Qed.
Lemma contains_spec : forall w s, contains w s = true <-> exists u v, s = u ++ w ++ v.
Proof.
  intros w s. induction s as [|a s IH]; cbn [contains].
  - destruct (prefix_rest w []) as [r|] eqn:E.
    + apply prefix_rest_spec in E. split; [|reflexivity]. intros _. exists [], r. exact E.
    + split; [discriminate|]. intros (u & v & H). rewrite prefix_rest_none in E. destruct u; [elim (E v H)|discriminate].
  - destruct (prefix_rest w (a :: s)) as [r|] eqn:E.
    + apply prefix_rest_spec in E. split; [|reflexivity]. intros _. exists [], r. exact E.
    + rewrite IH. rewrite prefix_rest_none in E. split.
      * intros (u & v & ->). exists (a :: u), v. reflexivity.
      * intros (u & v & H). destruct u as [|b u]; [elim (E v H)|]. injection H as _ H. eauto.
Qed.
Lemma contains_false : forall w s, contains w s = false <-> ~ exists u v, s = u ++ w ++ v.
Proof. intros w s. rewrite <- contains_spec. destruct (contains w s); split; congruence. Qed.
Lemma degrees_spec : forall unit, contains (lit "deg") unit = true <-> in_degrees unit.
Proof. intro unit. apply contains_spec. Qed.
Lemma replace_fuel_none : forall f old new s, ~ (exists u v, s = u ++ old ++ v) -> replace_fuel f old new s = s.
Proof.
  intros f old new. induction f as [|f IH]; intros s N; [reflexivity|]. cbn [replace_fuel].
  assert (E : prefix_rest old s = None). { apply prefix_rest_none. intros r H. apply N. exists [], r. exact H. }
  rewrite E. destruct s as [|a s]; [reflexivity|]. f_equal. apply IH. intros (u & v & H). apply N. exists (a :: u), v. rewrite H. reflexivity.
Qed.
Lemma replace_none : forall old new s, ~ (exists u v, s = u ++ old ++ v) -> replace old new s = s.
Proof. intros. apply replace_fuel_none. assumption. Qed.
Definition dash : text := [ "-"%char ].
Lemma replace_dash : forall s, replace (lit "-") (lit "_") s = map (fun a => if Ascii.eqb a "-" then "_"%char else a) s.
Proof.
  intro s. unfold replace. assert (G : forall f t, length t <= f -> replace_fuel f (lit "-") (lit "_") t = map (fun a => if Ascii.eqb a "-" then "_"%char else a) t).
  { induction f as [|f IH]; intros t L; [destruct t; [reflexivity|cbn in L; lia]|]. cbn [replace_fuel]. destruct t as [|a t]; [reflexivity|].
    cbn [length] in L. cbn [lit list_ascii_of_string prefix_rest map]. rewrite (Ascii.eqb_sym "-" a). destruct (Ascii.eqb a "-"); cbn [app]; f_equal; apply IH; lia. }
  apply G. lia.
Qed.
(** the word deg does not overlap itself *)
Lemma deg_first : forall u v, ~ in_degrees u -> u <> [] -> prefix_rest (lit "deg") (u ++ lit "deg" ++ v) = None.
Proof.
  intros u v N E. apply prefix_rest_none. intros r H. destruct u as [|a [|b [|c u]]]; [contradiction| | |]; cbn in H.
  - injection H as -> H. discriminate.
  - injection H as -> -> H. discriminate.
  - injection H as -> -> -> H. apply N. exists [], u. reflexivity.
Qed.
Lemma replace_once : forall f u v, length (u ++ lit "deg" ++ v) <= f -> ~ in_degrees u -> ~ in_degrees v ->
  replace_fuel f (lit "deg") (lit "rad") (u ++ lit "deg" ++ v) = u ++ lit "rad" ++ v.
Proof.
  induction f as [|f IH]; intros u v L NU NV; [rewrite !app_length in L; cbn in L; lia|]. destruct u as [|a u].
  - cbn [app replace_fuel]. assert (E : prefix_rest (lit "deg") (lit "deg" ++ v) = Some v) by (apply prefix_rest_spec; reflexivity).
    rewrite E. f_equal. apply replace_fuel_none. exact NV.
  - cbn [replace_fuel]. rewrite deg_first by (try discriminate; exact NU). cbn [app]. f_equal. apply IH; [cbn [app length] in L; lia| |exact NV].
    intros (x & y & H). apply NU. exists (a :: x), y. rewrite H. reflexivity.
Qed.

(** ** one entry of the dictionary *)
Lemma code_described : forall t, describes_code t (legacy_code t).
Proof.
  intro t. unfold describes_code, legacy_code. cbn [cd_function cd_magnitude cd_unit cd_propagation].
  split; [apply replace_dash|]. split.
  { intros D m M. unfold magnitude_si. apply degrees_spec in D. rewrite D, M. cbn. f_equal. ring. }
  split.
  { intro D. split; [|apply replace_none; exact D]. unfold magnitude_si. destruct (contains (lit "deg") (tm_unit t)) eqn:C; [|reflexivity].
    apply degrees_spec in C. contradiction. }
  split; [intros u v E NU NV; unfold unit_si, replace; rewrite E; apply replace_once; auto|].
  unfold propagates, propagation_or, propagation_map. cbn [dget].
  destruct (text_eqb (tm_propagation t) (lit "R")) eqn:A; [apply text_eqb_spec in A; auto|].
  destruct (text_eqb (tm_propagation t) (lit "S")) eqn:B; [apply text_eqb_spec in B; right; right; right; rewrite B; split; [|reflexivity]; cbn; intuition discriminate|].
  destruct (text_eqb (tm_propagation t) (lit "G")) eqn:C; [apply text_eqb_spec in C; auto|].
  destruct (text_eqb (tm_propagation t) (lit "W")) eqn:D; [apply text_eqb_spec in D; right; right; left; auto|].
  apply text_eqb_neq in A, B, C, D. right. right. right. split; [|reflexivity]. intros [H|[H|[H|[]]]]; congruence.
Qed.
Lemma legacy_named : forall t n, legacy_name t = n <-> named t n.
Proof.
  intros t n. unfold legacy_name, named. destruct (text_eqb (tm_code t) (lit "XCLL")) eqn:E.
  - apply text_eqb_spec in E. split; [intros <-; auto|]. intros [[_ ->]|[H _]]; [reflexivity|contradiction].
  - apply text_eqb_neq in E. split; [intros <-; auto|]. intros [[H _]|[_ ->]]; [contradiction|reflexivity].
Qed.
Lemma legacy_puts : forall terms d, fold_left (fun d t => dput text_eqb (legacy_name t) (legacy_code t) d) terms d =
  fold_left (fun d kv => dput text_eqb (fst kv) (snd kv) d) (map (fun t => (legacy_name t, legacy_code t)) terms) d.
Proof. induction terms as [|t terms IH]; intro d; [reflexivity|]. cbn. apply IH. Qed.
Lemma map_split : forall (A B : Type) (f : A -> B) l y a b, map f l = a ++ y :: b -> exists a' x b', l = a' ++ x :: b' /\ map f a' = a /\ f x = y /\ map f b' = b.
Proof.
  intros A B f l y a b H. apply map_eq_app in H. destruct H as (a' & r & -> & P & Q). destruct r as [|x b']; [discriminate|].
  cbn in Q. injection Q as Q1 Q2. exists a', x, b'. auto.
Qed.
(** every name has the code of its last term, and no other name is there *)
Lemma codes_found : forall terms n,
  (forall t, last_named terms n t -> exists c, dget text_eqb n (legacy_codes terms) = Some c /\ describes_code t c) /\
  (forall c, dget text_eqb n (legacy_codes terms) = Some c -> exists t, last_named terms n t /\ describes_code t c) /\
  NoDup (map fst (legacy_codes terms)).
Proof.
  intros terms n. unfold legacy_codes. rewrite legacy_puts. split; [|split].
  - intros t (a & b & -> & N & F). exists (legacy_code t). split; [|apply code_described]. apply (puts_get text_eqb text_eqb_spec). left.
    apply legacy_named in N. exists (map (fun t => (legacy_name t, legacy_code t)) a), (map (fun t => (legacy_name t, legacy_code t)) b).
    rewrite map_app. cbn [map]. rewrite N. split; [reflexivity|]. intros w I. apply in_map_iff in I. destruct I as (t' & E & I).
    injection E as E _. apply (F t' I). apply legacy_named. exact E.
  - intros c H. apply (puts_get text_eqb text_eqb_spec) in H. destruct H as [(a & b & E & F)|[_ H]]; [|discriminate].
    destruct (map_split _ _ _ _ _ _ _ E) as (a' & t & b' & -> & _ & Q & FB). injection Q as Q1 Q2. exists t. split; [|rewrite <- Q2; apply code_described].
    exists a', b'. split; [reflexivity|]. split; [apply legacy_named; exact Q1|]. intros t' I N. apply legacy_named in N. apply (F (legacy_code t')).
    rewrite <- FB. apply in_map_iff. exists t'. rewrite N. auto.
  - apply (puts_nodup text_eqb text_eqb_spec). constructor.
Qed.
(** terms with different codes: as many entries as terms, unless XCLA and XCLL are both there *)
Lemma names_nodup : forall terms, NoDup (map tm_code terms) -> ~ (In (lit "XCLA") (map tm_code terms) /\ In (lit "XCLL") (map tm_code terms)) ->
  NoDup (map legacy_name terms).
Proof.
  intros terms. induction terms as [|t terms IH]; intros N B; [constructor|]. cbn in N |- *. inversion_clear N as [|? ? NI N']. constructor.
  - intro I. apply in_map_iff in I. destruct I as (t' & E & I). unfold legacy_name in E.
    assert (I' : In (tm_code t') (map tm_code terms)) by (apply in_map; exact I).
    destruct (text_eqb (tm_code t') (lit "XCLL")) eqn:P, (text_eqb (tm_code t) (lit "XCLL")) eqn:Q.
    + apply text_eqb_spec in P, Q. apply NI. rewrite Q, <- P. exact I'.
    + apply text_eqb_spec in P. apply B. split; [left; symmetry; exact E|right; rewrite <- P; exact I'].
    + apply text_eqb_spec in Q. apply B. split; [right; rewrite <- E; exact I'|left; exact Q].
    + apply NI. rewrite <- E. exact I'.
  - apply IH; [exact N'|]. intros [P Q]. apply B. split; right; assumption.
Qed.
Lemma legacy_keys : forall terms n, In n (map fst (legacy_codes terms)) <-> In n (map legacy_name terms).
Proof.
  intros terms n. unfold legacy_codes. rewrite legacy_puts, (puts_keys text_eqb text_eqb_spec), map_map. cbn. tauto.
Qed.
Lemma codes_count : forall terms, NoDup (map tm_code terms) ->
  (length (legacy_codes terms) = length terms <-> ~ (In (lit "XCLA") (map tm_code terms) /\ In (lit "XCLL") (map tm_code terms))).
Proof.
  intros terms N. pose proof (proj2 (proj2 (codes_found terms []))) as D. split.
  - intros L [A B]. rewrite <- (map_length fst (legacy_codes terms)) in L.
    assert (ND : NoDup (map legacy_name terms)).
    { apply (NoDup_incl_NoDup D); [rewrite L, map_length; auto|intros n I; apply legacy_keys; exact I]. }
    apply in_map_iff in A, B. destruct A as (ta & EA & IA), B as (tb & EB & IB).
    apply in_split in IA. destruct IA as (x & y & ->). rewrite map_app in ND. cbn [map] in ND. apply NoDup_remove_2 in ND. apply ND.
    rewrite <- map_app. apply in_map_iff. exists tb. split.
    + unfold legacy_name. rewrite EA, EB. reflexivity.
    + apply in_app_iff in IB. apply in_app_iff. destruct IB as [I|[E|I]]; [auto|subst tb; rewrite EA in EB; discriminate|auto].
  - intro B. pose proof (names_nodup terms N B) as ND. rewrite <- (map_length fst (legacy_codes terms)), <- (map_length legacy_name terms).
    apply Nat.le_antisymm; apply NoDup_incl_length; auto; intros n I; apply legacy_keys; exact I.
Qed.
Lemma header_written : forall h l v, In (l, v) (legacy_header h) <-> In l header_labels /\ dget text_eqb l h = Some v /\ v <> Blank.
Proof.
  intros h l v. unfold legacy_header. rewrite in_flat_map. split.
  - intros (l' & I & H). destruct (dget text_eqb l' h) as [w|] eqn:G; [|destruct H]. destruct w; try (destruct H; fail);
      destruct H as [H|[]]; injection H as <- <-; repeat split; auto; discriminate.
  - intros (I & G & N). exists l. split; [exact I|]. rewrite G. destruct v; [contradiction| | | |]; left; reflexivity.
Qed.
Lemma propagation_full : forall t n, propagation_name t = n <-> propagation_in_full (tm_propagation t) n.
Proof.
  intros t n. unfold propagation_name, propagation_or, propagation_in_full, propagation_map. cbn [dget].
  set (p := tm_propagation t). clearbody p.
  destruct (text_eqb p (lit "R")) eqn:E1; [apply text_eqb_spec in E1; subst p|].
  { split; [intros <-; left; auto|]. intros [(_ & ->)|[(X & _)|[(X & _)|[(X & _)|(X & _)]]]]; try discriminate X; [reflexivity|]. destruct X; left; reflexivity. }
  destruct (text_eqb p (lit "S")) eqn:E2; [apply text_eqb_spec in E2; subst p|].
  { split; [intros <-; right; left; auto|]. intros [(X & _)|[(_ & ->)|[(X & _)|[(X & _)|(X & _)]]]]; try discriminate X; [reflexivity|]. destruct X; right; left; reflexivity. }
  destruct (text_eqb p (lit "G")) eqn:E3; [apply text_eqb_spec in E3; subst p|].
  { split; [intros <-; right; right; left; auto|]. intros [(X & _)|[(X & _)|[(_ & ->)|[(X & _)|(X & _)]]]]; try discriminate X; [reflexivity|]. destruct X; right; right; left; reflexivity. }
  destruct (text_eqb p (lit "W")) eqn:E4; [apply text_eqb_spec in E4; subst p|].
  { split; [intros <-; right; right; right; left; auto|]. intros [(X & _)|[(X & _)|[(X & _)|[(_ & ->)|(X & _)]]]]; try discriminate X; [reflexivity|]. destruct X; right; right; right; left; reflexivity. }
  assert (N : ~ In p [lit "R"; lit "S"; lit "G"; lit "W"]).
  { intros [X|[X|[X|[X|[]]]]]; rewrite <- X in *; rewrite (proj2 (text_eqb_spec _ _) eq_refl) in *; discriminate. }
  split; [intros <-; right; right; right; right; auto|].
  intros [(-> & _)|[(-> & _)|[(-> & _)|[(-> & _)|(_ & ->)]]]]; [..|reflexivity]; exfalso; apply N; cbn; auto.
Qed.
