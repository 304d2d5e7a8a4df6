(** C173: the names and the kind of a converted tool. *)
Require Import Reals ZArith Bool Ascii String List Lra Lia.
Require Import Verif.Base Verif.M_Owsg Verif.M_OwsgMeta Verif.Spec_Owsg Verif.Spec_OwsgMeta Verif.P_Owsg.
Import ListNotations.
Open Scope list_scope.
Local Open Scope R_scope.

Lemma key_labelled : forall show key_of c key, key_cell show key_of c = Some key <-> labelled show key_of c key.
Proof.
  intros sh ko [|x|s] key; unfold labelled; cbn; split; try discriminate.
  - intros [(x & E & _)|(s & E & _)]; discriminate.
  - intros [= <-]. left. eauto.
  - intros [(y & [= <-] & <-)|(s & E & _)]; [reflexivity|discriminate].
  - intros [= <-]. right. eauto.
  - intros [(y & E & _)|(t & [= <-] & <-)]; [discriminate|reflexivity].
Qed.
Lemma kv_value : forall show key_of headed rows key found c, kv show key_of headed rows key found = Some c <->
  (exists r, last_such (fun r => labelled show key_of (fst r) key /\ headed (snd r) = false) rows r /\ snd r = c) \/
  ((forall r, In r rows -> ~ (labelled show key_of (fst r) key /\ headed (snd r) = false)) /\ found = Some c).
Proof.
  intros sh ko hd0 rows key. induction rows as [|[l v] rows IH]; intros found c; cbn [kv].
  - split; [intro H; right; split; [intros r []|exact H]|]. intros [(r & (b & a & E & _) & _)|[_ H]]; [destruct b; discriminate|exact H].
  - pose (Q := fun r : cell * cell => labelled sh ko (fst r) key /\ hd0 (snd r) = false).
    assert (No : ~ Q (l, v) -> (exists r, last_such Q rows r /\ snd r = c) \/ ((forall r, In r rows -> ~ Q r) /\ found = Some c) <->
      (exists r, last_such Q ((l, v) :: rows) r /\ snd r = c) \/ ((forall r, In r ((l, v) :: rows) -> ~ Q r) /\ found = Some c)).
    { intro N. split.
      - intros [(r & (b & a & -> & P) & S)|[H F]]; [left; exists r; split; [exists ((l, v) :: b), a; split; [reflexivity|exact P]|exact S]|].
        right. split; [intros r [<-|I]; auto|exact F].
      - intros [(r & (b & a & E & P) & S)|[H F]]; [|right; split; [intros r I; apply H; right; exact I|exact F]].
        destruct b as [|x b]; [exfalso; assert (E1 := f_equal (hd r) E); cbn in E1; subst r; tauto|].
        left. exists r. split; [exists b, a; split; [exact (f_equal (@tl _) E)|exact P]|exact S]. }
    change (forall r, In r ((l, v) :: rows) -> ~ (labelled sh ko (fst r) key /\ hd0 (snd r) = false)) with (forall r, In r ((l, v) :: rows) -> ~ Q r).
    destruct (key_cell sh ko l) as [k|] eqn:K.
    + destruct (hd0 v) eqn:Hd.
      * rewrite IH. apply No. intros [_ H]. cbn in H. congruence.
      * rewrite IH. destruct (String.eqb_spec k key) as [->|N].
        -- assert (Y : Q (l, v)) by (split; [apply key_labelled; exact K|exact Hd]). split.
           ++ intros [(r & (b & a & -> & P) & S)|[H F]]; [left; exists r; split; [exists ((l, v) :: b), a; split; [reflexivity|exact P]|exact S]|].
              left. exists (l, v). split; [|cbn; congruence]. exists [], rows. split; [reflexivity|]. split; [exact Y|exact H].
           ++ intros [(r & (b & a & E & P) & S)|[H F]]; [|exfalso; exact (H (l, v) (or_introl eq_refl) Y)].
              destruct b as [|x b].
              ** assert (E1 := f_equal (hd r) E). assert (E2 := f_equal (@tl _) E). cbn in E1, E2. subst r a. right. cbn in S. subst c. split; [apply P|reflexivity].
              ** left. exists r. split; [exists b, a; split; [exact (f_equal (@tl _) E)|exact P]|exact S].
        -- apply No. intros [H _]. apply key_labelled in H. cbn in H. congruence.
    + rewrite IH. apply No. intros [H _]. apply key_labelled in H. cbn in H. congruence.
Qed.
Lemma kv_entries : forall show key_of headed rows key c, kv show key_of headed rows key None = Some c <->
  exists r, last_such (fun r => labelled show key_of (fst r) key /\ headed (snd r) = false) rows r /\ snd r = c.
Proof.
  intros. rewrite kv_value. split; [|intro H; left; exact H]. intros [H|[_ H]]; [exact H|discriminate].
Qed.
Lemma or_states : forall show v d s, states show v s -> or_text show v d = s.
Proof.
  intros sh v d s [N [(x & -> & X & ->)| ->]]; cbn; [destruct (Req_EM_T x 0); [contradiction|reflexivity]|].
  destruct (String.eqb_spec s ""); [contradiction|reflexivity].
Qed.
Lemma or_cases : forall show v d, (forall x, show x <> ""%string) ->
  (exists s, states show v s) \/ (left_empty v /\ or_text show v d = ""%string) \/ (~ left_empty v /\ or_text show v d = d /\ forall s, ~ states show v s).
Proof.
  intros sh [[|x|t]|] d Sh; cbn.
  - right. left. split; reflexivity.
  - destruct (Req_EM_T x 0) as [->|N]; [|left; exists (sh x); split; [apply Sh|left; eauto]].
    right. right. split; [discriminate|]. split; [reflexivity|]. intros s [_ [(y & [= <-] & Y & _)|H]]; [contradiction|discriminate].
  - destruct (String.eqb_spec t "") as [->|N]; [|left; exists t; split; [exact N|right; reflexivity]].
    right. right. split; [discriminate|]. split; [reflexivity|]. intros s [N [(y & H & _)|H]]; [discriminate|congruence].
  - right. right. split; [discriminate|]. split; [reflexivity|]. intros s [_ [(y & H & _)|H]]; discriminate.
Qed.
Lemma empty_states : forall show v s, left_empty v -> ~ states show v s.
Proof. intros sh v s -> [_ [(y & H & _)|H]]; discriminate. Qed.
Lemma or_str_empty : forall b, or_str "" b = b. Proof. reflexivity. Qed.
Lemma or_str_full : forall a b, a <> ""%string -> or_str a b = a.
Proof. intros a b N. unfold or_str. destruct (String.eqb_spec a ""); [contradiction|reflexivity]. Qed.
Lemma or_str_same : forall a, or_str a a = a.
Proof. intro a. unfold or_str. destruct (String.eqb a ""); reflexivity. Qed.
Lemma or_str_idem : forall a b, or_str a (or_str a b) = or_str a b.
Proof. intros a b. unfold or_str. destruct (String.eqb_spec a ""); reflexivity. Qed.
Lemma names_of : forall show short long prefix label sheet, (forall x, show x <> ""%string) ->
  let n := tool_names show short long prefix label sheet in
  (forall s, states show short s -> n_short n = s) /\ ((forall s, ~ states show short s) -> n_short n = sheet) /\
  (forall s, states show long s -> n_long n = s) /\ ((forall s, ~ states show long s) -> n_long n = n_short n).
Proof.
  intros sh short long prefix label sheet Sh n. subst n. unfold tool_names; cbn [n_short n_long].
  split; [intros s H; rewrite (or_states _ _ _ _ H); apply or_str_full; apply H|].
  split; [intro H; destruct (or_cases sh short sheet Sh) as [[s S]|[[_ E]|[_ [E _]]]]; [exfalso; exact (H s S)|rewrite E; reflexivity|rewrite E; apply or_str_same]|].
  split; [intros s H; rewrite (or_states _ _ _ _ H); apply or_str_full; apply H|].
  intro H. destruct (or_cases sh long (or_text sh short sheet) Sh) as [[s S]|[[_ E]|[_ [E _]]]]; [exfalso; exact (H s S)|rewrite E; reflexivity|].
  rewrite E. apply or_str_idem.
Qed.
Lemma id_of : forall show short long prefix label sheet, (forall x, show x <> ""%string) ->
  let n := tool_names show short long prefix label sheet in
  (forall s, states show prefix s -> n_id n = s /\ n_seed n = (label ++ "/" ++ s)%string) /\
  ((forall s, ~ states show prefix s) -> ~ left_empty prefix -> n_seed n = (label ++ "/" ++ sheet)%string /\ (sheet <> ""%string -> n_id n = sheet)) /\
  (left_empty prefix -> n_seed n = (label ++ "/")%string /\
     (forall s, states show short s -> n_id n = s) /\ (left_empty short -> n_id n = ""%string)).
Proof.
  intros sh short long prefix label sheet Sh n. subst n. unfold tool_names; cbn [n_id n_seed]. split; [|split].
  - intros s H. rewrite !(or_states _ _ _ _ H). split; [apply or_str_full; apply H|reflexivity].
  - intros H N. destruct (or_cases sh prefix sheet Sh) as [[s S]|[[L _]|[_ [E _]]]]; [exfalso; exact (H s S)|contradiction|].
    rewrite E. split; [reflexivity|]. intro F. apply or_str_full. exact F.
  - intros ->. cbn [or_text]. split; [induction label as [|c l IH]; [reflexivity|cbn; f_equal; exact IH]|]. split.
    + intros s H. rewrite (or_states _ _ _ _ H). reflexivity.
    + intros ->. reflexivity.
Qed.
(** ** the kind *)
Lemma upper_capital : forall c d, upper c = d <-> capital c d.
Proof.
  intros c d. unfold upper, capital. cbv zeta. pose proof (range_iff 97 122 c) as R. destruct (in_range 97 122 c).
  - assert (B : (97 <= nat_of_ascii c <= 122)%nat) by (apply R; reflexivity). split.
    + intros <-. left. split; [exact B|]. apply nat_ascii_embedding. lia.
    + intros [[_ E]|[N _]]; [|contradiction]. rewrite <- E. apply ascii_nat_embedding.
  - split; [intros <-; right; split; [intro B; apply R in B; discriminate|reflexivity]|]. intros [[B _]|[_ E]]; [apply R in B; discriminate|congruence].
Qed.
Lemma starts_iff : forall w s, starts w (map upper s) = true <-> exists m b, s = m ++ b /\ Forall2 capital m w.
Proof.
  induction w as [|a w IH]; intros s; cbn [starts].
  - split; [intros _; exists [], s; split; [reflexivity|constructor]|reflexivity].
  - destruct s as [|c s]; cbn [map].
    + split; [discriminate|]. intros (m & b & E & F). inversion F; subst. discriminate.
    + rewrite andb_true_iff, Ascii.eqb_eq, IH. split.
      * intros [E (m & b & -> & F)]. exists (c :: m), b. split; [reflexivity|]. constructor; [apply upper_capital; congruence|exact F].
      * intros (m & b & E & F). inversion F as [|x y l l' C F' H1 H2]; subst. cbn in E. assert (E1 := f_equal (hd c) E). assert (E2 := f_equal (@tl _) E). cbn in E1, E2. subst x s.
        split; [symmetry; apply upper_capital; exact C|]. exists l, b. auto.
Qed.
Lemma mention_iff : forall w sheet, mention w sheet = true <-> mentions w sheet.
Proof.
  intros w sheet. unfold mention, mentions. generalize (list_ascii_of_string w) (list_ascii_of_string sheet). clear w sheet. intros w s.
  induction s as [|c s IH]; cbn [map contains]; rewrite orb_true_iff.
  - change (@nil ascii) with (map upper []) at 1. rewrite starts_iff. split.
    + intros [(m & b & E & F)|H]; [|discriminate]. exists [], m, b. auto.
    + intros (a & m & b & E & F). left. destruct a; [|discriminate]. exists m, b. auto.
  - change (upper c :: map upper s) with (map upper (c :: s)). rewrite starts_iff, IH. split.
    + intros [(m & b & E & F)|(a & m & b & -> & F)]; [exists [], m, b; auto|exists (c :: a), m, b; auto].
    + intros (a & m & b & E & F). destruct a as [|x a]; [left; exists m, b; auto|]. right. exists a, m, b. split; [exact (f_equal (@tl _) E)|exact F].
Qed.
Lemma kinds_iff : forall t k, (exists e, find (fun e => String.eqb (fst e) t) kinds = Some e /\ snd e = k) <-> known_kind t k.
Proof.
  intros t k. split.
  - intros (e & F & <-). apply find_some in F. destruct F as [I E]. apply String.eqb_eq in E. subst t. unfold known_kind.
    cbn [kinds In] in I. repeat destruct I as [<-|I]; try (cbn; tauto).
  - unfold known_kind. cbn [In]. intro H. repeat match goal with H : _ \/ _ |- _ => destruct H | H : _ /\ _ |- _ => destruct H | H : False |- _ => destruct H end;
      subst; eexists; split; reflexivity.
Qed.
Lemma kind_of : forall show tool short sheet k g, tool_kind show tool short sheet = (k, g) <->
  let raw := or_text show tool (or_text show short sheet) in
  (g = false /\ known_kind raw k) \/
  (g = true /\ (forall j, ~ known_kind raw j) /\
   ((mentions "GYRO" sheet /\ k = "Gyroscopic"%string) \/
    (~ mentions "GYRO" sheet /\ (mentions "BLIND" sheet \/ mentions "INC" sheet) /\ k = "Unknown"%string) \/
    (~ mentions "GYRO" sheet /\ ~ mentions "BLIND" sheet /\ ~ mentions "INC" sheet /\ k = "Magnetic"%string))).
Proof.
  intros sh tool short sheet k g. cbv zeta. unfold tool_kind. cbv zeta. generalize (or_text sh tool (or_text sh short sheet)). intro raw.
  destruct (find (fun e => String.eqb (fst e) raw) kinds) as [e|] eqn:F.
  - assert (KK : known_kind raw (snd e)) by (apply kinds_iff; eauto). split.
    + intro H. assert (k = snd e) by congruence. assert (g = false) by congruence. subst. left. auto.
    + intros [[-> H]|[_ [N _]]]; [|destruct (N _ KK)]. apply kinds_iff in H. destruct H as (e' & F' & <-). congruence.
  - assert (N : forall j, ~ known_kind raw j) by (intros j H; apply kinds_iff in H; destruct H as (e & F' & _); congruence).
    rewrite <- !mention_iff. destruct (mention "GYRO" sheet), (mention "BLIND" sheet), (mention "INC" sheet);
      (split; [intro H; assert (X := f_equal fst H); assert (Y := f_equal snd H); cbn in X, Y; subst; right; split; [reflexivity|]; split; [exact N|]; intuition congruence|
        intros [[_ H]|[-> [_ H]]]; [destruct (N _ H)|]; f_equal; intuition congruence]).
Qed.
Lemma reads_or : forall show v d s, (forall x, show x <> ""%string) -> reads_as show v d s -> or_text show v d = s.
Proof.
  intros sh v d s Sh [H|[[L ->]|[N [H ->]]]]; [apply or_states; exact H|rewrite L; reflexivity|].
  destruct (or_cases sh v d Sh) as [[t S]|[[L _]|[_ [E _]]]]; [destruct (H t S)|contradiction|exact E].
Qed.
Lemma kind_read : forall show tool short sheet d raw k g, (forall x, show x <> ""%string) ->
  reads_as show short sheet d -> reads_as show tool d raw ->
  (tool_kind show tool short sheet = (k, g) <->
  (g = false /\ known_kind raw k) \/
  (g = true /\ (forall j, ~ known_kind raw j) /\
   ((mentions "GYRO" sheet /\ k = "Gyroscopic"%string) \/
    (~ mentions "GYRO" sheet /\ (mentions "BLIND" sheet \/ mentions "INC" sheet) /\ k = "Unknown"%string) \/
    (~ mentions "GYRO" sheet /\ ~ mentions "BLIND" sheet /\ ~ mentions "INC" sheet /\ k = "Magnetic"%string)))).
Proof.
  intros sh tool short sheet d raw k g Sh A B. rewrite kind_of. cbv zeta. rewrite (reads_or _ _ _ _ Sh A), (reads_or _ _ _ _ Sh B). reflexivity.
Qed.
Lemma seeds_shared : forall show short long short' long' label a b,
  n_seed (tool_names show short long (Some Empty) label a) = n_seed (tool_names show short' long' (Some Empty) label b).
Proof. reflexivity. Qed.
Lemma empty_kind : forall show short sheet, ~ mentions "GYRO" sheet -> ~ mentions "BLIND" sheet -> ~ mentions "INC" sheet ->
  tool_kind show (Some Empty) short sheet = ("Magnetic"%string, true).
Proof.
  intros sh short sheet A B C. rewrite <- mention_iff in A, B, C. unfold tool_kind. cbn -[mention].
  destruct (mention "GYRO" sheet), (mention "BLIND" sheet), (mention "INC" sheet); congruence.
Qed.
