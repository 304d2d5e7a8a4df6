(** The revision named on the Readme sheet. *)
Require Import Reals ZArith Ascii String List Bool Lra Lia.
Require Import Verif.Base Verif.NumPy Verif.M_Utils Verif.M_DmsText Verif.P_DmsText.
Require Import Verif.M_Text Verif.Spec_Text Verif.P_Text Verif.M_Ingest Verif.Spec_Ingest Verif.P_Ingest.
Import ListNotations.
Open Scope list_scope.
Local Open Scope nat_scope.

(** ** what the matcher has consumed and captured; [t] is what is left *)
Fixpoint consumes (r : re) (u t : list ascii) (c c' : caps) : Prop :=
  match r with
  | Cls p => (exists a, u = [a] /\ p a = true) /\ c' = c
  | Many p | Few p => Forall (fun a => p a = true) u /\ c' = c
  | Opt r => (u = [] /\ c' = c) \/ consumes r u t c c'
  | Alt a b => consumes a u t c c' \/ consumes b u t c c'
  | Cat a b => exists v w c1, u = v ++ w /\ consumes a v (w ++ t) c c1 /\ consumes b w t c1 c'
  | Grp n r => exists c1, consumes r u t c c1 /\ c' = (n, u) :: c1
  | Eos => u = [] /\ (t = [] \/ t = [NEWLINE]) /\ c' = c
  end.
Lemma run_consumes : forall X r s c (k : list ascii -> caps -> option X) x, run r s c k = Some x ->
  exists u t c', s = u ++ t /\ consumes r u t c c' /\ k t c' = Some x.
Proof.
  intros X r. induction r as [p|p|p|r IH|a IHa b IHb|a IHa b IHb|n r IH|]; intros s c k x H.
  - destruct s as [|a s]; [discriminate|]. cbn in H. destruct (p a) eqn:A; [|discriminate]. exists [a], s, c. cbn. split; [reflexivity|]. split; [|exact H]. split; [exists a; auto|reflexivity].
  - cbn in H. assert (G : exists u t, s = u ++ t /\ Forall (fun a => p a = true) u /\ k t c = Some x).
    { revert H. induction s as [|a s IH]; cbn; intro H; [exists [], []; auto|].
      destruct (p a) eqn:A; [|exists [], (a :: s); auto]. destruct (many p s (fun t => k t c)) as [y|] eqn:M.
      - destruct (IH H) as (u & t & -> & F & K). exists (a :: u), t. split; [reflexivity|]. split; [constructor; assumption|exact K].
      - exists [], (a :: s). auto. }
    destruct G as (u & t & E & F & K). exists u, t, c. cbn. auto.
  - cbn in H. assert (G : exists u t, s = u ++ t /\ Forall (fun a => p a = true) u /\ k t c = Some x).
    { revert H. induction s as [|a s IH]; cbn; intro H.
      - destruct (k [] c) eqn:K; [|discriminate]. exists [], []. rewrite K. auto.
      - destruct (k (a :: s) c) eqn:K; [exists [], (a :: s); rewrite K; auto|]. destruct (p a) eqn:A; [|discriminate].
        destruct (IH H) as (u & t & -> & F & K'). exists (a :: u), t. split; [reflexivity|]. split; [constructor; assumption|exact K']. }
    destruct G as (u & t & E & F & K). exists u, t, c. cbn. auto.
  - cbn in H. destruct (run r s c k) as [y|] eqn:R.
    + injection H as ->. destruct (IH _ _ _ _ R) as (u & t & c' & E & L & K). exists u, t, c'. cbn. auto.
    + exists [], s, c. cbn. auto.
  - cbn in H. destruct (run a s c k) as [y|] eqn:R.
    + injection H as ->. destruct (IHa _ _ _ _ R) as (u & t & c' & E & L & K). exists u, t, c'. cbn. auto.
    + destruct (IHb _ _ _ _ H) as (u & t & c' & E & L & K). exists u, t, c'. cbn. auto.
  - cbn in H. destruct (IHa _ _ _ _ H) as (v & r & c1 & -> & L & K). destruct (IHb _ _ _ _ K) as (w & t & c' & -> & L' & K').
    exists (v ++ w), t, c'. split; [apply app_assoc|]. split; [|exact K']. cbn. exists v, w, c1. auto.
  - cbn in H. destruct (IH _ _ _ _ H) as (u & t & c' & -> & L & K). rewrite taken_app in K. exists u, t, ((n, u) :: c').
    split; [reflexivity|]. split; [|exact K]. cbn. exists c'. auto.
  - cbn [run] in H. exists [], s, c. cbn [consumes]. split; [reflexivity|]. destruct s as [|a [|b s]]; [auto| |discriminate].
    revert H. destruct (Ascii.eqb_spec a NEWLINE) as [->|N]; [auto|discriminate].
Qed.

(** ** characters *)
Lemma same_space : forall c, M_DmsText.space c = is_space c.
Proof. intros [[] [] [] [] [] [] [] []]; reflexivity. Qed.
Lemma same_digit : forall c, M_DmsText.digit c = true <-> is_digit c.
Proof. intro c. unfold M_DmsText.digit, between, is_digit. rewrite andb_true_iff, !Nat.leb_le. reflexivity. Qed.
Lemma spaces_blank : forall u, Forall (fun a => M_DmsText.space a = true) u <-> blanks u.
Proof. intro u. unfold blanks. split; apply Forall_impl; intros a H; [rewrite <- same_space|rewrite same_space]; exact H. Qed.
Lemma digits_are : forall u, Forall (fun a => M_DmsText.digit a = true) u <-> Forall is_digit u.
Proof. intro u. split; apply Forall_impl; intros a H; apply same_digit; exact H. Qed.
Lemma int_is_value : forall u, Forall is_digit u -> int_of u = digits_value u.
Proof.
  intros u F. unfold int_of, digits_value. generalize 0%Z. induction F as [|a u D F IH]; intro z; [reflexivity|]. cbn [fold_left]. rewrite IH. f_equal.
  unfold digit_value. unfold is_digit in D. rewrite Nat2Z.inj_sub by lia. reflexivity.
Qed.
Lemma many1_consumes : forall p u t c c', consumes (many1 p) u t c c' -> u <> [] /\ Forall (fun a => p a = true) u /\ c' = c.
Proof.
  intros p u t c c' (v & w & c1 & -> & [(a & -> & A) ->] & (F & ->)). split; [discriminate|]. split; [constructor; assumption|reflexivity].
Qed.
Lemma word_consumes : forall w r u t c c', consumes (word_re w r) u t c c' -> exists v, u = w ++ v /\ consumes r v t c c'.
Proof.
  induction w as [|a w IH]; intros r u t c c' H; [exists u; auto|]. destruct H as (v & q & c1 & -> & [(b & -> & B) ->] & H).
  apply Ascii.eqb_eq in B. subst b. destruct (IH _ _ _ _ _ H) as (z & -> & G). exists z. auto.
Qed.
Lemma run_word : forall X w r s c (k : list ascii -> caps -> option X) x, run r s c k = Some x -> run (word_re w r) (w ++ s) c k = Some x.
Proof. intros X w. induction w as [|a w IH]; intros r s c k x H; [exact H|]. cbn. rewrite Ascii.eqb_refl. apply IH. exact H. Qed.

Lemma revision_spec : forall t k, revision_key t = Some k <-> names_revision t k.
Proof.
  intros t k. unfold revision_key. split.
  - destruct (run revision_re t [] (fun _ c => Some c)) as [c|] eqn:R; [|discriminate]. intro H.
    apply run_consumes in R. destruct R as (u & rest & c' & -> & C & K). injection K as <-.
    destruct C as (p & u1 & c1 & -> & [FP ->] & C). apply word_consumes in C. destruct C as (u2 & -> & C).
    destruct C as (q & u3 & c2 & -> & Q & C). apply many1_consumes in Q. destruct Q as (NQ & FQ & ->).
    destruct C as (a & u4 & c3 & -> & (c4 & A & ->) & C). apply many1_consumes in A. destruct A as (NA & FA & ->).
    destruct C as (d & u5 & c5 & -> & [(dc & -> & D) ->] & C). apply Ascii.eqb_eq in D. subst dc.
    destruct C as (b & u6 & c6 & -> & (c7 & B & ->) & C). apply many1_consumes in B. destruct B as (NB & FB & ->).
    destruct C as (r & u7 & c8 & -> & [FR ->] & (-> & E & ->)).
    cbn [group Nat.eqb] in H. injection H as <-. rewrite digits_are in FA, FB. rewrite spaces_blank in FP, FQ, FR.
    exists p, q, a, b, (r ++ rest). split; [rewrite app_nil_r, <- !app_assoc; reflexivity|]. split; [exact FP|]. split; [exact FQ|]. split; [exact NQ|].
    split.
    { apply Forall_app. split; [exact FR|]. destruct E as [->| ->]; [constructor|]. constructor; [reflexivity|constructor]. }
    unfold number_text. cbn [fst snd]. rewrite !int_is_value by assumption. auto.
  - intros (p & q & a & b & r & -> & FP & FQ & NQ & FR & (NA & FA & VA) & (NB & FB & VB)).
    assert (R : run revision_re (p ++ lit "Revision" ++ q ++ a ++ lit "." ++ b ++ r) [] (fun _ c => Some c) = Some [(2, b); (1, a)]).
    { assert (SD : forall x y, x <> [] -> Forall is_digit x -> stop M_DmsText.space (x ++ y)).
      { intros x y N F. destruct F as [|d x D F]; [contradiction|]. cbn. rewrite same_space. apply digit_plain in D. apply D. }
      unfold revision_re. cbn [run]. apply many_ok; [apply spaces_blank; exact FP|reflexivity|].
      apply run_word. cbn [run many1]. destruct FQ as [|s q SQ FQ]; [contradiction|]. cbn [app]. rewrite same_space, SQ.
      apply many_ok; [apply spaces_blank; exact FQ|apply SD; assumption|].
      assert (TK : forall x (y : list ascii), taken (x ++ y) y = x) by (intros; apply taken_app).
      destruct FA as [|x a XA FA]; [contradiction|]. cbn [app]. rewrite (proj2 (same_digit x) XA).
      apply many_ok; [apply digits_are; exact FA|reflexivity|].
      change (x :: a ++ lit "." ++ b ++ r) with ((x :: a) ++ lit "." ++ b ++ r). rewrite TK. cbn [run chr lit list_ascii_of_string app]. rewrite Ascii.eqb_refl.
      destruct FB as [|y b YB FB]; [contradiction|]. cbn [app]. rewrite (proj2 (same_digit y) YB).
      apply many_ok; [apply digits_are; exact FB| |].
      { destruct FR as [|z r ZR FR]; [exact I|]. cbn. destruct (M_DmsText.digit z) eqn:DZ; [|reflexivity]. apply same_digit, digit_plain in DZ. destruct DZ. congruence. }
      change (y :: b ++ r) with ((y :: b) ++ r). rewrite TK. replace r with (r ++ []) by apply app_nil_r.
      apply many_ok; [apply spaces_blank; exact FR|exact I|]. reflexivity. }
    rewrite R. cbn [group Nat.eqb]. rewrite !int_is_value by assumption. rewrite VA, VB. destruct k. reflexivity.
Qed.
Lemma revision_none : forall t, revision_key t = None <-> forall k, ~ names_revision t k.
Proof.
  intro t. destruct (revision_key t) as [k|] eqn:E.
  - split; [discriminate|]. intro H. elim (H k). apply revision_spec. exact E.
  - split; [|reflexivity]. intros _ k H. apply revision_spec in H. congruence.
Qed.

(** ** the latest of them *)
Lemma newer_spec : forall a b, newer a b = true <-> later a b.
Proof. intros a b. unfold newer, later. rewrite orb_true_iff, andb_true_iff, !Z.ltb_lt, Z.eqb_eq. tauto. Qed.
Lemma later_trans : forall a b c, later a b -> later b c -> later a c.
Proof. unfold later. intros. lia. Qed.
Lemma later_total : forall a b c, ~ later b a -> later c a -> later c b.
Proof. unfold later. intros. lia. Qed.
Definition is_line (py : python) (c : cell) (k : Z * Z) : Prop := c <> Blank /\ names_revision (str py c) k.
Lemma latest_from_spec : forall py cells best, 
  match latest_from py cells best with
  | None => best = None /\ forall c k, In c cells -> ~ is_line py c k
  | Some (k, s) =>
      (best = Some (k, s) /\ forall c k', In c cells -> is_line py c k' -> ~ later k' k) \/
      exists a c b, cells = a ++ c :: b /\ is_line py c k /\ strip (str py c) = s /\
        (forall c' k', In c' a -> is_line py c' k' -> later k k') /\ (forall c' k', In c' b -> is_line py c' k' -> ~ later k' k) /\
        match best with Some (k0, _) => later k k0 | None => True end
  end.
Proof.
  intros py cells. induction cells as [|c cells IH]; intro best.
  - cbn. destruct best as [[k s]|]; [left|]; split; auto; intros ? ? [].
  - cbn [latest_from].
    assert (Skip : (forall k, ~ is_line py c k) -> latest_from py (c :: cells) best = latest_from py cells best ->
      match latest_from py cells best with
      | None => best = None /\ forall c0 k, In c0 (c :: cells) -> ~ is_line py c0 k
      | Some (k, s) =>
          (best = Some (k, s) /\ forall c0 k', In c0 (c :: cells) -> is_line py c0 k' -> ~ later k' k) \/
          exists a c0 b, c :: cells = a ++ c0 :: b /\ is_line py c0 k /\ strip (str py c0) = s /\
            (forall c' k', In c' a -> is_line py c' k' -> later k k') /\ (forall c' k', In c' b -> is_line py c' k' -> ~ later k' k) /\
            match best with Some (k0, _) => later k k0 | None => True end
      end).
    { intros N _. specialize (IH best). destruct (latest_from py cells best) as [[k s]|].
      - destruct IH as [[E F]|(a & c0 & b & -> & L & S & P & Q & B)].
        + left. split; [exact E|]. intros c0 k' [<-|I] L; [elim (N _ L)|exact (F _ _ I L)].
        + right. exists (c :: a), c0, b. split; [reflexivity|]. split; auto. split; auto. split; [|auto].
          intros c' k' [<-|I] L'; [elim (N _ L')|exact (P _ _ I L')].
      - destruct IH as [E F]. split; [exact E|]. intros c0 k [<-|I]; [apply N|apply F; exact I]. }
    assert (Main : c <> Blank ->
      match (match revision_key (str py c) with
             | None => latest_from py cells best
             | Some k => if match best with None => true | Some (b, _) => newer k b end
                         then latest_from py cells (Some (k, strip (str py c))) else latest_from py cells best end) with
      | None => best = None /\ forall c0 k, In c0 (c :: cells) -> ~ is_line py c0 k
      | Some (k, s) =>
          (best = Some (k, s) /\ forall c0 k', In c0 (c :: cells) -> is_line py c0 k' -> ~ later k' k) \/
          exists a c0 b, c :: cells = a ++ c0 :: b /\ is_line py c0 k /\ strip (str py c0) = s /\
            (forall c' k', In c' a -> is_line py c' k' -> later k k') /\ (forall c' k', In c' b -> is_line py c' k' -> ~ later k' k) /\
            match best with Some (k0, _) => later k k0 | None => True end
      end).
    { intro NB. destruct (revision_key (str py c)) as [k0|] eqn:RK.
      2:{ assert (N : forall k, ~ is_line py c k) by (intros k [_ L]; exact (proj1 (revision_none _) RK k L)).
          apply Skip; [exact N|]. cbn [latest_from]. rewrite RK. destruct c; reflexivity. }
      assert (L0 : is_line py c k0) by (split; [exact NB|apply revision_spec; exact RK]).
      assert (U : forall k', is_line py c k' -> k' = k0).
      { intros k' [_ L]. apply revision_spec in L. congruence. }
      destruct (match best with None => true | Some (b, _) => newer k0 b end) eqn:T.
      - pose proof (IH (Some (k0, strip (str py c)))) as J. destruct (latest_from py cells (Some (k0, strip (str py c)))) as [[k s]|].
        2:{ destruct J as [J _]. discriminate. }
        assert (B0 : match best with Some (kb, _) => later k0 kb | None => True end).
        { destruct best as [[kb sb]|]; [apply newer_spec; exact T|exact I]. }
        right. destruct J as [[E F]|(a & c0 & b & -> & L & S & P & Q & B)].
        + injection E as <- <-. exists [], c, cells. split; [reflexivity|]. split; auto. split; auto. split; [intros ? ? []|]. auto.
        + exists (c :: a), c0, b. split; [reflexivity|]. split; auto. split; auto. split; [|split; [exact Q|]].
          * intros c' k' [<-|I] L'; [rewrite (U _ L'); exact B|exact (P _ _ I L')].
          * destruct best as [[kb sb]|]; [|exact I]. exact (later_trans _ _ _ B B0).
      - destruct best as [[kb sb]|]; [|discriminate]. assert (NL : ~ later k0 kb) by (intro H; apply newer_spec in H; congruence).
        pose proof (IH (Some (kb, sb))) as J. destruct (latest_from py cells (Some (kb, sb))) as [[k s]|].
        2:{ destruct J as [J _]. discriminate. }
        destruct J as [[E F]|(a & c0 & b & -> & L & S & P & Q & B)].
        + injection E as <- <-. left. split; [reflexivity|]. intros c0 k' [<-|I] L; [rewrite (U _ L); exact NL|exact (F _ _ I L)].
        + right. exists (c :: a), c0, b. split; [reflexivity|]. split; auto. split; auto. split; [|split; [exact Q|exact B]].
          intros c' k' [<-|I] L'; [rewrite (U _ L'); exact (later_total kb k0 k NL B)|exact (P _ _ I L')]. }
    destruct c; try (apply Main; discriminate). apply Skip; [intros k [H _]; contradiction|reflexivity].
Qed.
Lemma revision_found : forall py cells s, latest_readme_revision py cells = Some s ->
  exists a c b k, cells = a ++ c :: b /\ c <> Blank /\ names_revision (str py c) k /\ stripped (str py c) s /\
    (forall c' k', In c' a -> c' <> Blank -> names_revision (str py c') k' -> later k k') /\
    (forall c' k', In c' b -> c' <> Blank -> names_revision (str py c') k' -> ~ later k' k).
Proof.
  intros py cells s H. unfold latest_readme_revision in H. pose proof (latest_from_spec py cells None) as L.
  destruct (latest_from py cells None) as [[k t]|]; [|discriminate]. cbn in H. injection H as ->.
  destruct L as [[L _]|(a & c & b & -> & [N L] & S & P & Q & _)]; [discriminate|]. exists a, c, b, k. split; [reflexivity|]. split; auto. split; auto.
  split; [apply strip_spec; exact S|]. split; intros c' k' I N' L'; [apply (P c' k' I)|apply (Q c' k' I)]; split; assumption.
Qed.
Lemma revision_absent : forall py cells, latest_readme_revision py cells = None <-> forall c k, In c cells -> c <> Blank -> ~ names_revision (str py c) k.
Proof.
  intros py cells. split.
  - intro H. unfold latest_readme_revision in H. pose proof (latest_from_spec py cells None) as L. destruct (latest_from py cells None) as [[k t]|]; [discriminate|].
    destruct L as [_ L]. intros c k I N R. apply (L c k I). split; assumption.
  - intro H. destruct (latest_readme_revision py cells) as [s|] eqn:E; [|reflexivity]. destruct (revision_found _ _ _ E) as (a & c & b & k & -> & N & R & _).
    elim (H c k); auto. apply in_or_app. right. left. reflexivity.
Qed.
