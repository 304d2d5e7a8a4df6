(** Capital and small letters do not matter when an angle is read. *)
Require Import ZArith Bool Ascii String List Lia.
Require Import Verif.M_DmsText Verif.Spec_DmsText.
Import ListNotations.
Local Open Scope list_scope.
Local Open Scope nat_scope.

Lemma between_iff : forall lo hi a, between lo hi a = true <-> lo <= nat_of_ascii a <= hi.
Proof. intros. unfold between. rewrite andb_true_iff, !Nat.leb_le. lia. Qed.
Lemma between_same : forall lo hi a b, same_letter a b -> (hi < 65 \/ 122 < lo) -> between lo hi a = between lo hi b.
Proof.
  intros lo hi a b S H. apply eq_true_iff_eq. rewrite !between_iff. destruct S as [->|(i & I & S)]; [tauto|]. lia.
Qed.
(** a class that does not tell capital from small letters *)
Definition blind_to_case (p : ascii -> bool) : Prop := forall a b, same_letter a b -> p a = p b.
(** a class without letters *)
Definition no_letter (p : ascii -> bool) : Prop := forall a b, same_letter a b -> p a = true -> a = b.
Lemma digit_blind : blind_to_case digit. Proof. intros a b S. apply between_same; [exact S|lia]. Qed.
Lemma space_blind : blind_to_case space.
Proof. intros a b S. unfold space. rewrite !(between_same _ _ a b S); try lia. reflexivity. Qed.
Lemma nonspace_blind : blind_to_case nonspace. Proof. intros a b S. unfold nonspace. rewrite (space_blind a b S). reflexivity. Qed.
Lemma sign_no_letter : forall c, (nat_of_ascii c < 65 \/ 122 < nat_of_ascii c) -> no_letter (Ascii.eqb c).
Proof.
  intros c C a b S E. apply Ascii.eqb_eq in E. subst c. destruct S as [->|(i & I & S)]; [reflexivity|lia].
Qed.
Lemma sign_blind : forall c, (nat_of_ascii c < 65 \/ 122 < nat_of_ascii c) -> blind_to_case (Ascii.eqb c).
Proof.
  intros c C a b S. apply eq_true_iff_eq. rewrite !Ascii.eqb_eq. destruct S as [->|(i & I & S)]; [tauto|].
  split; intros ->; lia.
Qed.
Lemma dot_blind : blind_to_case dot.
Proof.
  intros a b S. unfold dot. f_equal. rewrite (Ascii.eqb_sym a), (Ascii.eqb_sym b). apply sign_blind; [|exact S].
  left. unfold NEWLINE. rewrite nat_ascii_embedding; lia.
Qed.
Lemma lower_same : forall a b, same_letter a b -> lower a = lower b.
Proof.
  intros a b [->|(i & I & S)]; [reflexivity|]. unfold lower.
  destruct (between 65 90 a) eqn:A; destruct (between 65 90 b) eqn:B.
  all: try apply between_iff in A; try apply between_iff in B; try lia.
  - rewrite <- (ascii_nat_embedding b). f_equal. lia.
  - rewrite <- (ascii_nat_embedding a). f_equal. lia.
  - exfalso. apply not_true_iff_false in A, B. rewrite between_iff in A, B. lia.
Qed.
Lemma letter_blind : forall c, blind_to_case (fun a => Ascii.eqb c (lower a)).
Proof. intros c a b S. cbn beta. rewrite (lower_same a b S). reflexivity. Qed.
Lemma digit_no_letter : no_letter digit.
Proof. intros a b [E|(i & I & S)] D; [exact E|]. apply between_iff in D. lia. Qed.

Definition caps_alike (c d : caps) : Prop :=
  Forall2 (fun x y => fst x = fst y /\ same_letters (snd x) (snd y) /\ (fst x <= 3 -> snd x = snd y)) c d.
Definition both (x y : option caps) : Prop :=
  match x, y with Some c, Some d => caps_alike c d | None, None => True | _, _ => False end.
(** texts of digits and dots only *)
Fixpoint letterless (r : re) : Prop :=
  match r with
  | Cls p | Many p => no_letter p /\ blind_to_case p
  | Opt r => letterless r
  | Cat a b => letterless a /\ letterless b
  | _ => False
  end.
Fixpoint any_case (r : re) : Prop :=
  match r with
  | Cls p | Many p | Few p => blind_to_case p
  | Opt r => any_case r
  | Alt a b | Cat a b => any_case a /\ any_case b
  | Grp n r => if Nat.leb n 3 then letterless r else any_case r
  | Eos => True
  end.
Lemma length_same : forall s t, same_letters s t -> length s = length t.
Proof. intros s t H. induction H; cbn; congruence. Qed.
Lemma both_or : forall x x' y y', both x x' -> both y y' -> both (match x with Some c => Some c | None => y end) (match x' with Some c => Some c | None => y' end).
Proof. intros [c|] [c'|] y y' H H2; cbn in *; tauto. Qed.
Lemma many_fixed : forall p (k k' : list ascii -> option caps) s s', no_letter p -> blind_to_case p -> same_letters s s' ->
  (forall u t t', s = u ++ t -> s' = u ++ t' -> same_letters t t' -> both (k t) (k' t')) -> both (many p s k) (many p s' k').
Proof.
  intros p k k' s s' N B S. induction S as [|a b s s' AB S IH]; intro K; cbn.
  - apply (K []); [reflexivity|reflexivity|constructor].
  - rewrite <- (B a b AB). destruct (p a) eqn:P.
    + pose proof (N a b AB P) as <-. apply both_or.
      * apply IH. intros u t t' -> -> T. apply (K (a :: u)); [reflexivity|reflexivity|exact T].
      * apply (K []); [reflexivity|reflexivity|constructor; assumption].
    + apply (K []); [reflexivity|reflexivity|constructor; assumption].
Qed.
Lemma run_fixed : forall r, letterless r -> forall s s' c c' (k k' : list ascii -> caps -> option caps), same_letters s s' -> caps_alike c c' ->
  (forall u t t' d d', s = u ++ t -> s' = u ++ t' -> same_letters t t' -> caps_alike d d' -> both (k t d) (k' t' d')) ->
  both (run r s c k) (run r s' c' k').
Proof.
  induction r as [p|p|p|r IH|a IHa b IHb|a IHa b IHb|n r IH|]; cbn [letterless]; intros L s s' c c' k k' S C K; try contradiction.
  - destruct L as [N B]. destruct S as [|a b s s' AB S]; cbn; [exact I|]. rewrite <- (B a b AB). destruct (p a) eqn:P; [|exact I].
    pose proof (N a b AB P) as <-. apply (K [a]); auto.
  - destruct L as [N B]. cbn. apply many_fixed; auto. intros. eapply K; eauto.
  - cbn. apply both_or; [apply IH; auto|]. apply (K []); auto.
  - destruct L as [LA LB]. cbn. apply IHa; auto. intros u t t' d d' E E' T D. apply IHb; auto.
    intros v w w' e e' F F' W Y. subst. apply (K (u ++ v)); auto; rewrite app_assoc; reflexivity.
Qed.
Lemma taken_app : forall u t, taken (u ++ t) t = u.
Proof.
  intros. unfold taken. rewrite app_length. replace (length u + length t - length t) with (length u) by lia.
  rewrite firstn_app, firstn_all, Nat.sub_diag. cbn. apply app_nil_r.
Qed.
Lemma firstn_same : forall n s t, same_letters s t -> same_letters (firstn n s) (firstn n t).
Proof. induction n; intros s t H; [constructor|]. destruct H; cbn; constructor; auto. apply IHn. assumption. Qed.
Lemma same_refl : forall s, same_letters s s.
Proof. induction s; constructor; [left; reflexivity|assumption]. Qed.
Lemma many_case : forall p (k k' : list ascii -> option caps) s s', blind_to_case p -> same_letters s s' ->
  (forall t t', same_letters t t' -> both (k t) (k' t')) -> both (many p s k) (many p s' k').
Proof.
  intros p k k' s s' B S K. induction S as [|a b s s' AB S IH]; cbn; [apply K; constructor|].
  rewrite <- (B a b AB). destruct (p a); [apply both_or; [exact IH|]|]; apply K; constructor; assumption.
Qed.
Lemma few_case : forall p (k k' : list ascii -> option caps) s s', blind_to_case p -> same_letters s s' ->
  (forall t t', same_letters t t' -> both (k t) (k' t')) -> both (few p s k) (few p s' k').
Proof.
  intros p k k' s s' B S K. induction S as [|a b s s' AB S IH]; cbn.
  - apply both_or; [apply K; constructor|exact I].
  - rewrite <- (B a b AB). apply both_or; [apply K; constructor; assumption|]. destruct (p a); [exact IH|exact I].
Qed.
Lemma run_case : forall r, any_case r -> forall s s' c c' (k k' : list ascii -> caps -> option caps), same_letters s s' -> caps_alike c c' ->
  (forall t t' d d', same_letters t t' -> caps_alike d d' -> both (k t d) (k' t' d')) ->
  both (run r s c k) (run r s' c' k').
Proof.
  induction r as [p|p|p|r IH|a IHa b IHb|a IHa b IHb|n r IH|]; cbn [any_case]; intros L s s' c c' k k' S C K.
  - destruct S as [|a b s s' AB S]; cbn; [exact I|]. rewrite <- (L a b AB). destruct (p a); [|exact I]. apply K; assumption.
  - cbn. apply many_case; auto.
  - cbn. apply few_case; auto.
  - cbn. apply both_or; auto.
  - cbn. destruct L. apply both_or; auto.
  - cbn. destruct L as [LA LB]. apply IHa; auto.
  - cbn [run]. destruct (Nat.leb n 3) eqn:N.
    + apply run_fixed; auto. intros u t t' d d' -> -> T D. rewrite !taken_app. apply K; [exact T|].
      constructor; [|exact D]. cbn. split; [reflexivity|]. split; [apply same_refl|reflexivity].
    + apply Nat.leb_gt in N. apply IH; auto. intros t t' d d' T D. apply K; [exact T|]. constructor; [|exact D]. cbn.
      split; [reflexivity|]. split; [|lia]. unfold taken. rewrite (length_same _ _ S), (length_same _ _ T). apply firstn_same. exact S.
  - destruct S as [|a b s s' AB S]; [cbn; apply K; auto; constructor|]. destruct S as [|a2 b2 s s' AB2 S]; [|exact I]. cbn [run].
    assert (E : Ascii.eqb a NEWLINE = Ascii.eqb b NEWLINE) by (pose proof (dot_blind a b AB) as D; unfold dot in D; destruct (Ascii.eqb a NEWLINE), (Ascii.eqb b NEWLINE); cbn in D; congruence).
    rewrite <- E. destruct (Ascii.eqb a NEWLINE); [|exact I]. apply K; [|exact C]. constructor; [exact AB|constructor].
Qed.
Lemma pattern_any_case : any_case dms_pattern.
Proof.
  assert (P : forall c, (nat_of_ascii c <? 65) || (122 <? nat_of_ascii c) = true -> nat_of_ascii c < 65 \/ 122 < nat_of_ascii c).
  { intros c H. apply orb_true_iff in H. rewrite !Nat.ltb_lt in H. exact H. }
  unfold dms_pattern, degrees_part, minutes_part, seconds_part, last_part, word3, letter, chr, many1. cbn [any_case letterless Nat.leb].
  repeat split; auto using digit_blind, space_blind, nonspace_blind, dot_blind, letter_blind, digit_no_letter.
  all: first [apply sign_blind; apply P; reflexivity | apply sign_no_letter; apply P; reflexivity].
Qed.
Lemma search_case : forall r, any_case r -> forall s s', same_letters s s' -> both (search r s) (search r s').
Proof.
  intros r A s s' S. induction S as [|a b s s' AB S IH]; cbn [search].
  - apply both_or; [|exact I]. apply run_case; auto; constructor.
  - apply both_or; [|exact IH]. apply run_case; auto; constructor; auto.
Qed.
Lemma group_case : forall n c d, caps_alike c d -> same_letters (group n c) (group n d) /\ (n <= 3 -> group n c = group n d).
Proof.
  intros n c d H. induction H as [|[i x] [j y] c d (E & S & F) H IH]; cbn in *; [split; [constructor|reflexivity]|].
  subst j. destruct (Nat.eqb i n) eqn:I; [|exact IH]. apply Nat.eqb_eq in I. subst n. split; assumption.
Qed.
Lemma read_any_case : forall s t, same_letters s t ->
  match dms_from_string s, dms_from_string t with
  | Some (d, m, sec, w), Some (d', m', sec', w') => d = d' /\ m = m' /\ sec = sec' /\
      match w, w' with Some x, Some x' => same_letters x x' | None, None => True | _, _ => False end
  | None, None => True
  | _, _ => False
  end.
Proof.
  intros s t S. pose proof (search_case _ pattern_any_case s t S) as B. unfold dms_from_string.
  destruct (search dms_pattern s) as [c|], (search dms_pattern t) as [d|]; cbn in B; try contradiction; [|exact I].
  destruct (group_case 1 c d B) as [_ E1]. destruct (group_case 2 c d B) as [_ E2]. destruct (group_case 3 c d B) as [_ E3].
  destruct (group_case 5 c d B) as [G5 _]. rewrite E1, E2, E3 by lia. repeat split.
  destruct G5; [exact I|]. constructor; assumption.
Qed.
