(** C128: the attributes of a case made from the tables of profiles. *)
Require Import Reals Ascii String List Bool Lia.
Require Import Verif.M_Edm Verif.Spec_Edm Verif.M_EdmWell Verif.Spec_EdmWell Verif.P_EdmWell.
Import ListNotations.
Open Scope string_scope.
Open Scope list_scope.

Lemma prefix_iff : forall w t, String.prefix w t = true <-> exists b, t = (w ++ b)%string.
Proof.
  induction w as [|c w IH]; intro t; [split; [intros _; exists t; reflexivity|intros _; destruct t; reflexivity]|].
  destruct t as [|d t]; [split; [discriminate|intros (b & H); discriminate]|]. cbn [String.append].
  change (String.prefix (String c w) (String d t)) with (if ascii_dec c d then String.prefix w t else false).
  destruct (ascii_dec c d) as [->|N]; [|].
  { rewrite (IH t). split; intros (b & H); exists b; [rewrite H; reflexivity|injection H; auto]. }
  split; [discriminate|]. intros (b & H). injection H as H _. congruence.
Qed.
Lemma contains_iff : forall w t, contains w t = true <-> mentions w t.
Proof.
  intros w t. unfold contains, mentions. induction t as [|c t IH].
  - cbn. destruct w as [|d w]; cbn; [split; [intros _; exists "", ""; reflexivity|reflexivity]|].
    split; [discriminate|]. intros (a & b & H). destruct a; discriminate.
  - change (String.index 0 w (String c t)) with
      (if String.prefix w (String c t) then Some 0 else match String.index 0 w t with Some n => Some (S n) | None => None end).
    destruct (String.prefix w (String c t)) eqn:P.
    + split; [intros _|reflexivity]. apply prefix_iff in P. destruct P as (b & H). exists "", b. exact H.
    + destruct (String.index 0 w t) as [n|].
      * split; [intros _|reflexivity]. destruct (proj1 IH eq_refl) as (a & b & ->). exists (String c a), b. reflexivity.
      * split; [discriminate|]. intros ([|d a] & b & H); cbn in H.
        { assert (X : String.prefix w (String c t) = true) by (apply prefix_iff; exists b; exact H). congruence. }
        injection H as _ H. destruct IH as (_ & IH). discriminate IH. exists a, b. exact H.
Qed.
Lemma profile_tag_iff : forall t, profile_tag t = true <-> profile_of t.
Proof.
  intro t. unfold profile_tag, profile_of. rewrite andb_true_iff, !orb_true_iff, negb_true_iff, !contains_iff.
  rewrite <- (contains_iff "TEMPLATE"). destruct (contains "TEMPLATE" t); intuition congruence.
Qed.
Lemma lower_char_small : forall c, small c (lower_char c).
Proof.
  intro c. unfold small, lower_char. cbv zeta. split; intro H.
  - replace (Nat.leb 65 (nat_of_ascii c) && Nat.leb (nat_of_ascii c) 90)%bool with true
      by (symmetry; apply andb_true_iff; split; apply Nat.leb_le; lia).
    apply nat_ascii_embedding. lia.
  - replace (Nat.leb 65 (nat_of_ascii c) && Nat.leb (nat_of_ascii c) 90)%bool with false; [reflexivity|].
    symmetry. apply andb_false_iff. rewrite !Nat.leb_gt. lia.
Qed.
Lemma small_fun : forall c a b, small c a -> small c b -> a = b.
Proof.
  unfold small. cbv zeta. intros c a b (A1 & A2) (B1 & B2).
  destruct (Nat.le_gt_cases 65 (nat_of_ascii c)) as [L|L]; [destruct (Nat.le_gt_cases (nat_of_ascii c) 90) as [M|M]|].
  - assert (E : nat_of_ascii a = nat_of_ascii b) by (rewrite A1, B1 by lia; reflexivity).
    rewrite <- (ascii_nat_embedding a), <- (ascii_nat_embedding b), E. reflexivity.
  - rewrite A2, B2 by lia. reflexivity.
  - rewrite A2, B2 by lia. reflexivity.
Qed.
Lemma lower_in_small : forall s n, in_small s n <-> n = lower s.
Proof.
  induction s as [|c s IH]; intros [|d n]; cbn; try (split; [tauto|discriminate]); [tauto|].
  rewrite IH. split.
  - intros (S & ->). f_equal. apply (small_fun c); [exact S|apply lower_char_small].
  - intro H. injection H as -> ->. split; [apply lower_char_small|reflexivity].
Qed.
Lemma mentions_length : forall w t, mentions w t -> String.length w <= String.length t.
Proof.
  assert (L : forall a b, String.length (a ++ b)%string = String.length a + String.length b) by (induction a; cbn; intros; [reflexivity|f_equal; auto]).
  intros w t (a & b & ->). rewrite !L. lia.
Qed.
Lemma profile_name_iff : forall t n, profile_of t -> (attribute_of t n <-> n = profile_name t).
Proof.
  intros t n P. assert (L : 3 < String.length t).
  { destruct P as ([P|[P|P]] & _); apply mentions_length in P; cbn in P; lia. }
  unfold attribute_of, profile_name. destruct t as [|c1 [|c2 [|c3 t]]]; try (cbn in L; lia). cbn [lower]. split.
  - intros (a & b & E & A & I). destruct a as [|a1 [|a2 [|a3 [|]]]]; cbn in A; try lia. cbn in E. injection E as -> -> -> ->.
    apply lower_in_small. exact I.
  - intros ->. exists (String c1 (String c2 (String c3 ""))), t. split; [reflexivity|]. split; [reflexivity|]. apply lower_in_small. reflexivity.
Qed.
Definition last_table (d : data) (n : string) (t : string) (rows : list attrib) : Prop :=
  exists before after, d = before ++ (t, rows) :: after /\ profile_of t /\ attribute_of t n /\
    forall t' rows', In (t', rows') after -> profile_of t' -> ~ attribute_of t' n.
Lemma get_ppfpt_spec : forall num d case,
  (get_ppfpt num d case = None <-> exists t rows, In (t, rows) d /\ profile_of t /\ sort_ppfpt num rows = None) /\
  forall c, get_ppfpt num d case = Some c -> forall n p, get n c = Some p <->
    (exists t rows, last_table d n t rows /\ sort_ppfpt num rows = Some p) \/
    ((forall t rows, In (t, rows) d -> profile_of t -> ~ attribute_of t n) /\ get n case = Some p).
Proof.
  intros num d. induction d as [|[t rows] d IH]; intro case.
  - cbn. split; [split; [discriminate|intros (t & rows & [] & _)]|]. intros c H. injection H as <-. intros n p. split; [intro H; right; auto|].
    intros [(t & rows & (a & b & E & _) & _)|H]; [destruct a; discriminate|apply H].
  - cbn [get_ppfpt]. destruct (profile_tag t) eqn:T.
    + assert (Pt := proj1 (profile_tag_iff t) T). destruct (sort_ppfpt num rows) as [q|] eqn:S.
      * destruct (IH (put (profile_name t) q case)) as (N & G). split.
        { rewrite N. split; [intros (t' & rows' & I & R); exists t', rows'; split; [right; exact I|exact R]|].
          intros (t' & rows' & [I|I] & R1 & R2); [injection I as <- <-; congruence|]. exists t', rows'. auto. }
        intros c H n p. rewrite (G c H n p). rewrite get_put. split.
        { intros [(t' & rows' & (a & b & -> & R) & S')|(A & B)].
          - left. exists t', rows'. split; [exists ((t, rows) :: a), b; split; [reflexivity|exact R]|exact S'].
          - destruct (String.eqb_spec n (profile_name t)) as [E|E].
            + injection B as <-. left. exists t, rows. split; [|exact S]. exists [], d. split; [reflexivity|]. split; [exact Pt|].
              split; [apply profile_name_iff; assumption|exact A].
            + right. split; [|exact B]. intros t' rows' [I|I] P' A'; [|exact (A t' rows' I P' A')]. injection I as <- <-.
              apply profile_name_iff in A'; [congruence|exact Pt]. }
        intros [(t' & rows' & (a & b & E & P' & A' & L) & S')|(A & B)].
        { destruct a as [|y a]; cbn in E.
          - injection E as <- <- <-. right. split; [exact L|]. apply profile_name_iff in A'; [|exact Pt]. rewrite A', String.eqb_refl. congruence.
          - injection E as <- ->. left. exists t', rows'. split; [|exact S']. exists a, b. auto. }
        right. split; [intros t' rows' I; apply (A t' rows'); right; exact I|].
        destruct (String.eqb_spec n (profile_name t)) as [E|E]; [|exact B].
        exfalso. apply (A t rows); [left; reflexivity|exact Pt|]. apply profile_name_iff; assumption.
      * split; [|discriminate]. split; [intros _|reflexivity]. exists t, rows. split; [left; reflexivity|]. auto.
    + assert (Pt : ~ profile_of t) by (intro X; apply profile_tag_iff in X; congruence).
      destruct (IH case) as (N & G). split.
      { rewrite N. split; [intros (t' & rows' & I & R); exists t', rows'; split; [right; exact I|exact R]|].
        intros (t' & rows' & [I|I] & R1 & R2); [injection I as <- <-; contradiction|]. exists t', rows'. auto. }
      intros c H n p. rewrite (G c H n p). split.
      { intros [(t' & rows' & (a & b & -> & R) & S')|(A & B)].
        - left. exists t', rows'. split; [exists ((t, rows) :: a), b; split; [reflexivity|exact R]|exact S'].
        - right. split; [|exact B]. intros t' rows' [I|I] P' A'; [|exact (A t' rows' I P' A')]. injection I as <- <-. contradiction. }
      intros [(t' & rows' & (a & b & E & P' & A' & L) & S')|(A & B)].
      { destruct a as [|y a]; cbn in E; [injection E as <- <- <-; contradiction|].
        injection E as <- ->. left. exists t', rows'. split; [|exact S']. exists a, b. auto. }
      right. split; [intros t' rows' I; apply (A t' rows'); right; exact I|exact B].
Qed.
Lemma case_profiles : forall num d,
  (get_ppfpt num d [] = None <-> exists t rows, In (t, rows) d /\ profile_of t /\ sort_ppfpt num rows = None) /\
  forall c, get_ppfpt num d [] = Some c -> forall n p, get n c = Some p <->
    exists before t rows after, d = before ++ (t, rows) :: after /\ profile_of t /\ attribute_of t n /\ sort_ppfpt num rows = Some p /\
      forall t' rows', In (t', rows') after -> profile_of t' -> ~ attribute_of t' n.
Proof.
  intros num d. destruct (get_ppfpt_spec num d []) as (N & G). split; [exact N|]. intros c H n p. rewrite (G c H n p). split.
  - intros [(t & rows & (a & b & E & P & A & L) & S)|(_ & X)]; [|discriminate]. exists a, t, rows, b. auto.
  - intros (a & t & rows & b & E & P & A & S & L). left. exists t, rows. split; [|exact S]. exists a, b. auto.
Qed.
