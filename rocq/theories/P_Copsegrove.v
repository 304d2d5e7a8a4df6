(** The two kinds of lines of a diagnostic file. *)
Require Import Reals ZArith Ascii String List Bool Lra Lia.
Require Import Verif.Base Verif.NumPy Verif.M_Utils Verif.M_DmsText Verif.P_DmsText.
Require Import Verif.M_Text Verif.Spec_Text Verif.P_Text Verif.M_Ingest Verif.Spec_Ingest Verif.P_Ingest Verif.P_Ingest3.
Require Import Verif.M_Validate Verif.M_Copsegrove Verif.Spec_Copsegrove.
Import ListNotations.
Open Scope list_scope.
Local Open Scope nat_scope.

(** ** characters and numbers *)
Lemma upper_spec : forall c, upper c = true <-> is_upper c.
Proof. intro c. unfold upper, between, is_upper. rewrite andb_true_iff, !Nat.leb_le. reflexivity. Qed.
Lemma code_char_spec : forall c, code_char c = true <-> is_upper c \/ is_digit c \/ c = "-"%char.
Proof. intro c. unfold code_char. rewrite !orb_true_iff, upper_spec, same_digit, Ascii.eqb_eq. tauto. Qed.
Lemma blank_stops : forall q t, gap_text q -> stop code_char (q ++ t).
Proof.
  intros q t [N B]. destruct B as [|c q C B]; [contradiction|]. cbn. destruct (code_char c) eqn:E; [|reflexivity]. exfalso. apply code_char_spec in E.
  destruct E as [E|[E|E]].
  - revert C E. unfold is_upper. destruct c as [[] [] [] [] [] [] [] []]; cbn; try discriminate; intros _ H; lia.
  - apply digit_plain in E. destruct E. congruence.
  - subst c. discriminate.
Qed.
Lemma decimal_head : forall x r, decimal x r -> exists c t, x = c :: t /\ is_space c = false.
Proof.
  intros x r (neg & ip & fp & NI & NF & DI & DF & -> & _). destruct neg.
  - exists minus. eexists. split; reflexivity.
  - destruct DI as [|c ip D DI]; [contradiction|]. exists c. eexists. split; [reflexivity|]. apply digit_plain in D. apply D.
Qed.
Lemma decimal_stop : forall x r t, decimal x r -> stop M_DmsText.space (x ++ t).
Proof. intros x r t D. destruct (decimal_head x r D) as (c & u & -> & S). cbn. rewrite same_space. exact S. Qed.
Lemma until_dot_app : forall ip fp, Forall is_digit ip -> until_dot (ip ++ [dot_char] ++ fp) = (ip, fp).
Proof.
  intros ip fp D. induction D as [|c ip C D IH]; [reflexivity|]. cbn [app until_dot]. cbn [app] in IH.
  destruct (Ascii.eqb_spec c ".") as [->|N]; [unfold is_digit in C; cbn in C; lia|]. rewrite IH. reflexivity.
Qed.
Lemma unsigned_value_spec : forall ip fp, Forall is_digit ip -> Forall is_digit fp -> unsigned_value (ip ++ [dot_char] ++ fp) = (IZR (digits_value (ip ++ fp)) / 10 ^ length fp)%R.
Proof. intros ip fp DI DF. unfold unsigned_value. rewrite until_dot_app by exact DI. rewrite int_is_value; [reflexivity|]. apply Forall_app. auto. Qed.
Lemma float_value_spec : forall x r, decimal x r -> float_value x = r.
Proof.
  intros x r (neg & ip & fp & NI & NF & DI & DF & -> & ->). pose proof (unsigned_value_spec ip fp DI DF) as U. destruct neg.
  - change ([minus] ++ ip ++ [dot_char] ++ fp) with ("-"%char :: (ip ++ [dot_char] ++ fp)). unfold float_value. rewrite Ascii.eqb_refl, U. ring.
  - change ([] ++ ip ++ [dot_char] ++ fp) with (ip ++ [dot_char] ++ fp). rewrite Rmult_1_l, <- U. destruct DI as [|c ip D DI]; [contradiction|]. cbn [app float_value].
    destruct (Ascii.eqb_spec c "-") as [->|N]; [unfold is_digit in D; cbn in D; lia|reflexivity].
Qed.
Lemma decimal_unique : forall x r s, decimal x r -> decimal x s -> r = s.
Proof. intros x r s A B. apply float_value_spec in A, B. congruence. Qed.
Lemma decimal_more : forall x r ds, decimal x r -> Forall is_digit ds -> exists s, decimal (x ++ ds) s.
Proof.
  intros x r ds (neg & ip & fp & NI & NF & DI & DF & -> & _) D. eexists. exists neg, ip, (fp ++ ds). split; [exact NI|]. split; [destruct fp; [contradiction|discriminate]|].
  split; [exact DI|]. split; [apply Forall_app; auto|]. split; [|reflexivity]. rewrite <- !app_assoc. reflexivity.
Qed.
Lemma digits_first : forall t, exists ds r, t = ds ++ r /\ Forall is_digit ds /\ no_digit_first r.
Proof.
  induction t as [|c t (ds & r & -> & D & N)]; [exists [], []; split; [reflexivity|]; split; [constructor|]; intros c r E; discriminate|].
  destruct (M_DmsText.digit c) eqn:E.
  - exists (c :: ds), r. split; [reflexivity|]. split; [constructor; [apply same_digit; exact E|exact D]|exact N].
  - exists [], (c :: ds ++ r). split; [reflexivity|]. split; [constructor|]. intros c' r' H C. injection H as H _. subst c'. apply same_digit in C. congruence.
Qed.
Lemma no_digit_stop : forall t, no_digit_first t -> stop M_DmsText.digit t.
Proof. intros [|c t] N; [exact I|]. cbn. destruct (M_DmsText.digit c) eqn:E; [|reflexivity]. elim (N c t eq_refl). apply same_digit. exact E. Qed.
Lemma blank_no_digit : forall q t, gap_text q -> no_digit_first (q ++ t).
Proof. intros q t [N B] c r E D. destruct B as [|c' q C B]; [contradiction|]. injection E as -> _. apply digit_plain in D. destruct D. congruence. Qed.

(** ** the matcher on such texts *)
Lemma run_cat : forall X a b t c (k : list ascii -> caps -> option X), run (Cat a b) t c k = run a t c (fun t' c' => run b t' c' k).
Proof. reflexivity. Qed.
Lemma run_many : forall X p t c (k : list ascii -> caps -> option X), run (Many p) t c k = many p t (fun t' => k t' c).
Proof. reflexivity. Qed.
Section Ok.
  Context {X : Type}.
  Variables (y : X).
  Lemma many1_ok : forall p u t c (k : list ascii -> caps -> option X), u <> [] -> Forall (fun a => p a = true) u -> stop p t -> k t c = Some y -> run (many1 p) (u ++ t) c k = Some y.
  Proof. intros p u t c k N F S K. destruct F as [|a u A F]; [contradiction|]. cbn [many1 run app]. rewrite A. apply many_ok; assumption. Qed.
  Lemma blank1_ok : forall r q t c (k : list ascii -> caps -> option X), gap_text q -> stop M_DmsText.space t -> run r t c k = Some y -> run (blank1 r) (q ++ t) c k = Some y.
  Proof. intros r q t c k [N B] S H. unfold blank1. cbn [run]. apply many1_ok; [exact N|apply spaces_blank; exact B|exact S|exact H]. Qed.
  Lemma unsigned_ok : forall ip fp t c (k : list ascii -> caps -> option X), ip <> [] -> fp <> [] -> Forall is_digit ip -> Forall is_digit fp -> no_digit_first t -> k t c = Some y ->
    run unsigned_re ((ip ++ [dot_char] ++ fp) ++ t) c k = Some y.
  Proof.
    intros ip fp t c k NI NF DI DF ND K. unfold unsigned_re. cbn [run]. rewrite <- app_assoc.
    apply many1_ok; [exact NI|apply digits_are; exact DI|reflexivity|]. cbn [app chr]. cbv beta. change (Ascii.eqb "." dot_char) with true. cbv iota.
    apply many1_ok; [exact NF|apply digits_are; exact DF|apply no_digit_stop; exact ND|exact K].
  Qed.
  Lemma signed_ok : forall x r t c (k : list ascii -> caps -> option X), decimal x r -> no_digit_first t -> k t c = Some y -> run signed_re (x ++ t) c k = Some y.
  Proof.
    intros x r t c k (neg & ip & fp & NI & NF & DI & DF & -> & _) ND K. unfold signed_re. destruct neg.
    - change (([minus] ++ ip ++ [dot_char] ++ fp) ++ t) with (minus :: ((ip ++ [dot_char] ++ fp) ++ t)). cbn [run chr]. change (Ascii.eqb "-" minus) with true. cbv iota.
      rewrite (unsigned_ok ip fp t c k NI NF DI DF ND K). reflexivity.
    - change (([] ++ ip ++ [dot_char] ++ fp) ++ t) with ((ip ++ [dot_char] ++ fp) ++ t). pose proof (unsigned_ok ip fp t c k NI NF DI DF ND K) as U.
      destruct DI as [|d ip D DI]; [contradiction|]. cbn [run chr]. cbn [app] in *. destruct (Ascii.eqb_spec "-" d) as [<-|N]; [unfold is_digit in D; cbn in D; lia|]. exact U.
  Qed.
  Lemma number_ok : forall n x r t c (k : list ascii -> caps -> option X), decimal x r -> no_digit_first t -> k t ((n, x) :: c) = Some y -> run (Grp n signed_re) (x ++ t) c k = Some y.
  Proof. intros n x r t c k D ND K. change (run (Grp n signed_re) (x ++ t) c k) with (run signed_re (x ++ t) c (fun t' c' => k t' ((n, taken (x ++ t) t') :: c'))). apply (signed_ok x r); [exact D|exact ND|]. rewrite taken_app. exact K. Qed.
  Lemma unsigned_number_ok : forall n x r t c (k : list ascii -> caps -> option X), unsigned_decimal x r -> no_digit_first t -> k t ((n, x) :: c) = Some y -> run (Grp n unsigned_re) (x ++ t) c k = Some y.
  Proof.
    intros n x r t c k [(neg & ip & fp & NI & NF & DI & DF & E & _) U] ND K. change (run (Grp n unsigned_re) (x ++ t) c k) with (run unsigned_re (x ++ t) c (fun t' c' => k t' ((n, taken (x ++ t) t') :: c'))).
    destruct neg; [elim U; eexists; exact E|]. cbn [app] in E. subst x. apply (unsigned_ok ip fp); try assumption. rewrite taken_app. exact K.
  Qed.
  Lemma code_ok : forall n code t c (k : list ascii -> caps -> option X), code_text code -> stop code_char t -> k t ((n, code) :: c) = Some y -> run (Grp n (Cat (Cls upper) (Many code_char))) (code ++ t) c k = Some y.
  Proof.
    intros n code t c k (a & r & -> & A & F) S K. change (run (Grp n (Cat (Cls upper) (Many code_char))) ((a :: r) ++ t) c k) with
      (run (Cat (Cls upper) (Many code_char)) ((a :: r) ++ t) c (fun t' c' => k t' ((n, taken ((a :: r) ++ t) t') :: c'))). cbn [run app]. rewrite (proj2 (upper_spec a) A).
    apply many_ok; [revert F; apply Forall_impl; intros b B; apply code_char_spec; exact B|exact S|]. change (a :: r ++ t) with ((a :: r) ++ t). rewrite taken_app. exact K.
  Qed.
End Ok.

(** ** what the matcher has consumed *)
Lemma unsigned_consumes : forall u t c c', consumes unsigned_re u t c c' -> (exists r, unsigned_decimal u r) /\ c' = c.
Proof.
  intros u t c c' (a & v & c1 & -> & A & (d & b & c2 & -> & [(e & -> & E) ->] & B)). apply many1_consumes in A, B. destruct A as (NA & FA & ->). destruct B as (NB & FB & ->).
  apply Ascii.eqb_eq in E. subst e. split; [|reflexivity]. rewrite digits_are in FA, FB. eexists. split.
  - exists false, a, b. cbn [app]. repeat (split; [eassumption || reflexivity|]). reflexivity.
  - intros (t' & E). destruct FA as [|x a D FA]; [contradiction|]. injection E as -> _. unfold is_digit in D. cbn in D. lia.
Qed.
Lemma signed_consumes : forall u t c c', consumes signed_re u t c c' -> (exists r, decimal u r) /\ c' = c.
Proof.
  intros u t c c' (a & v & c1 & -> & A & B). apply unsigned_consumes in B. destruct B as ((r & (neg & ip & fp & NI & NF & DI & DF & E & _) & U) & ->).
  destruct A as [(-> & ->)|[(e & -> & EQ) ->]].
  - split; [|reflexivity]. eexists. exists neg, ip, fp. repeat (split; [eassumption|]). reflexivity.
  - apply Ascii.eqb_eq in EQ. subst e. split; [|reflexivity]. destruct neg; [elim U; eexists; exact E|]. cbn [app] in E. subst v.
    eexists. exists true, ip, fp. repeat (split; [eassumption || reflexivity|]). reflexivity.
Qed.
Lemma blank1_consumes : forall r u t c c', consumes (blank1 r) u t c c' -> exists q v, u = q ++ v /\ gap_text q /\ consumes r v t c c'.
Proof.
  intros r u t c c' (q & v & c1 & -> & Q & H). apply many1_consumes in Q. destruct Q as (NQ & FQ & ->). exists q, v. split; [reflexivity|]. split; [split; [exact NQ|apply spaces_blank; exact FQ]|exact H].
Qed.

Lemma sig_found : forall line code v, sig_line line code v -> sig_match line = Some (code, v).
Proof.
  intros line code [[a b] d] (p & q1 & q2 & q3 & q4 & x & y & z & rest & -> & P & Q1 & Q2 & Q3 & Q4 & C & N & X & Y & Z). cbn [fst snd] in X, Y, Z.
  unfold sig_match.
  assert (R : run sig_line_re (p ++ code ++ q1 ++ lit "svy" ++ q2 ++ x ++ q3 ++ y ++ q4 ++ z ++ rest) [] (fun _ c => Some c) = Some [(4, z); (3, y); (2, x); (1, code)]).
  { unfold sig_line_re. rewrite run_cat, run_many. apply many_ok; [apply spaces_blank; exact P| |].
    - destruct C as (h & r & -> & U & _). cbn. rewrite same_space. revert U. unfold is_upper. destruct h as [[] [] [] [] [] [] [] []]; cbn; intro; try reflexivity; lia.
    - rewrite run_cat. apply code_ok; [exact C|apply blank_stops; exact Q1|]. apply blank1_ok; [exact Q1|reflexivity|]. apply run_word. apply blank1_ok; [exact Q2|apply (decimal_stop x a); exact X|].
      rewrite run_cat. apply (number_ok _ 2 x a); [exact X|apply blank_no_digit; exact Q3|]. apply blank1_ok; [exact Q3|apply (decimal_stop y b); exact Y|].
      rewrite run_cat. apply (number_ok _ 3 y b); [exact Y|apply blank_no_digit; exact Q4|]. apply blank1_ok; [exact Q4|apply (decimal_stop z d); exact Z|].
      apply (number_ok _ 4 z d); [exact Z|exact N|]. reflexivity. }
  rewrite R. cbn [group Nat.eqb]. rewrite (float_value_spec x a X), (float_value_spec y b Y), (float_value_spec z d Z). reflexivity.
Qed.
Lemma sig_spec : forall line code v, sig_match line = Some (code, v) <-> sig_line line code v.
Proof.
  intros line code v. split; [|apply sig_found]. intro H. pose proof H as H0. unfold sig_match in H. destruct (run sig_line_re line [] (fun _ c => Some c)) as [cs|] eqn:R; [|discriminate].
  clear H. apply run_consumes in R. destruct R as (u & rest & c' & -> & C & _). unfold sig_line_re in C.
  destruct C as (p & u1 & c1 & -> & [FP ->] & C). destruct C as (cd & u2 & c2 & -> & (c3 & A & ->) & C). destruct A as (h & r & c4 & -> & [(e & -> & UE) ->] & [FR ->]).
  apply blank1_consumes in C. destruct C as (q1 & u3 & -> & Q1 & C). apply word_consumes in C. destruct C as (u4 & -> & C).
  apply blank1_consumes in C. destruct C as (q2 & u5 & -> & Q2 & C). destruct C as (x & u6 & c5 & -> & (c6 & X & ->) & C). apply signed_consumes in X. destruct X as ((a & X) & ->).
  apply blank1_consumes in C. destruct C as (q3 & u7 & -> & Q3 & C). destruct C as (y & u8 & c7 & -> & (c8 & Y & ->) & C). apply signed_consumes in Y. destruct Y as ((b & Y) & ->).
  apply blank1_consumes in C. destruct C as (q4 & z & -> & Q4 & C). destruct C as (c9 & Z & _). apply signed_consumes in Z. destruct Z as ((d & Z) & ->).
  destruct (digits_first rest) as (ds & rest' & -> & DS & ND). destruct (decimal_more z d ds Z DS) as (d' & Z').
  assert (S : sig_line ((p ++ ([e] ++ r) ++ q1 ++ lit "svy" ++ q2 ++ x ++ q3 ++ y ++ q4 ++ z) ++ ds ++ rest') ([e] ++ r) (a, b, d')).
  { exists p, q1, q2, q3, q4, x, y, (z ++ ds), rest'. split; [rewrite <- !app_assoc; reflexivity|]. split; [apply spaces_blank; exact FP|]. repeat (split; [assumption|]).
    split; [|split; [exact ND|]; split; [exact X|]; split; [exact Y|exact Z']].
    exists e, r. split; [reflexivity|]. split; [apply upper_spec; exact UE|]. revert FR. apply Forall_impl. intros ch CH. apply code_char_spec. exact CH. }
  pose proof (sig_found _ _ _ S) as F. rewrite F in H0. injection H0 as <- <-. exact S.
Qed.
Lemma station_found : forall line md inc azi, station_line line md inc azi -> station_match line = Some (md, inc, azi).
Proof.
  intros line md inc azi (p & q1 & q2 & q3 & q4 & q5 & x & y & z & rest & -> & P & Q1 & Q2 & Q3 & Q4 & Q5 & N & X & Y & Z). unfold station_match.
  assert (R : run station_re (p ++ x ++ q1 ++ lit "Inc:" ++ q2 ++ y ++ q3 ++ lit "Az" ++ q4 ++ lit "(True):" ++ q5 ++ z ++ rest) [] (fun _ c => Some c) = Some [(3, z); (2, y); (1, x)]).
  { unfold station_re. rewrite run_cat, run_many. apply many_ok; [apply spaces_blank; exact P|apply (decimal_stop x md); apply X|].
    rewrite run_cat. apply (unsigned_number_ok _ 1 x md); [exact X|apply blank_no_digit; exact Q1|]. apply blank1_ok; [exact Q1|reflexivity|]. apply run_word.
    apply blank1_ok; [exact Q2|apply (decimal_stop y inc); exact Y|]. rewrite run_cat. apply (number_ok _ 2 y inc); [exact Y|apply blank_no_digit; exact Q3|].
    apply blank1_ok; [exact Q3|reflexivity|]. apply run_word. rewrite run_cat, run_many. apply many_ok; [apply spaces_blank; exact Q4|reflexivity|]. apply run_word.
    apply blank1_ok; [exact Q5|apply (decimal_stop z azi); exact Z|]. apply (number_ok _ 3 z azi); [exact Z|exact N|]. reflexivity. }
  rewrite R. cbn [group Nat.eqb]. rewrite (float_value_spec x md (proj1 X)), (float_value_spec y inc Y), (float_value_spec z azi Z). reflexivity.
Qed.
Lemma station_match_spec : forall line md inc azi, station_match line = Some (md, inc, azi) <-> station_line line md inc azi.
Proof.
  intros line md inc azi. split; [|apply station_found]. intro H. pose proof H as H0. unfold station_match in H. destruct (run station_re line [] (fun _ c => Some c)) as [cs|] eqn:R; [|discriminate].
  clear H. apply run_consumes in R. destruct R as (u & rest & c' & -> & C & _). unfold station_re in C.
  destruct C as (p & u1 & c1 & -> & [FP ->] & C). destruct C as (x & u2 & c2 & -> & (c3 & X & ->) & C). apply unsigned_consumes in X. destruct X as ((a & X) & ->).
  apply blank1_consumes in C. destruct C as (q1 & u3 & -> & Q1 & C). apply word_consumes in C. destruct C as (u4 & -> & C).
  apply blank1_consumes in C. destruct C as (q2 & u5 & -> & Q2 & C). destruct C as (y & u6 & c5 & -> & (c6 & Y & ->) & C). apply signed_consumes in Y. destruct Y as ((b & Y) & ->).
  apply blank1_consumes in C. destruct C as (q3 & u7 & -> & Q3 & C). apply word_consumes in C. destruct C as (u8 & -> & C). destruct C as (q4 & u9 & c7 & -> & [FQ4 ->] & C).
  apply word_consumes in C. destruct C as (u10 & -> & C). apply blank1_consumes in C. destruct C as (q5 & z & -> & Q5 & C). destruct C as (c9 & Z & _). apply signed_consumes in Z. destruct Z as ((d & Z) & ->).
  destruct (digits_first rest) as (ds & rest' & -> & DS & ND). destruct (decimal_more z d ds Z DS) as (d' & Z').
  assert (S : station_line ((p ++ x ++ q1 ++ lit "Inc:" ++ q2 ++ y ++ q3 ++ lit "Az" ++ q4 ++ lit "(True):" ++ q5 ++ z) ++ ds ++ rest') a b d').
  { exists p, q1, q2, q3, q4, q5, x, y, (z ++ ds), rest'. split; [rewrite <- !app_assoc; reflexivity|]. split; [apply spaces_blank; exact FP|]. repeat (split; [assumption|]).
    split; [apply spaces_blank; exact FQ4|]. repeat (split; [assumption|]). exact Z'. }
  pose proof (station_found _ _ _ _ S) as F. rewrite F in H0. injection H0 as <- <- <-. exact S.
Qed.
