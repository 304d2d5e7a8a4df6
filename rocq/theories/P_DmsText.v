(** C129: degrees, minutes and seconds as text. *)
Require Import ZArith Bool Ascii String List DecimalString DecimalZ DecimalPos DecimalNat Lia.
Require Import Verif.M_DmsText Verif.Spec_DmsText.
Import ListNotations.
Local Open Scope list_scope.

Definition stop (p : ascii -> bool) (t : list ascii) : Prop := match t with [] => True | a :: _ => p a = false end.
Section Steps.
  Context {X : Type}.
  Variables (x : X) (c : caps) (k : list ascii -> caps -> option X).
  Lemma many_ok : forall p u t (h : list ascii -> option X), Forall (fun a => p a = true) u -> stop p t -> h t = Some x -> many p (u ++ t) h = Some x.
  Proof.
    intros p u t h F S H. induction F as [|a u A F IH]; cbn [app many].
    - destruct t as [|a t]; [exact H|]. cbn in S |- *. rewrite S. exact H.
    - rewrite A, IH. reflexivity.
  Qed.
  Lemma run_many : forall p u t, Forall (fun a => p a = true) u -> stop p t -> k t c = Some x -> run (Many p) (u ++ t) c k = Some x.
  Proof. intros. apply many_ok; assumption. Qed.
  Lemma run_many0 : forall p t, stop p t -> k t c = Some x -> run (Many p) t c k = Some x.
  Proof. intros p t S H. apply (run_many p [] t); [constructor|exact S|exact H]. Qed.
  Lemma run_many1 : forall p u t, u <> [] -> Forall (fun a => p a = true) u -> stop p t -> k t c = Some x -> run (many1 p) (u ++ t) c k = Some x.
  Proof. intros p u t N F S H. destruct F as [|a u A F]; [contradiction|]. cbn. rewrite A. apply many_ok; assumption. Qed.
  Lemma run_opt_yes : forall r s, run r s c k = Some x -> run (Opt r) s c k = Some x.
  Proof. intros r s H. cbn. rewrite H. reflexivity. Qed.
  Lemma run_opt_no : forall r s, run r s c k = None -> k s c = Some x -> run (Opt r) s c k = Some x.
  Proof. intros r s N H. cbn. rewrite N. exact H. Qed.
  Lemma run_alt_l : forall a b s, run a s c k = Some x -> run (Alt a b) s c k = Some x.
  Proof. intros a b s H. cbn. rewrite H. reflexivity. Qed.
  Lemma run_alt_r : forall a b s, run a s c k = None -> run b s c k = Some x -> run (Alt a b) s c k = Some x.
  Proof. intros a b s N H. cbn. rewrite N. exact H. Qed.
End Steps.
Lemma taken_app : forall u t, taken (u ++ t) t = u.
Proof.
  intros u t. unfold taken. rewrite app_length. replace (length u + length t - length t) with (length u + 0) by lia.
  rewrite firstn_app_2. cbn. apply app_nil_r.
Qed.
Lemma many_none : forall X p s (h : list ascii -> option X), (forall v r, s = v ++ r -> Forall (fun a => p a = true) v -> h r = None) -> many p s h = None.
Proof.
  intros X p s h. induction s as [|a s IH]; intro H; cbn; [apply (H [] []); constructor|].
  destruct (p a) eqn:A; [|apply (H [] (a :: s)); constructor].
  rewrite IH; [apply (H [] (a :: s)); constructor|]. intros v r E F. apply (H (a :: v) r); [rewrite E; reflexivity|constructor; assumption].
Qed.

(** ** the language of a pattern *)
Fixpoint lang (r : re) (u : list ascii) : Prop :=
  match r with
  | Cls p => exists a, u = [a] /\ p a = true
  | Many p | Few p => Forall (fun a => p a = true) u
  | Opt r => u = [] \/ lang r u
  | Alt a b => lang a u \/ lang b u
  | Cat a b => exists v w, u = v ++ w /\ lang a v /\ lang b w
  | Grp _ r => lang r u
  | Eos => u = []
  end.
Lemma run_sound : forall X r s c (k : list ascii -> caps -> option X) x, run r s c k = Some x ->
  exists u t c', s = u ++ t /\ lang r u /\ k t c' = Some x.
Proof.
  intros X r. induction r as [p|p|p|r IH|a IHa b IHb|a IHa b IHb|n r IH|]; intros s c k x H.
  - destruct s as [|a s]; [discriminate|]. cbn in H. destruct (p a) eqn:A; [|discriminate]. exists [a], s, c. repeat split; [exists a; auto|exact H].
  - cbn in H. assert (G : exists u t, s = u ++ t /\ Forall (fun a => p a = true) u /\ k t c = Some x).
    { revert H. induction s as [|a s IH]; cbn; intro H; [exists [], []; repeat split; auto|].
      destruct (p a) eqn:A; [|exists [], (a :: s); repeat split; auto]. destruct (many p s (fun t => k t c)) as [y|] eqn:M.
      - destruct (IH H) as (u & t & -> & F & K). exists (a :: u), t. repeat split; [constructor; assumption|exact K].
      - exists [], (a :: s). repeat split; auto. }
    destruct G as (u & t & E & F & K). exists u, t, c. auto.
  - cbn in H. assert (G : exists u t, s = u ++ t /\ Forall (fun a => p a = true) u /\ k t c = Some x).
    { revert H. induction s as [|a s IH]; cbn; intro H.
      - destruct (k [] c) eqn:K; [|discriminate]. exists [], []. rewrite K. auto.
      - destruct (k (a :: s) c) eqn:K; [exists [], (a :: s); rewrite K; auto|]. destruct (p a) eqn:A; [|discriminate].
        destruct (IH H) as (u & t & -> & F & K'). exists (a :: u), t. repeat split; [constructor; assumption|exact K']. }
    destruct G as (u & t & E & F & K). exists u, t, c. auto.
  - cbn in H. destruct (run r s c k) as [y|] eqn:R.
    + injection H as ->. destruct (IH _ _ _ _ R) as (u & t & c' & E & L & K). exists u, t, c'. cbn. auto.
    + exists [], s, c. cbn. auto.
  - cbn in H. destruct (run a s c k) as [y|] eqn:R.
    + injection H as ->. destruct (IHa _ _ _ _ R) as (u & t & c' & E & L & K). exists u, t, c'. cbn. auto.
    + destruct (IHb _ _ _ _ H) as (u & t & c' & E & L & K). exists u, t, c'. cbn. auto.
  - cbn in H. destruct (IHa _ _ _ _ H) as (u & t & c' & -> & L & K). destruct (IHb _ _ _ _ K) as (u' & t' & c'' & -> & L' & K').
    exists (u ++ u'), t', c''. split; [rewrite app_assoc; reflexivity|]. split; [exists u, u'; auto|exact K'].
  - cbn in H. destruct (IH _ _ _ _ H) as (u & t & c' & E & L & K). eauto 6.
  - cbn in H. exists [], s, c. split; [reflexivity|]. split; [reflexivity|]. destruct s as [|a [|b s]]; [exact H|match type of H with (if ?b then _ else _) = _ => destruct b end; [exact H|discriminate]|discriminate].
Qed.

(** ** the last part *)
Definition rest_part : re := Cat (Few dot) (Cat (Opt (Grp 5 (many1 nonspace))) Eos).
Definition done (_ : list ascii) (c : caps) : option caps := Some c.
Definition after_space (j : list ascii) : Prop := j = [] \/ exists j' a, j = j' ++ [a] /\ space a = true.
Definition last_word : re := Cat (Opt (Grp 5 (many1 nonspace))) Eos.
Lemma eos_none : forall X r c (k : list ascii -> caps -> option X), 2 <= length r -> run Eos r c k = None.
Proof. intros X [|a [|a' r]] c k; cbn; intro L; try lia; reflexivity. Qed.
Lemma last_word_none : forall b j w c, after_space (b :: j) -> w <> [] -> run last_word (b :: j ++ w) c done = None.
Proof.
  intros b j w c A W1.
  assert (LEN : forall v r, b :: j ++ w = v ++ r -> Forall (fun a => nonspace a = true) v -> 2 <= length r).
  { intros v r E F. destruct A as [A|(j' & a & A & S)]; [discriminate|].
    assert (E' : v ++ r = j' ++ a :: w). { rewrite <- E. change (b :: j ++ w) with ((b :: j) ++ w). rewrite A, <- app_assoc. reflexivity. }
    clear E A. revert v r E' F. induction j' as [|y j' IHj]; intros [|z v] r E' F; cbn in E'.
    - subst r. destruct w; [contradiction|cbn; lia].
    - injection E' as -> E'. inversion F as [|? ? F1 F2]; subst. unfold nonspace in F1. rewrite S in F1. discriminate.
    - subst r. cbn. rewrite app_length. cbn. lia.
    - injection E' as -> E'. inversion F; subst. eapply IHj; eassumption. }
  assert (N : run (Grp 5 (many1 nonspace)) (b :: j ++ w) c (fun t c' => run Eos t c' done) = None).
  { change (run (Grp 5 (many1 nonspace)) (b :: j ++ w) c (fun t c' => run Eos t c' done)) with
      (if nonspace b then many nonspace (j ++ w) (fun t => run Eos t ((5, taken (b :: j ++ w) t) :: c) done) else None).
    destruct (nonspace b) eqn:NB; [|reflexivity]. apply many_none. intros v r E F. apply eos_none. apply (LEN (b :: v) r); [rewrite E; reflexivity|constructor; assumption]. }
  change (match run (Grp 5 (many1 nonspace)) (b :: j ++ w) c (fun t c' => run Eos t c' done) with Some x => Some x | None => run Eos (b :: j ++ w) c done end = None).
  rewrite N. apply eos_none. apply (LEN [] (b :: j ++ w)); [reflexivity|constructor].
Qed.
Lemma last_word_some : forall w c, a_word w -> run last_word w c done = Some ((5, w) :: c).
Proof.
  intros w c [W1 W2]. change (run (Opt (Grp 5 (many1 nonspace))) w c (fun t c' => run Eos t c' done) = Some ((5, w) :: c)). apply run_opt_yes. apply (eq_trans (y := run (many1 nonspace) (w ++ []) c (fun t c' => run Eos t ((5, taken w t) :: c') done))).
  - rewrite app_nil_r. reflexivity.
  - apply run_many1; [exact W1| |exact I|].
    + apply Forall_forall. intros a I. rewrite Forall_forall in W2. unfold nonspace. rewrite (W2 a I). reflexivity.
    + change (Some ((5, taken w []) :: c) = Some ((5, w) :: c)). rewrite <- (app_nil_r w) at 1. rewrite taken_app. reflexivity.
Qed.
Lemma tail_last : forall j w c, after_space j -> Forall (fun a => dot a = true) j -> a_word w -> run rest_part (j ++ w) c done = Some ((5, w) :: c).
Proof.
  intros j w c A D W. change (few dot (j ++ w) (fun t => run last_word t c done) = Some ((5, w) :: c)). revert A. induction D as [|b j B D IH]; intro A.
  - cbn [app]. pose proof (last_word_some w c W) as E. destruct w as [|a w]; [destruct W; contradiction|]. cbn [few]. rewrite E. reflexivity.
  - cbn [app few]. rewrite (last_word_none b j w c A (proj1 W)), B. apply IH. destruct A as [A|([|y j'] & a & A & S)]; [discriminate| |].
    + injection A as _ ->. left. reflexivity.
    + injection A as _ ->. right. exists j', a. auto.
Qed.

(** ** the parts before *)
Lemma digits_run : forall u, digits u -> u <> [] /\ Forall (fun a => digit a = true) u.
Proof.
  intros u [N F]. split; [exact N|]. apply Forall_forall. intros a I. rewrite Forall_forall in F. specialize (F a I).
  cbn in F. repeat (destruct F as [<-|F]; [reflexivity|]). destruct F.
Qed.
Definition degree_mark (b : bool) : list ascii := if b then [DEGREE] else txt " deg".
Definition minute_mark (b : bool) : list ascii := if b then txt "'" else txt " min".
Lemma degrees_read : forall X b d t c (k : list ascii -> caps -> option X) x, digits d -> k t ((1, d) :: c) = Some x ->
  run degrees_part (d ++ degree_mark b ++ txt "," ++ t) c k = Some x.
Proof.
  intros X b d t c k x D H. apply digits_run in D. destruct D as [D1 D2].
  set (s := degree_mark b ++ txt "," ++ t).
  change (run (many1 digit) (d ++ s) c (fun t' c' => run (Cat (Many space) (Cat (Opt (Alt (chr DEGREE) (word3 "d" "e" "g"))) (chr ","))) t' ((1, taken (d ++ s) t') :: c') k) = Some x).
  apply run_many1; [exact D1|exact D2|unfold s; destruct b; reflexivity|]. rewrite taken_app. unfold s. destruct b.
  - apply (run_many0 x _ (fun t' c' => run (Cat (Opt (Alt (chr DEGREE) (word3 "d" "e" "g"))) (chr ",")) t' c' k)); [reflexivity|].
    match goal with |- run (Cat ?a ?b) ?s ?c ?k = ?r => change (run a s c (fun t0 c0 => run b t0 c0 k) = r) end. apply run_opt_yes, run_alt_l. exact H.
  - apply (run_many x _ (fun t' c' => run (Cat (Opt (Alt (chr DEGREE) (word3 "d" "e" "g"))) (chr ",")) t' c' k) space (txt " ") (txt "deg," ++ t)); [repeat constructor|reflexivity|].
    match goal with |- run (Cat ?a ?b) ?s ?c ?k = ?r => change (run a s c (fun t0 c0 => run b t0 c0 k) = r) end. apply run_opt_yes, run_alt_r; [reflexivity|]. exact H.
Qed.
Lemma minutes_read : forall X b m t c (k : list ascii -> caps -> option X) x, digits m -> k t ((2, m) :: c) = Some x ->
  run minutes_part (txt " " ++ m ++ minute_mark b ++ txt "," ++ t) c k = Some x.
Proof.
  intros X b m t c k x D H. apply digits_run in D. destruct D as [D1 D2].
  set (s := minute_mark b ++ txt "," ++ t).
  set (r := Cat (Grp 2 (many1 digit)) (Cat (Many space) (Cat (Opt (Alt (chr "'") (word3 "m" "i" "n"))) (chr ",")))).
  change (run (Many space) (txt " " ++ m ++ s) c (fun t' c' => run r t' c' k) = Some x). apply run_many; [repeat constructor| |].
  { destruct D2 as [|a m A D2]; [contradiction|]. cbn [app stop]. unfold digit, between in A. unfold space, between. apply andb_true_iff in A. destruct A as [A1 A2]. apply Nat.leb_le in A1, A2.
    repeat (apply orb_false_iff; split); apply andb_false_iff; rewrite !Nat.leb_gt; lia. }
  change (run (many1 digit) (m ++ s) c (fun t' c' => run (Cat (Many space) (Cat (Opt (Alt (chr "'") (word3 "m" "i" "n"))) (chr ","))) t' ((2, taken (m ++ s) t') :: c') k) = Some x).
  apply run_many1; [exact D1|exact D2|unfold s; destruct b; reflexivity|]. rewrite taken_app. unfold s. destruct b.
  - apply (run_many0 x _ (fun t' c' => run (Cat (Opt (Alt (chr "'") (word3 "m" "i" "n"))) (chr ",")) t' c' k)); [reflexivity|].
    match goal with |- run (Cat ?a ?b) ?s ?c ?k = ?r => change (run a s c (fun t0 c0 => run b t0 c0 k) = r) end. apply run_opt_yes, run_alt_l. exact H.
  - apply (run_many x _ (fun t' c' => run (Cat (Opt (Alt (chr "'") (word3 "m" "i" "n"))) (chr ",")) t' c' k) space (txt " ") (txt "min," ++ t)); [repeat constructor|reflexivity|].
    match goal with |- run (Cat ?a ?b) ?s ?c ?k = ?r => change (run a s c (fun t0 c0 => run b t0 c0 k) = r) end. apply run_opt_yes, run_alt_r; [reflexivity|]. exact H.
Qed.
(** what follows the seconds is neither a digit nor a point *)
Definition ends (t : list ascii) : Prop := stop digit t /\ stop (Ascii.eqb ".") t.
Lemma seconds_read : forall X s t c (k : list ascii -> caps -> option X) x, decimal s -> ends t -> k t ((3, s) :: c) = Some x ->
  run seconds_part (txt " " ++ s ++ t) c k = Some x.
Proof.
  intros X s t c k x D [T1 T2] H.
  set (r := Cat (many1 digit) (Opt (Cat (chr ".") (many1 digit)))).
  change (run (Many space) (txt " " ++ s ++ t) c (fun t' c' => run (Grp 3 r) t' c' k) = Some x).
  assert (ST : forall a u, digits a -> stop space (a ++ u)).
  { intros [|a l] u [N F]; [contradiction|]. inversion F as [|? ? F1 _]; subst. cbn [app stop]. cbn in F1. repeat (destruct F1 as [<-|F1]; [reflexivity|]). destruct F1. }
  apply run_many; [repeat constructor| |].
  { destruct D as [D|(a & b & A & B & ->)]; [apply ST; exact D|rewrite <- !app_assoc; apply ST; exact A]. }
  change (run (many1 digit) (s ++ t) c (fun t' c' => run (Opt (Cat (chr ".") (many1 digit))) t' c' (fun t'' c'' => k t'' ((3, taken (s ++ t) t'') :: c''))) = Some x).
  destruct D as [D|(a & b & A & B & ->)].
  - apply digits_run in D. destruct D as [D1 D2]. apply run_many1; [exact D1|exact D2|exact T1|]. apply run_opt_no.
    + destruct t as [|y t]; [reflexivity|]. cbn [stop] in T2. change ((if Ascii.eqb "." y then run (many1 digit) t c (fun t'' c'' => k t'' ((3, taken (s ++ y :: t) t'') :: c'')) else None) = None). rewrite T2. reflexivity.
    + rewrite taken_app. exact H.
  - apply digits_run in A, B. destruct A as [A1 A2], B as [B1 B2]. set (q := (a ++ txt "." ++ b) ++ t).
    replace q with (a ++ (txt "." ++ b ++ t)) at 1 by (unfold q; rewrite <- !app_assoc; reflexivity).
    apply run_many1; [exact A1|exact A2|reflexivity|]. apply run_opt_yes.
    change (run (many1 digit) (b ++ t) c (fun t'' c'' => k t'' ((3, taken q t'') :: c'')) = Some x).
    apply run_many1; [exact B1|exact B2|exact T1|]. unfold q. rewrite taken_app. exact H.
Qed.
