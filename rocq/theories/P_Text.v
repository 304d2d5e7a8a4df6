(** Lemmas on texts. *)
Require Import Reals ZArith Ascii String List Bool Lia Lra.
Require Import Verif.Base Verif.M_Clearance Verif.P_Clearance Verif.M_Text Verif.Spec_Text.
Import ListNotations.
Open Scope list_scope.
Local Open Scope nat_scope.

(** ** white space *)
Lemma space_is_space : is_space space = true. Proof. reflexivity. Qed.
Lemma lstrip_app_spaces : forall n s, lstrip (repeat space n ++ s) = lstrip s.
Proof. induction n; cbn; auto. Qed.
Lemma lstrip_head : forall c r, is_space c = false -> lstrip (c :: r) = c :: r.
Proof. intros. cbn. rewrite H. reflexivity. Qed.
Lemma rev_spaces : forall n, rev (repeat space n) = repeat space n.
Proof.
  induction n as [|n IH]; [reflexivity|]. change (rev (repeat space (S n))) with (rev (repeat space n) ++ [space]).
  rewrite IH. symmetry. apply repeat_cons.
Qed.
Lemma rstrip_app_spaces : forall n s, rstrip (s ++ repeat space n) = rstrip s.
Proof. intros. unfold rstrip. rewrite rev_app_distr, rev_spaces, lstrip_app_spaces. reflexivity. Qed.
Lemma last_rev : forall (s : text) d, last s d = hd d (rev s).
Proof.
  intros s d. induction s as [|c s IH] using rev_ind; [reflexivity|]. rewrite last_last, rev_app_distr. reflexivity.
Qed.
Lemma rstrip_id : forall s, no_trailing s -> rstrip s = s.
Proof.
  intros s [->|H]; [reflexivity|]. unfold rstrip. rewrite last_rev in H.
  destruct (rev s) as [|c r] eqn:E; [rewrite <- (rev_involutive s), E; reflexivity|].
  cbn in H. rewrite lstrip_head by auto. rewrite <- E, rev_involutive. reflexivity.
Qed.
Lemma lstrip_id : forall s, trimmed s -> lstrip s = s.
Proof. intros s [->|[H _]]; [reflexivity|]. destruct s; [reflexivity|]. apply lstrip_head. exact H. Qed.
Lemma trimmed_trailing : forall s, trimmed s -> no_trailing s.
Proof. intros s [->|[_ H]]; [left|right]; auto. Qed.
Lemma strip_pad : forall a b s, trimmed s -> strip (repeat space a ++ s ++ repeat space b) = s.
Proof.
  intros a b s H. unfold strip. rewrite lstrip_app_spaces. destruct H as [->|H].
  - cbn [app]. replace (repeat space b) with (repeat space b ++ []) by apply app_nil_r. rewrite lstrip_app_spaces. reflexivity.
  - destruct s as [|c s]; [cbn in H; destruct H; discriminate|]. cbn [app]. rewrite lstrip_head by apply H.
    rewrite app_comm_cons, rstrip_app_spaces. apply rstrip_id. right. apply H.
Qed.
Lemma token_trimmed : forall w, token w -> trimmed w.
Proof.
  intros w [N F]. right. rewrite Forall_forall in F. split.
  - destruct w; [congruence|]. apply F. left. auto.
  - apply F. destruct (exists_last N) as (l & x & ->). rewrite last_last. apply in_or_app. right. left. auto.
Qed.
Lemma strip_token : forall w, token w -> strip w = w.
Proof. intros w T. pose proof (strip_pad 0 0 w (token_trimmed w T)) as H. cbn in H. rewrite app_nil_r in H. exact H. Qed.
Lemma lstrip_cases : forall s, lstrip s = [] \/ is_space (hd space (lstrip s)) = false.
Proof. induction s as [|c s IH]; cbn; [auto|]. destruct (is_space c) eqn:E; auto. Qed.
Lemma rstrip_cases : forall s, exists n : text, s = rstrip s ++ n /\ Forall (fun c => is_space c = true) n.
Proof.
  intros s. assert (L : forall t, exists n, t = n ++ lstrip t /\ Forall (fun c => is_space c = true) n).
  { induction t as [|c t (n & E & F)]; [exists []; auto|]. cbn. destruct (is_space c) eqn:B.
    - exists (c :: n). split; [cbn; congruence|constructor; auto].
    - exists []. auto. }
  destruct (L (rev s)) as (n & E & F). exists (rev n). unfold rstrip. split.
  - rewrite <- rev_app_distr, <- E, rev_involutive. reflexivity.
  - apply Forall_rev. auto.
Qed.
Lemma rstrip_trailing : forall s, no_trailing (rstrip s).
Proof.
  intro s. unfold rstrip. destruct (lstrip_cases (rev s)) as [E|E]; [left; rewrite E; reflexivity|].
  right. rewrite last_rev, rev_involutive. exact E.
Qed.
Lemma rstrip_app : forall a b, rstrip b <> [] -> rstrip (a ++ b) = a ++ rstrip b.
Proof.
  intros a b N. destruct (rstrip_cases b) as (n & E & F). pose proof (rstrip_trailing b) as T.
  assert (G : forall m s, Forall (fun c => is_space c = true) m -> rstrip (s ++ m) = rstrip s).
  { intros m s Fm. unfold rstrip. rewrite rev_app_distr. f_equal. apply Forall_rev in Fm. revert Fm. generalize (rev m).
    intros m' Fm. induction Fm as [|c m' C Fm IH]; cbn; auto. rewrite C. exact IH. }
  rewrite E at 1. rewrite app_assoc, G by auto. apply rstrip_id. right.
  destruct T as [T|T]; [contradiction|]. destruct (exists_last N) as (l & x & El). rewrite El in *.
  rewrite app_assoc, last_last. rewrite last_last in T. exact T.
Qed.

(** ** words *)
Lemma words_space : forall c s, is_space c = true -> words (c :: s) = words s.
Proof. intros. cbn. rewrite H. reflexivity. Qed.
Lemma words_spaces : forall n s, words (repeat space n ++ s) = words s.
Proof. induction n; intros; cbn [repeat app]; auto. rewrite words_space by reflexivity. auto. Qed.
Lemma words_cons : forall c s, is_space c = false ->
  words (c :: s) = match s with
                   | [] => [[c]]
                   | d :: _ => if is_space d then [c] :: words s else match words s with w :: ws => (c :: w) :: ws | [] => [[c]] end
                   end.
Proof. intros. cbn. rewrite H. reflexivity. Qed.
Lemma words_token : forall w, token w -> words w = [w].
Proof.
  intros w [N F]. induction w as [|c w IH]; [congruence|]. inversion F; subst. rewrite words_cons by auto.
  destruct w as [|d w]; [reflexivity|]. inversion H2; subst. rewrite H3, IH; [reflexivity|discriminate|auto].
Qed.
Lemma words_app : forall w c s, token w -> is_space c = true -> words (w ++ c :: s) = w :: words s.
Proof.
  intros w c s [N F] C. induction w as [|d w IH]; [congruence|]. inversion F; subst. cbn [app]. rewrite words_cons by auto.
  destruct w as [|e w].
  - cbn [app]. rewrite C. rewrite words_space by auto. reflexivity.
  - inversion H2; subst. cbn [app]. rewrite H3. change (e :: w ++ c :: s) with ((e :: w) ++ c :: s). rewrite IH; [reflexivity|discriminate|auto].
Qed.
Lemma words_blank : forall s, Forall (fun c => is_space c = true) s -> words s = [].
Proof. intros s F. induction F; [reflexivity|]. rewrite words_space; auto. Qed.
Lemma words_tail : forall n s, Forall (fun c => is_space c = true) n -> words (s ++ n) = words s.
Proof.
  intros n s F. induction s as [|c s IH]; [apply words_blank; auto|]. cbn [app].
  destruct (is_space c) eqn:E; [rewrite !words_space by auto; exact IH|]. rewrite !words_cons by auto.
  destruct s as [|d s].
  - cbn [app] in *. destruct n as [|e n]; [reflexivity|]. inversion F; subst. rewrite H1. rewrite IH. reflexivity.
  - cbn [app] in *. rewrite IH. reflexivity.
Qed.
Lemma words_rstrip : forall s, words (rstrip s) = words s.
Proof. intro s. destruct (rstrip_cases s) as (n & E & F). rewrite E at 2. rewrite words_tail; auto. Qed.
Lemma words_tokens : forall s, Forall token (words s).
Proof.
  assert (P : forall s, match words s with
     | [] => Forall (fun c => is_space c = true) s
     | _ => Forall token (words s) end).
  { induction s as [|c s IH]; [constructor|]. destruct (is_space c) eqn:E.
    - rewrite words_space by auto. destruct (words s); auto.
    - rewrite words_cons by auto. assert (T : token [c]) by (split; [discriminate|repeat constructor; auto]).
      destruct s as [|d s]; [constructor; [exact T|constructor]|]. destruct (is_space d) eqn:D.
      + destruct (words (d :: s)); constructor; auto.
      + destruct (words (d :: s)) as [|w ws]; [constructor; [exact T|constructor]|]. inversion IH; subst. constructor; auto.
        destruct H1 as [_ F]. split; [discriminate|constructor; auto]. }
  intro s. specialize (P s). destruct (words s) eqn:W; auto.
Qed.
Lemma words_prefix : forall a b s, is_space a = false -> is_space b = false ->
  exists w ws, words (a :: b :: s) = (a :: b :: w) :: ws.
Proof.
  intros a b s A B. rewrite words_cons by auto. rewrite B. rewrite words_cons by auto.
  destruct s as [|d s]; [exists [], []; reflexivity|]. destruct (is_space d); [exists [], (words (d :: s)); reflexivity|].
  destruct (words (d :: s)) as [|w ws]; [exists [], []|exists w, ws]; reflexivity.
Qed.
Lemma words_join : forall ws, Forall token ws -> words (join [space] ws) = ws.
Proof.
  intros ws F. induction F as [|w ws T F IH]; [reflexivity|]. destruct ws as [|v ws].
  - cbn. apply words_token. auto.
  - cbn [join] in *. change ([space] ++ ?x) with (space :: x). rewrite words_app by auto. rewrite IH. reflexivity.
Qed.

(** ** fields *)
Lemma split_app : forall sep f s, ~ In sep f -> split_on sep (f ++ sep :: s) = f :: split_on sep s.
Proof.
  intros sep f s N. induction f as [|c f IH]; cbn.
  - rewrite Ascii.eqb_refl. reflexivity.
  - destruct (Ascii.eqb_spec c sep) as [->|]; [exfalso; apply N; left; auto|]. rewrite IH; [reflexivity|]. intro. apply N. right. auto.
Qed.
Lemma split_none : forall sep f, ~ In sep f -> split_on sep f = [f].
Proof.
  intros sep f N. induction f as [|c f IH]; [reflexivity|]. cbn.
  destruct (Ascii.eqb_spec c sep) as [->|]; [exfalso; apply N; left; auto|]. rewrite IH; [reflexivity|]. intro. apply N. right. auto.
Qed.
Lemma split_nonempty : forall sep s, exists f fs, split_on sep s = f :: fs.
Proof.
  intros sep s. induction s as [|c s (f & fs & E)]; cbn; [eauto|]. destruct (Ascii.eqb c sep); [eauto|]. rewrite E. eauto.
Qed.

(** ** slices *)
Lemma slice_mid : forall a b p m s, length p = a -> length m = b - a -> slice a b (p ++ m ++ s) = m.
Proof.
  intros a b p m s P M. unfold slice. rewrite skipn_app, <- P, skipn_all, Nat.sub_diag. cbn [app skipn].
  rewrite firstn_app, P, <- M, firstn_all, Nat.sub_diag. cbn. rewrite app_nil_r. reflexivity.
Qed.
Lemma slice_end : forall a b p m, length p = a -> length m <= b - a -> slice a b (p ++ m) = m.
Proof.
  intros a b p m P M. unfold slice. rewrite skipn_app, <- P, skipn_all, Nat.sub_diag. cbn [app skipn]. rewrite P. apply firstn_all2. auto.
Qed.
Lemma rjust_length : forall n s, length s <= n -> length (rjust n s) = n.
Proof. intros. unfold rjust. rewrite app_length, repeat_length. lia. Qed.
Lemma ljust_length : forall n s, length s <= n -> length (ljust n s) = n.
Proof. intros. unfold ljust. rewrite app_length, repeat_length. lia. Qed.
Lemma words_rjust : forall n s, words (rjust n s) = words s.
Proof. intros. apply words_spaces. Qed.
Lemma words_rjust_app : forall n w c s, token w -> is_space c = true -> words (rjust n w ++ c :: s) = w :: words s.
Proof. intros. unfold rjust. rewrite <- app_assoc, words_spaces. apply words_app; auto. Qed.

(** ** digits *)
Local Open Scope Z_scope.
Lemma digit_code : forall n, 0 <= n < 10 -> nat_of_ascii (digit n) = (48 + Z.to_nat n)%nat.
Proof. intros. unfold digit. apply nat_ascii_embedding. lia. Qed.
Lemma digit_is : forall n, 0 <= n < 10 -> is_digit (digit n) /\ digit_value (digit n) = n.
Proof. intros. unfold is_digit, digit_value. rewrite digit_code by auto. lia. Qed.
Lemma value_app : forall a b, digits_value (a ++ b) = digits_value a * 10 ^ Z.of_nat (length b) + digits_value b.
Proof.
  intros a b. unfold digits_value. rewrite fold_left_app. generalize (fold_left (fun x c => 10 * x + digit_value c) a 0).
  induction b as [|c b IH] using rev_ind; intro x; [cbn; lia|]. rewrite !fold_left_app. cbn [fold_left].
  rewrite IH, app_length. cbn [length]. rewrite Nat2Z.inj_add, Z.pow_add_r by lia. change (10 ^ Z.of_nat 1) with 10. lia.
Qed.
Lemma value_single : forall c, digits_value [c] = digit_value c.
Proof. intros. unfold digits_value. cbn. destruct (digit_value c); reflexivity. Qed.
Lemma digits_fuel_spec : forall fuel n, 0 <= n < 10 * 2 ^ Z.of_nat fuel ->
  digits_fuel fuel n <> [] /\ Forall is_digit (digits_fuel fuel n) /\ digits_value (digits_fuel fuel n) = n /\
  (forall d, (0 < d)%nat -> n < 10 ^ Z.of_nat d -> (length (digits_fuel fuel n) <= d)%nat).
Proof.
  induction fuel as [|f IH]; intros n H.
  - cbn [digits_fuel]. assert (0 <= n < 10) by (cbn in H; lia). destruct (digit_is n H0). split; [discriminate|]. split; [constructor; [auto|constructor]|].
    split; [rewrite value_single; auto|]. intros d D _. cbn. lia.
  - cbn [digits_fuel]. destruct (Z.ltb_spec n 10) as [L|L].
    + destruct (digit_is n ltac:(lia)). split; [discriminate|]. split; [constructor; [auto|constructor]|].
      split; [rewrite value_single; auto|]. intros d D _. cbn. lia.
    + assert (B : 0 <= n / 10 < 10 * 2 ^ Z.of_nat f).
      { split; [apply Z.div_pos; lia|]. apply Z.div_lt_upper_bound; [lia|].
        rewrite Nat2Z.inj_succ, Z.pow_succ_r in H by lia. assert (0 < 2 ^ Z.of_nat f) by (apply Z.pow_pos_nonneg; lia). lia. }
      destruct (IH _ B) as (N & F & V & Len). pose proof (Z.mod_pos_bound n 10 ltac:(lia)) as M. destruct (digit_is _ M) as [D1 D2].
      split; [intro E; apply app_eq_nil in E; destruct E; discriminate|].
      split; [apply Forall_app; split; auto|]. split.
      * rewrite value_app, V, value_single, D2. cbn [length]. change (10 ^ Z.of_nat 1) with 10. rewrite (Z.div_mod n 10) at 3 by lia. lia.
      * intros d D Hd. rewrite app_length. cbn [length]. destruct d as [|d]; [lia|]. destruct d as [|d].
        { change (10 ^ Z.of_nat 1) with 10 in Hd. lia. }
        specialize (Len (S d) ltac:(lia)). assert (n / 10 < 10 ^ Z.of_nat (S d)).
        { apply Z.div_lt_upper_bound; [lia|]. rewrite Nat2Z.inj_succ, Z.pow_succ_r in Hd by lia. exact Hd. }
        specialize (Len H0). lia.
Qed.
Lemma digits_spec : forall n, 0 <= n -> digits n <> [] /\ Forall is_digit (digits n) /\ digits_value (digits n) = n /\
  (forall d, (0 < d)%nat -> n < 10 ^ Z.of_nat d -> (length (digits n) <= d)%nat).
Proof.
  intros n H. unfold digits. apply digits_fuel_spec. split; auto. rewrite Z2Nat.id by apply Z.log2_nonneg.
  destruct (Z.eq_dec n 0) as [->|]; [cbn; lia|]. pose proof (Z.log2_spec n ltac:(lia)) as L. rewrite Z.pow_succ_r in L by apply Z.log2_nonneg.
  assert (0 < 2 ^ Z.log2 n) by (apply Z.pow_pos_nonneg; [lia|apply Z.log2_nonneg]). lia.
Qed.
Lemma zeros_value : forall k, digits_value (repeat zero_char k) = 0.
Proof.
  induction k; [reflexivity|]. change (repeat zero_char (S k)) with ([zero_char] ++ repeat zero_char k).
  rewrite value_app, IHk, value_single. reflexivity.
Qed.
Lemma zpad_spec : forall d n, (0 < d)%nat -> 0 <= n < 10 ^ Z.of_nat d ->
  length (zpad d (digits n)) = d /\ Forall is_digit (zpad d (digits n)) /\ digits_value (zpad d (digits n)) = n.
Proof.
  intros d n D H. destruct (digits_spec n ltac:(lia)) as (_ & F & V & L). specialize (L d D ltac:(lia)).
  unfold zpad. split; [rewrite app_length, repeat_length; lia|]. split.
  - apply Forall_app. split; auto. apply Forall_forall. intros c I. apply repeat_spec in I. subst. unfold is_digit. cbn. lia.
  - rewrite value_app, V, zeros_value. lia.
Qed.
Lemma scaled_pos : forall d x, 0 <= scaled d x.
Proof.
  intros d x. unfold scaled. pose proof (rint_near (Rabs x * 10 ^ d)) as N.
  assert (0 <= Rabs x * 10 ^ d)%R by (apply Rmult_le_pos; [apply Rabs_pos|apply pow_le; lra]).
  assert (A : (-(1/2) <= IZR (rint (Rabs x * 10 ^ d)) - Rabs x * 10 ^ d)%R).
  { pose proof (Rle_abs (- (IZR (rint (Rabs x * 10 ^ d)) - Rabs x * 10 ^ d))). rewrite Rabs_Ropp in H0. lra. }
  assert (B : (-1 < IZR (rint (Rabs x * 10 ^ d)))%R) by lra.
  change (-1)%R with (IZR (-1)) in B. apply lt_IZR in B. lia.
Qed.
Theorem fixed_decimal : forall d x, (0 < d)%nat -> decimal (fixed d x) (rounded d x).
Proof.
  intros d x D. pose proof (scaled_pos d x) as P. unfold decimal, fixed, rounded.
  assert (T : 0 < 10 ^ Z.of_nat d) by (apply Z.pow_pos_nonneg; lia).
  set (k := scaled d x) in *.
  destruct (digits_spec (k / 10 ^ Z.of_nat d)) as (N & F & V & _); [apply Z.div_pos; lia|].
  destruct (zpad_spec d (k mod 10 ^ Z.of_nat d) D (Z.mod_pos_bound _ _ T)) as (L & F' & V').
  exists (if Rlt_dec x 0 then true else false), (digits (k / 10 ^ Z.of_nat d)), (zpad d (digits (k mod 10 ^ Z.of_nat d))).
  split; [exact N|]. split; [intro E; rewrite E in L; cbn in L; lia|]. split; [exact F|]. split; [exact F'|]. split.
  - destruct (Rlt_dec x 0); reflexivity.
  - rewrite value_app, V, V', L. rewrite <- (Z.mul_comm (10 ^ Z.of_nat d)), <- (Z.div_mod k) by lia. destruct (Rlt_dec x 0); reflexivity.
Qed.
Lemma rounded_near : forall d x, (Rabs (rounded d x - x) <= / 2 * / 10 ^ d)%R.
Proof.
  intros d x. unfold rounded, scaled. pose proof (rint_near (Rabs x * 10 ^ d)) as N.
  assert (T : (0 < 10 ^ d)%R) by (apply pow_lt; lra). set (k := IZR (rint (Rabs x * 10 ^ d))) in *.
  assert (E : (Rabs (k / 10 ^ d - Rabs x) <= / 2 * / 10 ^ d)%R).
  { replace (k / 10 ^ d - Rabs x)%R with ((k - Rabs x * 10 ^ d) * / 10 ^ d)%R by (field; lra).
    rewrite Rabs_mult, (Rabs_pos_eq (/ 10 ^ d)) by (left; apply Rinv_0_lt_compat; auto).
    apply Rmult_le_compat_r; [left; apply Rinv_0_lt_compat; auto|lra]. }
  destruct (Rlt_dec x 0) as [L|L].
  - rewrite (Rabs_left x) in E by auto. replace (-1 * (k / 10 ^ d) - x)%R with (- (k / 10 ^ d - - x))%R by ring. rewrite Rabs_Ropp. exact E.
  - rewrite (Rabs_pos_eq x) in E by lra. rewrite Rmult_1_l. exact E.
Qed.
Lemma show_int_decimal : forall z, decimal_int (show_int z) z.
Proof.
  intro z. unfold decimal_int, show_int. destruct (Z.ltb_spec z 0) as [L|L].
  - destruct (digits_spec (- z) ltac:(lia)) as (N & F & V & _). exists true, (digits (- z)). split; auto. split; auto. split; [reflexivity|]. lia.
  - destruct (digits_spec z L) as (N & F & V & _). exists false, (digits z). split; auto. split; auto. split; [reflexivity|]. lia.
Qed.
Local Close Scope Z_scope.
Lemma digit_plain : forall c, is_digit c -> is_space c = false /\ c <> colon.
Proof.
  intros c [A B]. split.
  - unfold is_space. repeat (rewrite ?orb_false_iff, ?andb_false_iff). rewrite ?Nat.leb_gt, ?Nat.eqb_neq. lia.
  - intros ->. cbn in B. lia.
Qed.
Lemma decimal_chars : forall s r, decimal s r -> token s /\ no_colon s.
Proof.
  intros s r (neg & ip & fp & N & N' & F & F' & -> & _).
  assert (A : Forall (fun c => is_space c = false /\ c <> colon) ((if neg then [minus] else []) ++ ip ++ [dot_char] ++ fp)).
  { apply Forall_app. split; [destruct neg; repeat constructor; discriminate|]. apply Forall_app. split; [eapply Forall_impl; [|exact F]; apply digit_plain|].
    apply Forall_app. split; [repeat constructor; discriminate|eapply Forall_impl; [|exact F']; apply digit_plain]. }
  rewrite Forall_forall in A. split.
  - split; [destruct neg; [discriminate|destruct ip; [congruence|discriminate]]|]. apply Forall_forall. intros c I. apply A. exact I.
  - intro I. apply A in I. destruct I as [_ I]. congruence.
Qed.
Lemma fixed_token : forall d x, 0 < d -> token (fixed d x).
Proof. intros. eapply decimal_chars. apply fixed_decimal. auto. Qed.
Lemma fixed_no_colon : forall d x, 0 < d -> no_colon (fixed d x).
Proof. intros. eapply decimal_chars. apply fixed_decimal. auto. Qed.
(** how long a number is *)
Lemma fixed_length : forall d a x, 0 < d -> 0 < a -> (Rabs x + / 2 * / 10 ^ d < 10 ^ a)%R ->
  length (fixed d x) <= a + 1 + d + (if Rlt_dec x 0 then 1 else 0).
Proof.
  intros d a x D A H. unfold fixed. rewrite !app_length. pose proof (scaled_pos d x) as P.
  assert (T : (0 < 10 ^ Z.of_nat d)%Z) by (apply Z.pow_pos_nonneg; lia).
  destruct (zpad_spec d (scaled d x mod 10 ^ Z.of_nat d) D (Z.mod_pos_bound _ _ T)) as (L & _). rewrite L. cbn [length].
  destruct (digits_spec (scaled d x / 10 ^ Z.of_nat d)) as (_ & _ & _ & Len); [apply Z.div_pos; lia|].
  assert (B : (scaled d x / 10 ^ Z.of_nat d < 10 ^ Z.of_nat a)%Z).
  { apply Z.div_lt_upper_bound; [lia|]. apply lt_IZR. rewrite mult_IZR, <- !pow_IZR.
    unfold scaled. pose proof (rint_near (Rabs x * 10 ^ d)) as N. pose proof (Rle_abs (IZR (rint (Rabs x * 10 ^ d)) - Rabs x * 10 ^ d)) as Q.
    assert (Td : (0 < 10 ^ d)%R) by (apply pow_lt; lra).
    assert (H' : ((Rabs x + / 2 * / 10 ^ d) * 10 ^ d < 10 ^ a * 10 ^ d)%R) by (apply Rmult_lt_compat_r; auto).
    replace ((Rabs x + / 2 * / 10 ^ d) * 10 ^ d)%R with (Rabs x * 10 ^ d + 1/2)%R in H' by (field; lra). lra. }
  specialize (Len a A B). destruct (Rlt_dec x 0); cbn [length]; lia.
Qed.
