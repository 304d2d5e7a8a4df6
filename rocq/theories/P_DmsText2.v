(** C129: whole texts. *)
Require Import ZArith Bool Ascii String List Decimal DecimalString DecimalZ Lia.
Require Import Verif.M_DmsText Verif.Spec_DmsText Verif.P_DmsText.
Import ListNotations.
Local Open Scope list_scope.

(** ** numbers *)
Lemma int_acc : forall u p, fold_left (fun n a => (10 * n + (Z.of_nat (nat_of_ascii a) - 48))%Z) (txt (NilEmpty.string_of_uint u)) (Zpos p) = Zpos (Pos.of_uint_acc u p).
Proof.
  induction u as [|u IH|u IH|u IH|u IH|u IH|u IH|u IH|u IH|u IH|u IH]; intro p; [reflexivity|..];
    cbn [NilEmpty.string_of_uint txt list_ascii_of_string fold_left Pos.of_uint_acc]; rewrite <- IH; unfold txt; f_equal; cbn [nat_of_ascii];
    match goal with |- (_ + (Z.of_nat (nat_of_ascii ?a) - _))%Z = _ => let v := eval compute in (nat_of_ascii a) in change (nat_of_ascii a) with v end; lia.
Qed.
Lemma int_uint : forall u, int_of (txt (NilEmpty.string_of_uint u)) = Z.of_N (Pos.of_uint u).
Proof.
  unfold int_of. induction u as [|u IH|u IH|u IH|u IH|u IH|u IH|u IH|u IH|u IH|u IH]; [reflexivity|exact IH|..];
    cbn [NilEmpty.string_of_uint txt list_ascii_of_string fold_left Pos.of_uint]; fold (txt (NilEmpty.string_of_uint u));
    match goal with |- fold_left _ _ ?z = _ => let v := eval compute in z in change z with v end; rewrite int_acc; reflexivity.
Qed.
Lemma uint_chars : forall u, Forall (fun c => In c (txt "0123456789")) (txt (NilEmpty.string_of_uint u)).
Proof. induction u; cbn [NilEmpty.string_of_uint txt list_ascii_of_string]; constructor; try assumption; cbn; tauto. Qed.
Lemma uint_text : forall u, digits (txt (NilZero.string_of_uint u)) /\ int_of (txt (NilZero.string_of_uint u)) = Z.of_uint u.
Proof.
  intro u. destruct u; [split; [split; [discriminate|repeat constructor]|reflexivity]|..];
    (split; [split; [discriminate|apply (uint_chars (_ _))]|exact (int_uint (_ _))]).
Qed.
Lemma str_nonneg : forall z, (0 <= z)%Z -> digits (str_of z) /\ int_of (str_of z) = z.
Proof.
  intros z P. unfold str_of. pose proof (DecimalZ.of_to z) as E. destruct (Z.to_int z) as [u|u] eqn:T.
  - cbn [NilZero.string_of_int]. destruct (uint_text u) as [A B]. split; [exact A|]. rewrite B. exact E.
  - destruct z; [discriminate| |lia]. cbn in T. discriminate.
Qed.
Lemma str_neg : forall z, (z < 0)%Z -> str_of z = txt "-" ++ str_of (Z.abs z).
Proof. intros z P. destruct z; try lia. reflexivity. Qed.

(** ** leading characters that are not digits *)
Lemma no_start : forall X a t c (k : list ascii -> caps -> option X), digit a = false -> run dms_pattern (a :: t) c k = None.
Proof.
  intros X a t c k D. destruct (run dms_pattern (a :: t) c k) as [x|] eqn:R; [|reflexivity]. exfalso.
  apply run_sound in R. destruct R as (u & t' & c' & E & L & _). cbn [lang dms_pattern degrees_part many1] in L.
  destruct L as (v & w & -> & (v1 & w1 & -> & (v2 & w2 & -> & (b & -> & B) & _) & _) & _). cbn in E. injection E as -> _. congruence.
Qed.
Lemma skip_junk : forall j t, Forall (fun a => digit a = false) j -> dms_from_string (j ++ t) = dms_from_string t.
Proof.
  intros j t F. induction F as [|a j A F IH]; [reflexivity|]. rewrite <- IH. unfold dms_from_string.
  assert (E : search dms_pattern (a :: j ++ t) = search dms_pattern (j ++ t)).
  { change (match run dms_pattern (a :: j ++ t) [] (fun _ c => Some c) with Some c => Some c | None => search dms_pattern (j ++ t) end = search dms_pattern (j ++ t)).
    rewrite no_start by exact A. reflexivity. }
  change ((a :: j) ++ t) with (a :: j ++ t). rewrite E. reflexivity.
Qed.
Lemma sign_lost : forall d min sec w b,
  dms_from_string (pprint_dms (str_of d) min sec w b) = dms_from_string (pprint_dms (str_of (Z.abs d)) min sec w b).
Proof.
  intros d min sec w b. destruct (Z_lt_le_dec d 0) as [N|N]; [|rewrite Z.abs_eq by exact N; reflexivity].
  rewrite str_neg by exact N. rewrite <- (skip_junk (txt "-") (pprint_dms (str_of (Z.abs d)) min sec w b)) by (repeat constructor). f_equal. unfold pprint_dms. destruct b; rewrite <- !app_assoc; reflexivity.
Qed.

(** ** reading a printed text *)
Lemma whole_read : forall b d m s t x, digits d -> digits m -> decimal s -> ends t -> run last_part t [(3, s); (2, m); (1, d)] done = Some x ->
  search dms_pattern (d ++ degree_mark b ++ txt "," ++ txt " " ++ m ++ minute_mark b ++ txt "," ++ txt " " ++ s ++ t) = Some x.
Proof.
  intros b d m s t x D M S T H.
  assert (E : run dms_pattern (d ++ degree_mark b ++ txt "," ++ txt " " ++ m ++ minute_mark b ++ txt "," ++ txt " " ++ s ++ t) [] (fun _ c => Some c) = Some x).
  { apply (degrees_read _ b d _ [] (fun t' c' => run (Cat minutes_part (Cat seconds_part last_part)) t' c' done)); [exact D|].
    apply (minutes_read _ b m _ _ (fun t' c' => run (Cat seconds_part last_part) t' c' done)); [exact M|].
    apply (seconds_read _ s t _ (fun t' c' => run last_part t' c' done)); [exact S|exact T|exact H]. }
  destruct D as [N _]. destruct d as [|a d]; [contradiction|].
  match goal with |- search ?r ?s = _ => change (match run r s [] (fun _ c => Some c) with Some c => Some c | None => search r (tl s) end = Some x) end.
  rewrite E. reflexivity.
Qed.
Lemma printed : forall b d m s w, pprint_dms d m s w b =
  d ++ degree_mark b ++ txt "," ++ txt " " ++ m ++ minute_mark b ++ txt "," ++ txt " " ++ s ++
  ((if b then [QUOTE] else txt " sec") ++ match w with Some x => txt " " ++ x | None => [] end).
Proof.
  intros b d m s w. unfold pprint_dms, degree_mark, minute_mark. destruct b; rewrite <- !app_assoc; reflexivity.
Qed.
(** the rest begins with a character that is neither space nor s *)
Lemma last_plain : forall a t j w c, j ++ w = a :: t -> space a = false -> Ascii.eqb "s" (lower a) = false ->
  after_space j -> Forall (fun a => dot a = true) j -> a_word w -> run last_part (j ++ w) c done = Some ((5, w) :: c).
Proof.
  intros a t j w c E A B J D W.
  apply (run_many0 _ c (fun t' c' => run (Cat (Opt (Grp 4 (word3 "s" "e" "c"))) (Cat (Many space) rest_part)) t' c' done)); [rewrite E; exact A|].
  match goal with |- run (Cat ?a ?b) ?s ?c ?k = ?r => change (run a s c (fun t0 c0 => run b t0 c0 k) = r) end.
  apply (run_opt_no _ c (fun t' c' => run (Cat (Many space) rest_part) t' c' done)).
  - rewrite E. cbn [run word3 letter]. rewrite B. reflexivity.
  - apply (run_many0 _ c (fun t' c' => run rest_part t' c' done)); [rewrite E; exact A|]. apply tail_last; assumption.
Qed.
Lemma last_sec : forall w c, (forall x, w = Some x -> a_word x) ->
  exists c', run last_part (txt " sec" ++ match w with Some x => txt " " ++ x | None => [] end) c done = Some c' /\
    c' = (match w with Some x => [(5, x)] | None => [] end) ++ (4, txt "sec") :: c.
Proof.
  intros w c W. eexists. split; [|reflexivity]. destruct w as [x|]; [|reflexivity]. specialize (W x eq_refl).
  apply (run_many _ c (fun t' c' => run (Cat (Opt (Grp 4 (word3 "s" "e" "c"))) (Cat (Many space) rest_part)) t' c' done) space (txt " ") (txt "sec" ++ txt " " ++ x)); [repeat constructor|reflexivity|].
  match goal with |- run (Cat ?a ?b) ?s ?c ?k = ?r => change (run a s c (fun t0 c0 => run b t0 c0 k) = r) end.
  apply (run_opt_yes _ c (fun t' c' => run (Cat (Many space) rest_part) t' c' done)).
  change (run (Many space) (txt " " ++ x) ((4, taken (txt "sec" ++ txt " " ++ x) (txt " " ++ x)) :: c) (fun t' c' => run rest_part t' c' done) = Some ((5, x) :: (4, txt "sec") :: c)).
  rewrite taken_app. apply run_many; [repeat constructor| |exact (tail_last [] x _ (or_introl eq_refl) (Forall_nil _) W)].
  destruct W as [W1 W2]. destruct W2 as [|a x A W2]; [contradiction|exact A].
Qed.
Lemma read_back : forall d m s w b, (0 <= d)%Z -> (0 <= m)%Z -> decimal s -> (forall x, w = Some x -> a_word x) -> ~ (b = true /\ w = None) ->
  dms_from_string (pprint_dms (str_of d) (str_of m) s w b) = Some (d, m, s, w).
Proof.
  intros d m s w b D M S W N. destruct (str_nonneg d D) as [D1 D2], (str_nonneg m M) as [M1 M2]. unfold dms_from_string. rewrite printed.
  destruct b.
  - destruct w as [x|]; [|destruct N; auto]. specialize (W x eq_refl).
    rewrite (whole_read true _ _ s _ ((5, x) :: [(3, s); (2, str_of m); (1, str_of d)]) D1 M1 S); [| split; reflexivity |].
    + cbn [group Nat.eqb]. rewrite D2, M2. destruct x as [|y x]; [destruct W; contradiction|reflexivity].
    + apply (last_plain QUOTE (txt " " ++ x) (QUOTE :: txt " ") x); try reflexivity; [right; exists [QUOTE], " "%char; split; reflexivity|repeat constructor|exact W].
  - destruct (last_sec w [(3, s); (2, str_of m); (1, str_of d)] W) as (c' & R & E).
    rewrite (whole_read false _ _ s _ c' D1 M1 S); [|split; reflexivity|exact R]. subst c'.
    destruct w as [x|]; cbn [Datatypes.app group Nat.eqb]; rewrite D2, M2; [|reflexivity]. destruct x as [|y x]; [destruct (W _ eq_refl); contradiction|reflexivity].
Qed.
Lemma quote_kept : forall d m s, (0 <= d)%Z -> (0 <= m)%Z -> decimal s ->
  dms_from_string (pprint_dms (str_of d) (str_of m) s None true) = Some (d, m, s, Some [QUOTE]).
Proof.
  intros d m s D M S. destruct (str_nonneg d D) as [D1 D2], (str_nonneg m M) as [M1 M2]. unfold dms_from_string. rewrite printed.
  rewrite (whole_read true _ _ s _ ((5, [QUOTE]) :: [(3, s); (2, str_of m); (1, str_of d)]) D1 M1 S); [| split; reflexivity |].
  - cbn [group Nat.eqb]. rewrite D2, M2. reflexivity.
  - apply (last_plain QUOTE [] [] [QUOTE]); try reflexivity; [left; reflexivity|constructor|split; [discriminate|repeat constructor]].
Qed.

(** ** seconds below 1e-4 *)
Lemma digits_plain : forall u, digits u -> Forall (fun a => dot a = true) u /\ Forall (fun a => space a = false) u.
Proof.
  intros u [_ F]. split; (eapply Forall_impl; [|exact F]); cbn; intros a I; repeat (destruct I as [<-|I]; [reflexivity|]); destruct I.
Qed.
Lemma tiny_seconds : forall d m mant e w b, (0 <= d)%Z -> (0 <= m)%Z -> decimal mant -> digits e -> (forall x, w = Some x -> a_word x) ->
  dms_from_string (pprint_dms (str_of d) (str_of m) (mant ++ txt "e-" ++ e) w b) =
  Some (d, m, mant, Some (match w with Some x => x | None => if b then txt "e-" ++ e ++ [QUOTE] else txt "sec" end)).
Proof.
  intros d m s e w b D M S E W. destruct (str_nonneg d D) as [D1 D2], (str_nonneg m M) as [M1 M2]. destruct (digits_plain e E) as [E1 E2]. unfold dms_from_string. rewrite printed.
  set (f := match w with Some x => x | None => if b then txt "e-" ++ e ++ [QUOTE] else txt "sec" end).
  assert (F : a_word f).
  { unfold f. destruct w as [x|]; [exact (W x eq_refl)|]. destruct b; [|split; [discriminate|repeat constructor]].
    split; [discriminate|]. cbn [txt list_ascii_of_string Datatypes.app]. repeat (constructor; [reflexivity|]). apply Forall_app. split; [exact E2|repeat constructor]. }
  assert (R : exists j, txt "e-" ++ e ++ (if b then [QUOTE] else txt " sec") ++ match w with Some x => txt " " ++ x | None => [] end = j ++ f /\ after_space j /\ Forall (fun a => dot a = true) j).
  { unfold f. destruct w as [x|].
    - exists (txt "e-" ++ e ++ (if b then [QUOTE] else txt " sec") ++ txt " "). split; [rewrite <- !app_assoc; reflexivity|]. split.
      + right. exists (txt "e-" ++ e ++ (if b then [QUOTE] else txt " sec")), " "%char. split; [rewrite <- !app_assoc; reflexivity|reflexivity].
      + repeat (apply Forall_app; split); try exact E1; destruct b; repeat constructor.
    - destruct b.
      + exists []. split; [rewrite app_nil_r; reflexivity|]. split; [left; reflexivity|constructor].
      + exists (txt "e-" ++ e ++ txt " "). split; [rewrite app_nil_r, <- !app_assoc; reflexivity|]. split.
        * right. exists (txt "e-" ++ e), " "%char. split; [rewrite <- !app_assoc; reflexivity|reflexivity].
        * repeat (apply Forall_app; split); try exact E1; repeat constructor. }
  destruct R as (j & R & J1 & J2). rewrite <- !app_assoc.
  rewrite (whole_read b _ _ s _ ((5, f) :: [(3, s); (2, str_of m); (1, str_of d)]) D1 M1 S); [| split; reflexivity |].
  - cbn [group Nat.eqb]. rewrite D2, M2. destruct f as [|y f']; [destruct F; contradiction|reflexivity].
  - rewrite R. eapply last_plain; [rewrite <- R; reflexivity|reflexivity|reflexivity|exact J1|exact J2|exact F].
Qed.

(** ** minutes printed as a float *)
Lemma search_some : forall r s c, search r s = Some c -> exists pre s', s = pre ++ s' /\ run r s' [] (fun _ c => Some c) = Some c.
Proof.
  intros r s c. induction s as [|a s IH]; cbn [search]; intro H.
  - exists [], []. split; [reflexivity|]. destruct (run r [] [] (fun _ c0 => Some c0)); [exact H|discriminate].
  - destruct (run r (a :: s) [] (fun _ c0 => Some c0)) as [y|] eqn:R; [exists [], (a :: s); split; [reflexivity|congruence]|].
    destruct (IH H) as (pre & s' & -> & R'). exists (a :: pre), s'. split; [reflexivity|exact R'].
Qed.
Lemma split_comma : forall (x : ascii) u v u' v', ~ In x u -> ~ In x u' -> u ++ x :: v = u' ++ x :: v' -> u = u' /\ v = v'.
Proof.
  intros x u. induction u as [|a u IH]; intros v [|a' u'] v' N N' E; cbn in E; inversion E; subst.
  - auto.
  - exfalso. apply N'. left. reflexivity.
  - exfalso. apply N. left. reflexivity.
  - destruct (IH v u' v') as [-> ->]; [intro; apply N; right; assumption|intro; apply N'; right; assumption|assumption|auto].
Qed.
Lemma minutes_lang : forall u, lang minutes_part u -> exists q, u = q ++ [","%char] /\ ~ In ","%char q /\ ~ In "."%char q.
Proof.
  intros u L. cbn [lang minutes_part many1 chr word3 letter] in L.
  destruct L as (s1 & w1 & -> & S1 & d & w2 & -> & (v3 & w3 & -> & (a & -> & A) & D) & s2 & w4 & -> & S2 & o & w5 & -> & O & z & -> & Z).
  apply Ascii.eqb_eq in Z. subst z. exists (s1 ++ ([a] ++ w3) ++ s2 ++ o). split; [rewrite <- !app_assoc; reflexivity|].
  assert (G : forall x, (space x = true \/ digit x = true \/ Ascii.eqb "'" x = true \/ Ascii.eqb "m" (lower x) = true \/ Ascii.eqb "i" (lower x) = true \/ Ascii.eqb "n" (lower x) = true) -> x <> ","%char /\ x <> "."%char).
  { intros x H. split; intros ->; cbn in H; intuition discriminate. }
  assert (H : forall x, In x (s1 ++ ([a] ++ w3) ++ s2 ++ o) -> x <> ","%char /\ x <> "."%char).
  { intros x I. rewrite !in_app_iff in I. rewrite !Forall_forall in *. destruct I as [I|[[I|I]|[I|I]]].
    - apply G. left. exact (S1 x I).
    - destruct I as [<-|[]]. apply G. auto.
    - apply G. right. left. exact (D x I).
    - apply G. left. exact (S2 x I).
    - destruct O as [->|[(y & -> & Y)|(v & w & -> & (y1 & -> & Y1) & v' & w' & -> & (y2 & -> & Y2) & y3 & -> & Y3)]]; cbn in I; [destruct I|destruct I as [<-|[]]; apply G; auto|].
      destruct I as [<-|[<-|[<-|[]]]]; apply G; auto 6. }
  split; intro I; destruct (H _ I); contradiction.
Qed.
Lemma degrees_lang : forall u, lang degrees_part u -> exists q, u = q ++ [","%char] /\ ~ In ","%char q.
Proof.
  intros u L. cbn [lang degrees_part many1 chr word3 letter] in L.
  destruct L as (d & w2 & -> & (v3 & w3 & -> & (a & -> & A) & D) & s2 & w4 & -> & S2 & o & w5 & -> & O & z & -> & Z).
  apply Ascii.eqb_eq in Z. subst z. exists (([a] ++ w3) ++ s2 ++ o). split; [rewrite <- !app_assoc; reflexivity|].
  assert (G : forall x, (space x = true \/ digit x = true \/ Ascii.eqb DEGREE x = true \/ Ascii.eqb "d" (lower x) = true \/ Ascii.eqb "e" (lower x) = true \/ Ascii.eqb "g" (lower x) = true) -> x <> ","%char).
  { intros x H. intros ->. cbn in H. intuition discriminate. }
  assert (H : forall x, In x (([a] ++ w3) ++ s2 ++ o) -> x <> ","%char).
  { intros x I. rewrite !in_app_iff in I. rewrite !Forall_forall in *. destruct I as [[I|I]|[I|I]].
    - destruct I as [<-|[]]. apply G. auto.
    - apply G. right. left. exact (D x I).
    - apply G. left. exact (S2 x I).
    - destruct O as [->|[(y & -> & Y)|(v & w & -> & (y1 & -> & Y1) & v' & w' & -> & (y2 & -> & Y2) & y3 & -> & Y3)]]; cbn in I; [destruct I|destruct I as [<-|[]]; apply G; auto|].
      destruct I as [<-|[<-|[<-|[]]]]; apply G; auto 6. }
  intro I. destruct (H _ I). reflexivity.
Qed.
Lemma float_minutes : forall deg min sec w b, float_text min ->
  ~ In ","%char deg -> ~ In ","%char sec -> (forall x, w = Some x -> ~ In ","%char x) ->
  dms_from_string (pprint_dms deg min sec w b) = None.
Proof.
  intros deg min sec w b (mi & mf & Mi & Mf & ->) ND NS NW. unfold dms_from_string.
  destruct (search dms_pattern (pprint_dms deg (mi ++ txt "." ++ mf) sec w b)) as [c|] eqn:E; [|reflexivity]. exfalso.
  apply search_some in E. destruct E as (pre & s' & E & R). apply run_sound in R. destruct R as (u & t & c' & -> & L & _).
  cbn [lang dms_pattern] in L. change (exists v w : list ascii, u = v ++ w /\ lang degrees_part v /\ exists v0 w0, w = v0 ++ w0 /\ lang minutes_part v0 /\ lang (Cat seconds_part last_part) w0) in L.
  destruct L as (v & w1 & -> & L1 & v0 & w0 & -> & L2 & _). apply degrees_lang in L1. destruct L1 as (q1 & -> & Q1). apply minutes_lang in L2. destruct L2 as (q2 & -> & Q2 & P2).
  rewrite printed in E.
  set (P := deg ++ degree_mark b) in *. set (Q := txt " " ++ (mi ++ txt "." ++ mf) ++ minute_mark b) in *.
  set (T := txt " " ++ sec ++ (if b then [QUOTE] else txt " sec") ++ match w with Some x => txt " " ++ x | None => [] end) in *.
  assert (E' : P ++ ","%char :: Q ++ ","%char :: T = (pre ++ q1) ++ ","%char :: q2 ++ ","%char :: (w0 ++ t)).
  { transitivity (pre ++ ((q1 ++ [","%char]) ++ (q2 ++ [","%char]) ++ w0) ++ t); [rewrite <- E; unfold P, Q, T|]; rewrite <- !app_assoc; reflexivity. }
  clear E. rename E' into E.
  assert (DC : forall z, digits z -> ~ In ","%char z). { intros z [_ F] I. rewrite Forall_forall in F. specialize (F _ I). cbn in F. intuition discriminate. }
  assert (NP : ~ In ","%char P). { unfold P. rewrite in_app_iff. intros [I|I]; [contradiction|]. destruct b; cbn in I; intuition discriminate. }
  assert (NQ : ~ In ","%char Q). { unfold Q. rewrite !in_app_iff. intros [I|[[I|[I|I]]|I]]; [cbn in I; intuition discriminate|exact (DC _ Mi I)|cbn in I; intuition discriminate|exact (DC _ Mf I)|destruct b; cbn in I; intuition discriminate]. }
  assert (NT : ~ In ","%char T). { unfold T. rewrite !in_app_iff. intros [I|[I|[I|I]]]; [cbn in I; intuition discriminate|contradiction|destruct b; cbn in I; intuition discriminate|].
    destruct w as [x|]; [|destruct I]. rewrite in_app_iff in I. destruct I as [I|I]; [cbn in I; intuition discriminate|exact (NW x eq_refl I)]. }
  assert (NPRE : ~ In ","%char pre).
  { intro I. assert (CE : count_occ ascii_dec (P ++ ","%char :: Q ++ ","%char :: T) ","%char = count_occ ascii_dec ((pre ++ q1) ++ ","%char :: q2 ++ ","%char :: (w0 ++ t)) ","%char) by (rewrite E; reflexivity).
    rewrite !count_occ_app in CE. rewrite !(count_occ_cons_eq ascii_dec) in CE by reflexivity. rewrite !count_occ_app in CE. rewrite !(count_occ_cons_eq ascii_dec) in CE by reflexivity.
    rewrite (proj1 (count_occ_not_In ascii_dec P ","%char) NP), (proj1 (count_occ_not_In ascii_dec Q ","%char) NQ), (proj1 (count_occ_not_In ascii_dec T ","%char) NT) in CE.
    apply (count_occ_In ascii_dec) in I. lia. }
  apply split_comma in E; [|exact NP|rewrite in_app_iff; tauto]. destruct E as [_ E].
  apply split_comma in E; [|exact NQ|exact Q2]. destruct E as [E _]. apply P2. rewrite <- E. unfold Q. rewrite !in_app_iff. right. left. right. left. left. reflexivity.
Qed.
Lemma printed_text : forall deg min sec w b, pprint_dms deg min sec w b = written deg min sec w b.
Proof. reflexivity. Qed.
Lemma read_written : forall d m s w b, (0 <= d)%Z -> (0 <= m)%Z -> decimal s -> (forall x, w = Some x -> a_word x) -> ~ (b = true /\ w = None) ->
  dms_from_string (written (str_of d) (str_of m) s w b) = Some (d, m, s, w).
Proof. intros d m s w b D M S W N. rewrite <- printed_text. apply read_back; assumption. Qed.
