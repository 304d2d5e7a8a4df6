(** .wbp files that are not read as written. *)
Require Import Reals ZArith Ascii String List Bool Lia Lra.
Require Import Verif.Base Verif.M_Text Verif.Spec_Text Verif.P_Text Verif.M_Wbp Verif.Spec_Wbp Verif.P_Wbp Verif.P_Wbp2 Verif.P_Wbp3.
Import ListNotations.
Open Scope list_scope.
Local Open Scope nat_scope.

(** ** words of a text with a blank *)
Lemma words_two : forall x c y, is_space c = true -> words (x ++ c :: y) = words x ++ words y.
Proof.
  intros x c y C. induction x as [|d x IH]; [apply words_space; auto|]. cbn [app].
  destruct (is_space d) eqn:D; [rewrite !words_space by auto; exact IH|].
  rewrite !(words_cons d) by auto. destruct x as [|e x].
  - cbn [app]. rewrite C. cbn [app] in IH. rewrite IH. reflexivity.
  - cbn [app]. destruct (is_space e) eqn:B.
    + rewrite <- app_comm_cons in IH. rewrite IH. reflexivity.
    + rewrite <- app_comm_cons in IH. rewrite IH. rewrite (words_cons e) by auto. destruct x as [|f x]; [reflexivity|].
      destruct (is_space f); [reflexivity|]. destruct (words (f :: x)); reflexivity.
Qed.
Lemma words_some : forall x c, In c x -> is_space c = false -> words x <> [].
Proof.
  induction x as [|d x IH]; intros c I N; [destruct I|]. destruct (is_space d) eqn:D.
  - rewrite words_space by auto. destruct I as [->|I]; [congruence|]. eapply IH; eauto.
  - rewrite words_cons by auto. destruct x as [|e x]; [discriminate|]. destruct (is_space e); [discriminate|]. destruct (words (e :: x)); discriminate.
Qed.
Lemma words_strip : forall s, words (strip s) = words s.
Proof.
  intros s. unfold strip. rewrite words_rstrip. induction s as [|c s IH]; [reflexivity|]. cbn [lstrip].
  destruct (is_space c) eqn:E; [rewrite words_space by auto; exact IH|reflexivity].
Qed.

(** ** which headers can be written *)
Lemma key_iff : forall d v, (exists k, get_key d v = Some k) <-> In v (map snd d).
Proof.
  induction d as [|[k u] d IH]; intros v; cbn.
  - split; [intros (k & H); discriminate|intros []].
  - destruct (String.eqb_spec u v) as [->|N]; [split; [auto|eauto]|]. rewrite IH. split; [auto|]. intros [E|I]; [congruence|auto].
Qed.
Theorem header_writable : forall de su h, (exists line, header_line (Some de) (Some su) h = Some line) <-> writable h.
Proof.
  intros de su h. destruct (unit_keys de su) as (u & Ku & _). unfold header_line, writable. split.
  - intros (line & H). inv H. inv H. inv H. inv H. inv H. inv H. inv H. inv H. inv H. inv H.
    split; [apply key_iff; eauto|]. split; [apply key_iff; eauto|]. split; [exists v4; split; [auto|apply key_iff; eauto]|].
    rewrite E6, E7, E8. split; [discriminate|]. split; discriminate.
  - intros (T & M & (d & Hd & D) & S & L & X). apply key_iff in T, M, D. destruct T as (kt & ->), M as (km & ->), D as (kd & D). cbn [ob].
    rewrite Ku, Hd. cbn [ob]. rewrite D. cbn [ob]. destruct (h_sidetrack h); [|congruence]. destruct (h_dls h); [|congruence]. destruct (h_ext h); [|congruence].
    eexists. reflexivity.
Qed.
(** a plan without a sidetrack id cannot be written again once read back *)
Theorem blank_sidetrack : forall rd de su de' su' h, reads_numbers rd -> header_fits h -> h_sidetrack h = Some [] ->
  exists line h', header_line (Some de) (Some su) h = Some line /\ read_header rd line = Some h' /\ header_line de' su' h' = None.
Proof.
  intros rd de su de' su' h Hrd F S. destruct (header_round rd Hrd de su h F) as (line & h' & A & _ & _ & B & C).
  exists line, h'. split; [auto|]. split; [auto|]. destruct C as (_ & _ & _ & Si & _). rewrite S in Si. cbn in Si.
  destruct (header_line de' su' h') as [l|] eqn:E; [|reflexivity]. exfalso.
  destruct de' as [de'|]; [|unfold header_line in E; inv E; discriminate].
  destruct su' as [su'|]; [|unfold header_line in E; inv E; discriminate].
  assert (W : writable h') by (apply (header_writable de' su'); eauto). destruct W as (_ & _ & _ & W & _). congruence.
Qed.

Theorem header_trip : forall rd de su h, reads_numbers rd -> header_fits h ->
  exists line h', header_line (Some de) (Some su) h = Some line /\ read_header rd (rstrip line) = Some h' /\ header_back h h'.
Proof.
  intros rd de su h Hrd F. destruct (header_round rd Hrd de su h F) as (line & h' & A & R & _ & B & C). exists line, h'. rewrite R. auto.
Qed.

(** ** plan names that are too long *)
Lemma digits_in : forall d x, 0 < d -> exists a c, fixed d x = a ++ [c] /\ is_space c = false.
Proof.
  intros d x D. destruct (fixed_token d x D) as [N F]. destruct (exists_last N) as (a & c & E). exists a, c. split; [exact E|].
  rewrite E in F. apply Forall_app in F. destruct F as [_ F]. inversion F; auto.
Qed.
Lemma fixed_long : forall d x, 0 < d -> d + 2 <= length (fixed d x).
Proof.
  intros d x D. unfold fixed. rewrite !app_length.
  assert (T : (0 < 10 ^ Z.of_nat d)%Z) by (apply Z.pow_pos_nonneg; lia). pose proof (scaled_pos d x) as P.
  destruct (zpad_spec d (scaled d x mod 10 ^ Z.of_nat d) D (Z.mod_pos_bound _ _ T)) as (L & _). rewrite L. cbn [length].
  destruct (digits_spec (scaled d x / 10 ^ Z.of_nat d)) as (Ne & _); [apply Z.div_pos; lia|].
  destruct (digits (scaled d x / 10 ^ Z.of_nat d)); [congruence|]. cbn [length]. lia.
Qed.
Theorem long_name : forall rd de su h k, one_word rd -> 1 <= k <= 6 -> name_too_long k h ->
  exists line, header_line (Some de) (Some su) h = Some line /\ read_header rd line = None.
Proof.
  intros rd de su h k Ow Hk (W & (si & Hs & Ls) & (nm & Hn & Ln) & Lp & dl & Hdl & Ldl).
  destruct (proj2 (header_writable de su h) W) as (line & Hl). exists line. split; [exact Hl|].
  unfold header_line in Hl. inv Hl. inv Hl. inv Hl. inv Hl. inv Hl. inv Hl. inv Hl. inv Hl. inv Hl. inv Hl.
  rewrite Hs in E6. injection E6 as <-. rewrite Hdl in E7. injection E7 as <-. injection Hl as Hl. rewrite Hn in Hl.
  change (match h_parent h with Some n => n | None => [] end) with (text_or_blank (h_parent h)) in Hl.
  rename v8 into ex. set (pa := text_or_blank (h_parent h)) in *.
  set (P := lit "W:" ++ [v; v2; v3; v5] ++ lit "   0" ++ lit " 123") in *.
  set (S1 := rjust 7 si) in *. set (S2 := ljust 60 nm) in *. set (S3 := ljust 60 pa) in *. set (S4 := rjust 6 (fixed 2 dl)) in *. set (S5 := rjust 7 (fixed 5 ex)) in *.
  assert (L1 : length S1 = 7) by (apply rjust_length; auto). assert (L3 : length S3 = 60) by (apply ljust_length; auto).
  assert (L2 : length S2 = 60 + k) by (unfold S2, ljust; rewrite app_length, repeat_length; lia).
  assert (L4 : length S4 = 6) by (apply rjust_length; auto). assert (LP : length P = 14) by reflexivity.
  assert (E5' : S5 = fixed 5 ex). { unfold S5, rjust. pose proof (fixed_long 5 ex ltac:(lia)). replace (7 - length (fixed 5 ex)) with 0 by lia. reflexivity. }
  assert (L5 : 7 <= length S5) by (rewrite E5'; pose proof (fixed_long 5 ex ltac:(lia)); lia).
  destruct (digits_in 2 dl ltac:(lia)) as (a & c & Ea & Hc).
  assert (S4c : exists b, S4 = b ++ [c]) by (unfold S4, rjust; rewrite Ea; eexists; rewrite app_assoc; reflexivity).
  destruct S4c as (b & Eb). assert (Lb : length b = 5) by (apply (f_equal (@length _)) in Eb; rewrite app_length in Eb; cbn [length] in Eb; lia).
  set (b1 := firstn (6 - k) b). set (b2 := skipn (6 - k) b). assert (Lb1 : length b1 = 6 - k) by (unfold b1; rewrite firstn_length; lia).
  assert (Lb2 : length b2 = k - 1) by (unfold b2; rewrite skipn_length; lia). assert (Ebb : b = b1 ++ b2) by (symmetry; apply firstn_skipn).
  set (t1 := firstn (8 - k) S5). set (t2 := skipn (8 - k) S5). assert (Ett : S5 = t1 ++ t2) by (symmetry; apply firstn_skipn).
  assert (Lt1 : length t1 <= 8 - k /\ t1 <> []).
  { unfold t1. rewrite firstn_length. split; [lia|]. destruct S5; [cbn in L5; lia|]. destruct (8 - k) eqn:K; [lia|]. discriminate. }
  assert (Q : slice 151 160 line = (b2 ++ [c]) ++ space :: t1).
  { rewrite <- Hl. change (slice 151 160 (P ++ [space] ++ S1 ++ [space] ++ S2 ++ [space] ++ S3 ++ [space] ++ S4 ++ [space] ++ S5) = (b2 ++ [c]) ++ space :: t1).
    rewrite Eb, Ebb, Ett.
    replace (P ++ [space] ++ S1 ++ [space] ++ S2 ++ [space] ++ S3 ++ [space] ++ ((b1 ++ b2) ++ [c]) ++ [space] ++ t1 ++ t2)
      with ((P ++ [space] ++ S1 ++ [space] ++ S2 ++ [space] ++ S3 ++ [space] ++ b1) ++ ((b2 ++ [c]) ++ space :: t1) ++ t2) by (rewrite <- !app_assoc; reflexivity).
    apply slice_mid; rewrite ?app_length; cbn [length]; rewrite ?app_length; cbn [length]; try lia.
    unfold t1. rewrite firstn_length. lia. }
  assert (Nw : length (words (slice 151 160 line)) <> 1).
  { rewrite Q, words_two by reflexivity. rewrite app_length.
    assert (A : words (b2 ++ [c]) <> []) by (apply (words_some _ c); [apply in_or_app; right; left; reflexivity|exact Hc]).
    assert (B : words t1 <> []).
    { destruct t1 as [|x t1'] eqn:Et; [tauto|]. apply (words_some _ x); [left; reflexivity|].
      destruct (fixed_token 5 ex ltac:(lia)) as [_ F]. rewrite <- E5', Ett in F. inversion F; auto. }
    destruct (words (b2 ++ [c])), (words t1); try congruence. cbn [length]. lia. }
  assert (Fe : float_strip rd (slice 151 160 line) = None).
  { unfold float_strip. rewrite <- words_strip in Nw. destruct (strip (slice 151 160 line)) as [|x s] eqn:Es.
    - exfalso. assert (Z : words (slice 151 160 line) = []) by (rewrite <- words_strip, Es; reflexivity).
      rewrite Q, words_two in Z by reflexivity. apply app_eq_nil in Z. destruct Z as [Z _].
      revert Z. apply (words_some _ c); [apply in_or_app; right; left; reflexivity|exact Hc].
    - rewrite Ow by exact Nw. reflexivity. }
  unfold read_header. rewrite Fe.
  destruct (char_at 2 line); [cbn [ob]|reflexivity]. destruct (look a0 type_dict); [cbn [ob]|reflexivity].
  destruct (char_at 4 line); [cbn [ob]|reflexivity]. destruct (look a1 method_dict); [cbn [ob]|reflexivity].
  destruct (char_at 5 line); [cbn [ob]|reflexivity]. destruct (float_strip rd (slice 144 151 line)); reflexivity.
Qed.

(** ** locations *)
Lemma rjust_over : forall n s, n <= length s -> rjust n s = s.
Proof. intros n s L. unfold rjust. replace (n - length s) with 0 by lia. reflexivity. Qed.
Lemma token_app : forall a b, token a -> token b -> token (a ++ b).
Proof. intros a b [Na Fa] [Nb Fb]. split; [destruct a; [congruence|discriminate]|apply Forall_app; auto]. Qed.
Lemma words_count : forall x y z, ~ loc_fits (x, y, z) -> length (words (loc_body (x, y, z))) < 3.
Proof.
  intros x y z N. unfold loc_fits in N. unfold loc_body.
  assert (Tx : token (fixed 2 x)) by (apply fixed_token; lia). assert (Ty : token (fixed 2 y)) by (apply fixed_token; lia).
  assert (Tz : token (fixed 2 z)) by (apply fixed_token; lia).
  assert (Pre : forall s, words (rjust 13 (fixed 2 x) ++ s) = words (fixed 2 x ++ s)) by (intro s; unfold rjust; rewrite <- app_assoc; apply words_spaces).
  rewrite Pre. destruct (Nat.le_gt_cases (length (fixed 2 y)) 12) as [A|A].
  - assert (B : 11 <= length (fixed 2 z)) by lia. rewrite (rjust_over 11) by auto. rewrite (rjust_S 12 (fixed 2 y)) by auto.
    rewrite <- app_comm_cons, words_two by reflexivity. unfold rjust. rewrite <- app_assoc, words_spaces.
    rewrite !words_token by (auto using token_app). cbn. lia.
  - rewrite (rjust_over 13 (fixed 2 y)) by lia. rewrite app_assoc.
    destruct (Nat.le_gt_cases (length (fixed 2 z)) 10) as [B|B].
    + rewrite (rjust_S 10) by auto. rewrite words_two, words_rjust by reflexivity. rewrite !words_token by (auto using token_app). cbn. lia.
    + rewrite (rjust_over 11) by lia. rewrite words_token by (auto using token_app). cbn. lia.
Qed.
Theorem location_iff : forall rd q, reads_numbers rd ->
  forall body, rstrip (location_line q) = lit "L:" ++ body ->
  (loc_fits q /\ read_loc rd body = Some (loc_round q)) \/ (~ loc_fits q /\ read_loc rd body = None).
Proof.
  intros rd [[x y] z] Hrd body E.
  assert (Tx : token (fixed 2 x)) by (apply fixed_token; lia).
  assert (Nw : words (loc_body (x, y, z)) <> []).
  { destruct (digits_in 2 x ltac:(lia)) as (a & c & Ea & Hc). apply (words_some _ c); [|exact Hc]. unfold loc_body, rjust. rewrite Ea.
    apply in_or_app. left. apply in_or_app. right. apply in_or_app. right. left. reflexivity. }
  rewrite loc_line, letter_rstrip in E by exact Nw. change (lit "L:" ++ body) with ("L"%char :: colon :: body) in E. injection E as <-.
  assert (D : loc_fits (x, y, z) \/ ~ loc_fits (x, y, z)) by (unfold loc_fits; lia). destruct D as [F|F]; [left|right]; (split; [exact F|]).
  - exact (read_loc_line rd Hrd (x, y, z) F).
  - change (read_loc rd (rstrip (loc_body (x, y, z))) = None). unfold read_loc. rewrite words_rstrip. pose proof (words_count x y z F) as L.
    destruct (words (loc_body (x, y, z))) as [|a [|b [|c [|d r]]]]; try reflexivity. cbn in L. lia.
Qed.
Theorem location_bound : forall x y z, (Rabs y < 10 ^ 8 - 1 -> Rabs z < 10 ^ 6 - 1 -> loc_fits (x, y, z))%R.
Proof.
  intros x y z Hy Hz. unfold loc_fits.
  pose proof (fixed_length 2 8 y ltac:(lia) ltac:(lia)) as A. pose proof (fixed_length 2 6 z ltac:(lia) ltac:(lia)) as B.
  assert (A' := A ltac:(cbn in *; lra)). assert (B' := B ltac:(cbn in *; lra)).
  destruct (Rlt_dec y 0), (Rlt_dec z 0); lia.
Qed.

(** ** targets *)
Lemma line_geometry : forall rd p c l, p_flag p = Targets -> field l "G" -> ~ section_line l -> ~ begins l "!" -> read_line rd p c l = None.
Proof.
  intros rd p c l Fl (fs & Sp) N B. unfold read_line. destruct (words l) as [|l0 lr] eqn:W; [reflexivity|].
  unfold section_line in N. rewrite !(begins_word _ _ _ _ W) in N. rewrite (begins_word _ _ _ _ W) in B.
  destruct (is_word "!" l0); [tauto|]. destruct (is_word "DEPTH" l0); [tauto|]. destruct (is_word "TARGETS:" l0); [tauto|]. destruct (is_word "WELLPLANS:" l0); [tauto|].
  rewrite Fl, Sp. reflexivity.
Qed.
Lemma read_geometry : forall rd b p c g rest, p_flag p = Targets -> Forall (fun l => ~ section_line l) (b ++ [g]) -> field g "G" -> ~ begins g "!" ->
  read_plan rd p c (b ++ g :: rest) = None.
Proof.
  intros rd b. induction b as [|l b IH]; intros p c g rest Fl F G B; cbn [app] in *; inversion F; subst; cbn [read_plan].
  - rewrite line_geometry by auto. reflexivity.
  - destruct (read_line rd p c l) as [[q e|]|] eqn:E; cbn [ob]; [|exfalso; apply line_stop in E; destruct E; congruence|reflexivity].
    destruct (line_flag _ _ _ _ _ _ E) as (l0 & ws & W & Fq). rewrite (flag_other _ _ _ _ W), Fl in Fq by auto. apply IH; auto.
Qed.
Lemma geometry_cut : forall rd a p c t b g rest, begins t "TARGETS:" -> Forall (fun l => ~ section_line l) (b ++ [g]) -> field g "G" -> ~ begins g "!" ->
  read_plan rd p c (a ++ t :: b ++ g :: rest) = None \/
  exists q e a', read_plan rd p c (a ++ t :: b ++ g :: rest) = Some (q, e, a' ++ t :: b ++ g :: rest) /\ a' <> [].
Proof.
  intros rd a. induction a as [|l a IH]; intros p c t b g rest T F G B; cbn [app read_plan].
  - left. destruct T as (ws & W).
    assert (E : read_line rd p c t = Some (Next (set_flag Targets p) c)) by (unfold read_line; rewrite W; reflexivity).
    rewrite E. cbn [ob]. apply read_geometry; auto.
  - destruct (read_line rd p c l) as [[q e|]|]; cbn [ob]; [apply IH; auto| |left; reflexivity].
    right. exists p, c, (l :: a). split; [reflexivity|discriminate].
Qed.
Lemma loop_geometry : forall fuel rd d s c a t b g rest, begins t "TARGETS:" -> Forall (fun l => ~ section_line l) (b ++ [g]) -> field g "G" -> ~ begins g "!" ->
  length (a ++ t :: b ++ g :: rest) < fuel -> load_loop fuel rd d s c (a ++ t :: b ++ g :: rest) = Raised.
Proof.
  induction fuel as [|n IH]; intros rd d s c a t b g rest T F G B L; [lia|]. cbn [load_loop].
  destruct (geometry_cut rd a (fresh d s) c t b g rest T F G B) as [-> | (q & e & a' & E & Na)]; [reflexivity|].
  assert (Ne : a ++ t :: b ++ g :: rest <> []) by (destruct a; discriminate).
  pose proof (read_plan_consumes _ _ _ _ _ _ _ _ Ne E) as Sh. rewrite E.
  destruct a' as [|x a']; [congruence|]. change ((x :: a') ++ t :: b ++ g :: rest) with (x :: a' ++ t :: b ++ g :: rest) in *.
  rewrite (IH _ _ _ _ (x :: a') t b g rest) by (auto; cbn [app] in *; lia). reflexivity.
Qed.
Theorem geometry_raises : forall rd c lines a t b g rest fuel, map rstrip lines = a ++ t :: b ++ g :: rest -> begins t "TARGETS:" ->
  Forall (fun l => ~ section_line l) (b ++ [g]) -> field g "G" -> ~ begins g "!" -> length lines < fuel -> load fuel rd c lines = Raised.
Proof.
  intros rd c lines a t b g rest fuel E T F G B L. unfold load. rewrite E. apply loop_geometry; auto. rewrite <- E, map_length. exact L.
Qed.
Lemma some_inj : forall (A : Type) (x y : A), Some x = Some y -> x = y.
Proof. intros A x y [= E]. exact E. Qed.
(** a target without a colour *)
Theorem colourless : forall rd p ps colours colours' comments c t ts ts' lines fuel, reads_numbers rd -> to_int rd (lit "Non") = None ->
  p_targets p = ts ++ t :: ts' -> Forall target_fits (ts ++ [t]) -> Forall colour_fits colours -> length ts = length colours ->
  export (p :: ps) (colours ++ None :: colours') comments [] = Some lines -> length lines < fuel -> load fuel rd c lines = Raised.
Proof.
  intros rd p ps colours colours' comments c t ts ts' lines fuel Hrd Ni Tp Ft Fc Len H Fu.
  unfold export in H. inv H. inv H. inv H. inv H. inv H. apply some_inj in H.
  rewrite Tp in E2. assert (Cb : combine (ts ++ t :: ts') (colours ++ None :: colours') = combine ts colours ++ (t, None) :: combine ts' colours').
  { clear - Len. revert colours Len. induction ts as [|x ts IH]; intros [|o cs] Len; try discriminate; [reflexivity|]. cbn. rewrite IH by (cbn in Len; lia). reflexivity. }
  rewrite Cb, map_app in E2. cbn [map] in E2.
  assert (Sp : forall u w r, concat_all (u ++ w) = Some r -> exists r1 r2, concat_all u = Some r1 /\ concat_all w = Some r2 /\ r = r1 ++ r2).
  { clear. induction u as [|o u IH]; intros w r H; [exists [], r; auto|]. cbn in H. inv H. inv H. destruct (IH _ _ E0) as (r1 & r2 & A & B & ->).
    injection H as <-. exists (v ++ r1), r2. cbn. rewrite E, A. cbn. rewrite app_assoc. auto. }
  destruct (Sp _ _ _ E2) as (l1 & l2 & A & B & Ev). cbn [concat_all] in B. inv B. inv B. injection B as <-.
  apply Forall_app in Ft. destruct Ft as [Ft Ft1]. inversion Ft1; subst. destruct H2 as (Nc & Nt & q & Hq & Fq). destruct t as [nm o]. cbn [fst snd] in *. subst o.
  unfold target_lines in E4. cbn [fst snd ob show_colour] in E4. apply some_inj in E4. subst v4.
  destruct (unit_keys v v0) as (u & Ku & Lu). rewrite E1 in Ku. injection Ku as <-.
  assert (Tu : token [v1]) by (destruct v, v0; injection E1 as <-; (split; [discriminate|repeat constructor])).
  destruct fuel as [|n]; [lia|]. unfold load. cbn [load_loop]. cbn [map].
  rewrite (read_next _ _ _ _ _ _ _ (line_units rd _ c v v0 v1 E1 Lu Tu)). rewrite map_app, read_comments. rewrite !map_app. cbn [map app].
  erewrite (read_next rd _ _ (rstrip (lit "TARGETS:"))) by reflexivity. rewrite <- !app_assoc.
  rewrite (read_targets rd Hrd ts colours) by (auto; reflexivity).
  cbn [map app]. match goal with |- context [read_plan rd ?p0 ?c0 (rstrip (lit "T:" ++ nm) :: _)] => rewrite (read_next _ _ _ _ _ _ _ (line_target rd p0 c0 nm eq_refl Nc Nt)) end.
  match goal with |- context [read_plan rd ?p0 ?c0 (rstrip (location_line q) :: ?r0)] =>
    erewrite (read_next rd p0 c0 _ r0); [|apply (line_target_loc rd Hrd p0 c0 q (map target_round ts) nm None); [reflexivity|exact Fq|reflexivity]] end.
  cbn [read_plan].
  match goal with |- context [read_line rd ?p0 ?c0 ?l0] => assert (Z : read_line rd p0 c0 l0 = None) end.
  { unfold read_line. change (rstrip (lit "C:" ++ rjust 3 (lit "None"))) with (lit "C:None").
    change (words (lit "C:None")) with [lit "C:None"]. cbv beta iota zeta.
    replace (is_word "!" (lit "C:None")) with false by reflexivity. replace (is_word "DEPTH" (lit "C:None")) with false by reflexivity.
    replace (is_word "TARGETS:" (lit "C:None")) with false by reflexivity. replace (is_word "WELLPLANS:" (lit "C:None")) with false by reflexivity.
    cbn [p_flag set_targets set_flag set_units]. change (split_on colon (lit "C:None")) with [lit "C"; lit "None"]. cbv beta iota zeta.
    replace (is_word "T" (lit "C")) with false by reflexivity. replace (is_word "L" (lit "C")) with false by reflexivity. replace (is_word "C" (lit "C")) with true by reflexivity.
    cbn [p_targets set_targets].
    assert (Rc : forall c0, read_colour rd (lit "C:None") c0 = None).
    { intro c0. unfold read_colour. change (5 <? length (lit "C:None")) with true. cbv iota. change (slice 2 5 (lit "C:None")) with (lit "Non"). rewrite Ni. reflexivity. }
    rewrite Rc. cbn [ob]. match goal with |- match ?l with _ => _ end = _ => destruct l; reflexivity end. }
  rewrite Z. reflexivity.
Qed.
(** ** repeated sections merge plans *)
Definition merged_file : list text := [lit "DEPTH 2"; lit "WELLPLANS:"; lit "W:1200"; lit "WELLPLANS:"; lit "W:2200"].
Theorem merged : forall rd c, load 6 rd c merged_file =
  Plans [mkPlan (Some Meters) (Some Meters) [] (Some (mkHead "ow_sidetrack" "curve_only" (Some "None"%string) None None None None None None)) [] Done true] c.
Proof. intros rd c. reflexivity. Qed.
Theorem merge_refuted : ~ forall rd c lines fuel ps c', load fuel rd c lines = Plans ps c' ->
  length ps = length (filter plan_line (map rstrip lines)).
Proof.
  intros H. set (rd := mkReader (fun _ => None) (fun _ => None)). set (c := mkCell None None).
  specialize (H rd c merged_file 6 _ _ (merged rd c)). discriminate.
Qed.
(** ** strip_duplicates *)
Theorem strip_last : forall rs r s, (row_inc s = row_inc r -> strip_duplicates (rs ++ [r; s]) = strip_duplicates (rs ++ [r])) /\
  (row_inc s <> row_inc r -> strip_duplicates (rs ++ [r; s]) = strip_duplicates (rs ++ [r]) ++ [s]).
Proof.
  intros rs r s. assert (G : exists a b, rs ++ [r] = a :: b /\ last b a = r).
  { destruct rs as [|x rs]; [exists r, []; auto|]. exists x, (rs ++ [r]). split; [reflexivity|apply last_last]. }
  destruct G as (a & b & G & L). replace (rs ++ [r; s]) with (a :: b ++ [s]) by (rewrite app_comm_cons, <- G, <- app_assoc; reflexivity).
  rewrite G. unfold strip_duplicates. fold (strip_fold (b ++ [s]) ([a], a)) (strip_fold b ([a], a)).
  destruct (strip_inv b a) as (k & _ & E & I). rewrite L in I. unfold strip_fold in *. rewrite fold_left_app. cbn [fold_left].
  destruct (fold_left _ b ([a], a)) as [temp lst]. cbn [fst snd] in *.
  destruct (Req_EM_T (row_inc s) (row_inc lst)); cbn [fst]; split; intros; [reflexivity|congruence|congruence|reflexivity].
Qed.
Theorem strip_distinct_refuted : exists a b c : srow, a <> b /\ b <> c /\ a <> c /\ strip_duplicates [a; b; c] = [a].
Proof.
  exists (0, 1, 0, 0)%R, (30, 1, 1, 0)%R, (60, 1, 2, 0)%R.
  split; [intro E; injection E; intros; lra|]. split; [intro E; injection E; intros; lra|]. split; [intro E; injection E; intros; lra|].
  destruct (strip_last [(0, 1, 0, 0)%R] (30, 1, 1, 0)%R (60, 1, 2, 0)%R) as [A _]. cbn [app] in A. rewrite A by reflexivity.
  destruct (strip_last [] (0, 1, 0, 0)%R (30, 1, 1, 0)%R) as [B _]. cbn [app] in B. rewrite B by reflexivity. reflexivity.
Qed.

(** ** a reader and files that meet the hypotheses *)
Definition digitb (c : ascii) : bool := (48 <=? nat_of_ascii c) && (nat_of_ascii c <=? 57).
Lemma digitb_iff : forall s, forallb digitb s = true <-> Forall is_digit s.
Proof.
  intros s. rewrite forallb_forall, Forall_forall. unfold digitb, is_digit. split; intros H c I; specialize (H c I).
  - apply andb_true_iff in H. rewrite !Nat.leb_le in H. exact H.
  - apply andb_true_iff. rewrite !Nat.leb_le. exact H.
Qed.
Definition take_sign (s : text) : bool * text :=
  match s with c :: r => if Ascii.eqb c minus then (true, r) else (false, s) | [] => (false, []) end.
Definition digits_only (s : text) : bool := match s with [] => false | _ => forallb digitb s end.
Lemma digits_only_iff : forall s, digits_only s = true <-> s <> [] /\ Forall is_digit s.
Proof. intros [|c s]; [cbn; split; [discriminate|tauto]|]. unfold digits_only. rewrite digitb_iff. split; [split; [discriminate|auto]|tauto]. Qed.
Definition parse_float (s : text) : option R :=
  let '(neg, u) := take_sign s in
  match split_on dot_char u with
  | [ip; fp] => if (digits_only ip && digits_only fp)%bool
                then Some ((if neg then -1 else 1) * (IZR (digits_value (ip ++ fp)) / 10 ^ length fp))%R else None
  | _ => None
  end.
Definition parse_int (s : text) : option Z :=
  let '(neg, u) := take_sign (strip s) in if digits_only u then Some ((if neg then -1 else 1) * digits_value u)%Z else None.
Definition plain_reader : reader := mkReader parse_float parse_int.
Lemma sign_digit : forall neg ip t, ip <> [] -> Forall is_digit ip -> take_sign ((if (neg : bool) then [minus] else []) ++ ip ++ t) = (neg, ip ++ t).
Proof.
  intros neg [|c ip] t N F; [congruence|]. inversion F; subst. destruct neg; [reflexivity|]. cbn [app take_sign].
  destruct (Ascii.eqb_spec c minus) as [->|]; [destruct H1; cbn in *; lia|reflexivity].
Qed.
Lemma no_dot : forall s, Forall is_digit s -> ~ In dot_char s.
Proof. intros s F I. rewrite Forall_forall in F. apply F in I. destruct I. cbn in *. lia. Qed.
Lemma plain_reads : reads_numbers plain_reader.
Proof.
  split.
  - intros s r (neg & ip & fp & N & N' & F & F' & -> & ->). cbn [to_float plain_reader]. unfold parse_float. rewrite sign_digit by auto.
    change (ip ++ [dot_char] ++ fp) with (ip ++ dot_char :: fp). rewrite split_app, split_none by (apply no_dot; auto).
    rewrite (proj2 (digits_only_iff ip)), (proj2 (digits_only_iff fp)) by auto. reflexivity.
  - intros s z (neg & ip & N & F & E & ->). cbn [to_int plain_reader]. unfold parse_int. rewrite E, <- (app_nil_r ip) at 1. rewrite sign_digit by auto.
    rewrite app_nil_r, (proj2 (digits_only_iff ip)) by auto. reflexivity.
Qed.
Lemma split_join2 : forall sep s a b, split_on sep s = [a; b] -> s = a ++ sep :: b.
Proof.
  intros sep. assert (One : forall s a, split_on sep s = [a] -> s = a).
  { induction s as [|c s IH]; intros a H; cbn in H; [injection H as <-; reflexivity|].
    destruct (Ascii.eqb_spec c sep); [destruct (split_nonempty sep s) as (f & fs & E); rewrite E in H; discriminate|].
    destruct (split_nonempty sep s) as (f & fs & E). rewrite E in *. injection H as <- ->. rewrite (IH f eq_refl) at 1. reflexivity. }
  induction s as [|c s IH]; intros a b H; cbn in H; [discriminate|]. destruct (Ascii.eqb_spec c sep) as [->|].
  - injection H as <- H. cbn. f_equal. apply One. exact H.
  - destruct (split_nonempty sep s) as (f & fs & E). rewrite E in *. injection H as <- ->. cbn. f_equal. apply IH. reflexivity.
Qed.
Lemma plain_one_word : one_word plain_reader.
Proof.
  intros s N. cbn [to_float plain_reader]. unfold parse_float. destruct (take_sign s) as [neg u] eqn:Sg.
  destruct (split_on dot_char u) as [|ip [|fp [|x r]]] eqn:Sp; try reflexivity.
  destruct (digits_only ip && digits_only fp)%bool eqn:D; [|reflexivity]. exfalso. apply N.
  apply andb_true_iff in D. rewrite !digits_only_iff in D. destruct D as [[Ni Fi] [Nf Ff]]. apply split_join2 in Sp.
  assert (Es : s = (if neg then [minus] else []) ++ u).
  { destruct s as [|c s]; unfold take_sign in Sg; [injection Sg as <- <-; reflexivity|]. destruct (Ascii.eqb_spec c minus) as [->|]; injection Sg as <- <-; reflexivity. }
  assert (T : token s).
  { apply (decimal_chars s ((if neg then -1 else 1) * (IZR (digits_value (ip ++ fp)) / 10 ^ length fp))%R).
    exists neg, ip, fp. rewrite Es, Sp. repeat (split; [assumption || reflexivity|]). reflexivity. }
  rewrite words_token by exact T. reflexivity.
Qed.
Definition case_header (name : text) : header :=
  mkHead "surface" "curve_only" (Some "locked_plan"%string) (Some []) (Some name) (Some (lit "parent A")) (Some 3%R) (Some 0%R) None.
Lemma fixed_small : forall d x, 0 < d -> (0 <= x <= 9)%R -> length (fixed d x) <= d + 2.
Proof.
  intros d x D X. assert (P : (1 <= 10 ^ d)%R) by (apply pow_R1_Rle; lra).
  pose proof (fixed_length d 1 x D ltac:(lia)) as H. destruct (Rlt_dec x 0) as [L|_]; [lra|].
  assert (I : (/ 10 ^ d <= 1)%R) by (rewrite <- Rinv_1; apply Rinv_le_contravar; lra).
  specialize (H ltac:(rewrite Rabs_pos_eq by lra; cbn; lra)). lia.
Qed.
Lemma case_header_fits : header_fits (case_header (lit "plan 7")).
Proof.
  constructor; cbn [h_type h_method h_dirty h_sidetrack h_name h_parent h_dls h_ext case_header text_or_blank].
  - right. left. reflexivity.
  - left. reflexivity.
  - eexists. split; [reflexivity|]. right. left. reflexivity.
  - eexists. split; [reflexivity|]. split; [left; reflexivity|cbn; lia].
  - split; [right; split; reflexivity|cbn; lia].
  - split; [right; split; reflexivity|cbn; lia].
  - eexists. split; [reflexivity|]. pose proof (fixed_small 2 3 ltac:(lia) ltac:(lra)). lia.
  - eexists. split; [reflexivity|]. pose proof (fixed_small 5 0 ltac:(lia) ltac:(lra)). lia.
Qed.
Lemma case_header_long : name_too_long 3 (case_header (repeat "a"%char 63)).
Proof.
  split; [|split; [|split; [|split]]].
  - split; [right; left; reflexivity|]. split; [left; reflexivity|]. split; [eexists; split; [reflexivity|right; left; reflexivity]|].
    split; [discriminate|]. split; discriminate.
  - eexists. split; [reflexivity|cbn; lia].
  - eexists. split; reflexivity.
  - cbn. lia.
  - eexists. split; [reflexivity|]. pose proof (fixed_small 2 3 ltac:(lia) ltac:(lra)). lia.
Qed.
Definition case_plan (d s : unit) (ts : list target) : plan :=
  mkPlan (Some d) (Some s) ts (Some (case_header (lit "plan 7")))
    [Turn (mkTurn 0 0 0 0 0 0 0 None None true (Some (451000, 6700000, -25)%R));
     Turn (mkTurn (6000 / 7) 91 (-12) 1 2 3 (-170) None (Some (lit "T1")) false (Some (-100, 6700500, -800)%R));
     Point (mkPoint [1; 2; 3; 4; 5; 6; 7; 8; 9]%R (join [space] [lit "ISCWSA"; lit "MWD"]) (Some (900, 90, 10)%R) (Some (1, 2, 3)%R))] Done false.
Lemma case_plan_fits : forall d s ts, plan_fits (case_plan d s ts).
Proof.
  intros d s ts.
  assert (B : forall x y z, (-(10 ^ 8 - 1) < y < 10 ^ 8 - 1 -> -(10 ^ 6 - 1) < z < 10 ^ 6 - 1 -> loc_fits (x, y, z))%R)
    by (intros; apply location_bound; apply Rabs_def1; lra).
  split; [discriminate|]. split; [discriminate|]. split; [eexists; split; [reflexivity|apply case_header_fits]|].
  split; [|split; [|split; [|exact I]]].
  - split; [reflexivity|]. split; [eexists; split; [reflexivity|apply B; cbn; lra]|split; reflexivity].
  - split; [reflexivity|]. split; [eexists; split; [reflexivity|apply B; cbn; lra]|]. split; [exact I|].
    split; [split; [discriminate|repeat constructor]|]. intros [E|[E|[]]]; discriminate.
  - split; [reflexivity|]. split; [eexists; split; [|reflexivity]|].
    + constructor; [split; [discriminate|repeat constructor]|]. constructor; [split; [discriminate|repeat constructor]|constructor].
    + split; [eexists; reflexivity|]. eexists. split; [reflexivity|apply B; cbn; lra].
Qed.
Definition case_target : target := (lit "Top reservoir", Some (1, 2, -3)%R).
Lemma case_target_fits : target_fits case_target.
Proof.
  split; [intro I; cbn in I; repeat (destruct I as [I|I]; [discriminate|]); destruct I|]. split; [right; reflexivity|].
  eexists. split; [reflexivity|apply location_bound; apply Rabs_def1; cbn; lra].
Qed.
