(** Proofs about the older class for the MWD models. *)
Require Import Reals ZArith Ascii String List Bool Arith Lra Lia.
Require Import Verif.Base Verif.NumPy Verif.M_Error Verif.M_Weights Verif.Spec_Weights Verif.P_Error Verif.P_Error2 Verif.P_Weights6 Verif.P_Weights15.
Require Import Verif.M_Bundle Verif.M_Models Verif.Spec_Models Verif.P_Models Verif.P_Models2 Verif.M_Legacy Verif.Spec_Legacy Verif.P_Weights13.
Import ListNotations.
Local Open Scope R_scope.

Definition plus (a : list M3) (o : outcome) : list M3 := match o with Made e => map2 madd a (er_cov_NEV e) | _ => a end.
Lemma sum_all : forall os t t', existsb fails os = false -> existsb not_finite os = false -> sum_errors t (map made os) = Some t' ->
  t_all t' = fold_left plus os (t_all t).
Proof.
  induction os as [|o os IH]; intros t t' F N H; simpl in *; [congruence|].
  apply orb_false_iff in F. apply orb_false_iff in N. destruct F as [F1 F2], N as [N1 N2].
  destruct o as [e| | |]; try discriminate. simpl in H. rewrite (IH _ _ F2 N2 H). reflexivity.
Qed.
Lemma map2_madd_assoc : forall a b c, map2 madd a (map2 madd b c) = map2 madd (map2 madd a b) c.
Proof.
  unfold map2. induction a as [|x a IH]; intros [|y b] [|z c]; simpl; try reflexivity. rewrite IH, madd_assoc. reflexivity.
Qed.
Lemma map2_madd_comm : forall a b, map2 madd a b = map2 madd b a.
Proof. unfold map2. induction a as [|x a IH]; intros [|y b]; simpl; try reflexivity. rewrite IH, madd_comm. reflexivity. Qed.
Lemma fold_plus : forall os a d, (forall o, In o os -> exists e, o = Made e) -> fold_left plus os (map2 madd a d) = map2 madd (fold_left plus os a) d.
Proof.
  induction os as [|o os IH]; intros a d H; [reflexivity|]. simpl. destruct (H o (or_introl eq_refl)) as [e ->]. simpl.
  rewrite <- map2_madd_assoc, (map2_madd_comm d), map2_madd_assoc. apply IH. intros; apply H; right; auto.
Qed.

(** the two lists of codes: the same but for "global", which makes no difference *)
Definition alike (c c' : code_entry) : Prop :=
  c_name c = c_name c' /\ c_function c = c_function c' /\ c_magnitude c = c_magnitude c' /\
  (c_propagation c = c_propagation c' \/
   c_propagation c = "systematic"%string /\ c_propagation c' = "global"%string /\ lookup (c_function c) simple_weights <> None).
Definition same_cov (o o' : outcome) : Prop := exists e e', o = Made e /\ o' = Made e' /\ er_cov_NEV e = er_cov_NEV e'.
Lemma global_same d code e x : generate_error d code e "global" None = Some x ->
  exists y, generate_error d code e "systematic" None = Some y /\ er_cov_NEV y = er_cov_NEV x.
Proof. unfold generate_error. simpl. intros H. injection H as <-. eexists. split; reflexivity. Qed.
Lemma call_alike az tort b h l c c' e : alike c c' ->
  call_func az tort b h l (c_name c') (c_function c') (c_magnitude c') (c_propagation c') = Made e ->
  exists e', call_func az tort b h l (c_name c) (c_function c) (c_magnitude c) (c_propagation c) = Made e' /\ er_cov_NEV e' = er_cov_NEV e.
Proof.
  intros (A & B & C & D). rewrite A, B, C in *. destruct D as [-> |(-> & -> & N)]; [eauto|].
  unfold call_func. destruct (lookup (c_function c') simple_weights) as [w|]; [|congruence]. unfold simple_error.
  destruct (seq_opt (map (w h) l)) as [d|]; [|discriminate]. intros H.
  destruct (generate_error _ _ _ "global" None) as [x|] eqn:G; [|discriminate]. injection H as <-.
  destruct (global_same _ _ _ _ G) as (y & -> & E). exists y. split; [reflexivity|exact E].
Qed.
Definition legacy_before : list code_entry := firstn 13 legacy_rev5.
Definition legacy_after : list code_entry := skipn 14 legacy_rev5.
Ltac pairs := repeat (apply Forall2_cons; [split; [reflexivity|split; [reflexivity|split; [reflexivity|
  cbn [c_propagation]; first [left; reflexivity | right; split; [reflexivity|split; [reflexivity|discriminate]]]]]]|]); apply Forall2_nil.
Lemma rev4_alike : Forall2 alike legacy_rev4 (tf_codes tool_ISCWSA_MWD_Rev4).
Proof.
  cbv [legacy_rev4 legacy_before legacy_after legacy_rev5 tf_codes tool_ISCWSA_MWD_Rev4 tool_ISCWSA_MWD_Rev5_11 firstn skipn]. pairs.
Qed.
Lemma rev5_before : Forall2 alike legacy_before (firstn 13 (tf_codes tool_ISCWSA_MWD_Rev5_11)).
Proof.
  cbv [legacy_rev4 legacy_before legacy_after legacy_rev5 tf_codes tool_ISCWSA_MWD_Rev4 tool_ISCWSA_MWD_Rev5_11 firstn skipn]. pairs.
Qed.
Lemma rev5_after : Forall2 alike legacy_after (skipn 14 (tf_codes tool_ISCWSA_MWD_Rev5_11)).
Proof.
  cbv [legacy_rev4 legacy_before legacy_after legacy_rev5 tf_codes tool_ISCWSA_MWD_Rev4 tool_ISCWSA_MWD_Rev5_11 firstn skipn]. pairs.
Qed.
Lemma legacy_split : legacy_rev5 = legacy_before ++ mkCode "DEC-OH" "AZ" 0.003490658503988659 "systematic" :: legacy_after.
Proof. reflexivity. Qed.
Lemma rev5_split : tf_codes tool_ISCWSA_MWD_Rev5_11 = firstn 13 (tf_codes tool_ISCWSA_MWD_Rev5_11) ++
  mkCode "DEC-OH" "AZ" 0.003665191429188092 "global" :: skipn 14 (tf_codes tool_ISCWSA_MWD_Rev5_11).
Proof. reflexivity. Qed.

(** ** the rule for the second station *)
Lemma replace_second h s0 s1 l e x rows : is_sing h s1 = false -> replace_sing h (s0 :: s1 :: l) e (set_nth 1 x rows) = replace_sing h (s0 :: s1 :: l) e rows.
Proof.
  intros N. destruct e as [|a [|b e]]; destruct rows as [|r0 [|r1 rows]]; simpl; try reflexivity. rewrite N. reflexivity.
Qed.
Lemma ab_unspecial w b h l code mag p e : match l with _ :: s1 :: _ => is_sing h s1 = false | _ => True end ->
  ab_error w true b h l code mag p = Made e -> ab_error w false b h l code mag p = Made e.
Proof.
  intros N. unfold ab_error. destruct (existsb (is_sing h) l); [|auto]. simpl.
  destruct (Nat.ltb (length l) 3) eqn:L; [discriminate|]. destruct (Req_EM_T (h_G h) 0); [auto|].
  destruct l as [|s0 [|s1 l]]; try discriminate L. unfold sing_error.
  destruct (seq_opt (map (w h) (s0 :: s1 :: l))) as [d|]; [|auto]. unfold ab_sing, ab_star.
  rewrite !(replace_second h s0 s1 l) by exact N. auto.
Qed.

Definition legacy_name (name : string) (b : bool) : Prop := is_rev4 name = b /\ named_rev5 (unalias name) = false.
Lemma legacy_alike az tort name b h l c c' e : legacy_name name b -> alike c c' -> In (c_function c) legacy_functions ->
  (tort = None -> c_function c <> "XCL"%string) ->
  match l with _ :: s1 :: _ => b = false -> is_sing h s1 = false | _ => True end ->
  call_func az (match tort with Some t => t | None => 0 end) b h l (c_name c') (c_function c') (c_magnitude c') (c_propagation c') = Made e ->
  exists e', legacy_func az tort name h l c = Made e' /\ er_cov_NEV e' = er_cov_NEV e.
Proof.
  intros [NB NN] A F X V H. destruct (call_alike _ _ _ _ _ _ _ _ A H) as (e' & H' & E).
  unfold legacy_func. replace (existsb (String.eqb (c_function c)) legacy_functions) with true.
  2: { symmetry. apply existsb_exists. exists (c_function c). split; [exact F|apply String.eqb_refl]. }
  destruct (String.eqb_spec (c_function c) "ABXY_TI2") as [Q|Q].
  - rewrite NB, NN. rewrite Q in H'. change (ABXY_TI2 b h l (c_name c) (c_magnitude c) (c_propagation c) = Made e') in H'.
    unfold ABXY_TI2 in H'. exists e'. split; [|exact E]. destruct b; [exact H'|]. apply ab_unspecial; [|exact H'].
    destruct l as [|s0 [|s1 l]]; auto.
  - rewrite NB. exists e'. split; [|exact E]. destruct tort as [t|]; [exact H'|].
    destruct (String.eqb_spec (c_function c) "XCL") as [Z|Z]; [elim (X eq_refl Z)|exact H'].
Qed.
Lemma legacy_covers : forallb (fun c => existsb (String.eqb (c_function c)) legacy_functions) (legacy_rev4 ++ legacy_rev5) = true.
Proof. reflexivity. Qed.
Lemma legacy_known c : In c legacy_rev4 \/ In c legacy_rev5 -> In (c_function c) legacy_functions.
Proof.
  intros I. pose proof legacy_covers as W. rewrite forallb_forall in W. specialize (W c (in_or_app _ _ _ I)).
  apply existsb_exists in W. destruct W as (x & J & E). apply String.eqb_eq in E. rewrite E. exact J.
Qed.
Lemma rev4_no_xcl c : In c legacy_rev4 -> c_function c <> "XCL"%string.
Proof.
  intros I E. assert (W : forallb (fun c => negb (String.eqb (c_function c) "XCL")) legacy_rev4 = true) by reflexivity.
  rewrite forallb_forall in W. specialize (W c I). rewrite E in W. discriminate.
Qed.

(** lists of codes that give the same covariances *)
Lemma legacy_list az tort name b h l cs cs' : legacy_name name b -> Forall2 alike cs cs' ->
  (forall c, In c cs -> In (c_function c) legacy_functions) -> (tort = None -> forall c, In c cs -> c_function c <> "XCL"%string) ->
  match l with _ :: s1 :: _ => b = false -> is_sing h s1 = false | _ => True end ->
  (forall c, In c cs' -> exists e, call_func az (match tort with Some t => t | None => 0 end) b h l (c_name c) (c_function c) (c_magnitude c) (c_propagation c) = Made e) ->
  (forall o, In o (map (legacy_func az tort name h l) cs) -> exists e, o = Made e) /\
  forall a, fold_left plus (map (legacy_func az tort name h l) cs) a =
    fold_left plus (map (fun c => call_func az (match tort with Some t => t | None => 0 end) b h l (c_name c) (c_function c) (c_magnitude c) (c_propagation c)) cs') a.
Proof.
  intros N F. induction F as [|c c' cs cs' A F IH]; intros K X V H; [split; [intros o []|reflexivity]|].
  destruct (H c' (or_introl eq_refl)) as [e E].
  destruct (legacy_alike az tort name b h l c c' e N A (K c (or_introl eq_refl)) (fun T => X T c (or_introl eq_refl)) V E) as (e' & E' & Q).
  destruct IH as [I1 I2];
    [intros c0 I0; apply K; right; exact I0 | intros T c0 I0; apply (X T); right; exact I0 | exact V | intros c0 I0; apply H; right; exact I0 |].
  split.
  - intros o [<-|I]; [eauto|apply I1, I].
  - intros a. simpl. rewrite E, E'. simpl. rewrite Q. apply I2.
Qed.
Lemma all_made_fails os : (forall o, In o os -> exists e, o = Made e) -> existsb fails os = false /\ existsb not_finite os = false.
Proof.
  intros H. split; apply Bool.not_true_iff_false; intros E; apply existsb_exists in E; destruct E as (o & I & E); destruct (H o I) as [e ->]; discriminate.
Qed.
Lemma yaml_all az tort mi b h l codes t : yaml_tool_error az tort mi b h l codes = Totals t ->
  (forall c, In c codes -> exists e, call_func az tort b h l (c_name c) (c_function c) (c_magnitude c) (c_propagation c) = Made e) /\
  t_all t = fold_left plus (map (fun c => call_func az tort b h l (c_name c) (c_function c) (c_magnitude c) (c_propagation c)) codes) (zeros (length l)).
Proof.
  intros H. pose proof (proj1 (yaml_iff az tort mi b h l codes) (ex_intro _ t H)) as [_ M]. split; [exact M|].
  unfold yaml_tool_error in H. match type of H with (if ?b then _ else _) = _ => destruct b; [|discriminate] end.
  destruct (existsb fails _) eqn:F; [discriminate|]. destruct (existsb not_finite _) eqn:G; [discriminate|].
  unfold tool_totals in H. destruct (sum_errors _ _) as [t'|] eqn:S1; [|discriminate]. injection H as <-.
  rewrite (sum_all _ _ _ F G S1). reflexivity.
Qed.

Lemma legacy_made az name model h l tort codes : legacy_model model = Some (tort, codes) ->
  (forall o, In o (map (legacy_func az tort name h l) codes) -> exists e, o = Made e) ->
  iscwsa_mwd az name model h l = Covs (fold_left plus (map (legacy_func az tort name h l) codes) (zeros (length l))).
Proof. intros E A. unfold iscwsa_mwd. rewrite E. destruct (all_made_fails _ A) as [-> ->]. reflexivity. Qed.
Lemma fold_split (f : code_entry -> outcome) a c b z :
  fold_left plus (map f (a ++ c :: b)) z = fold_left plus (map f b) (plus (fold_left plus (map f a) z) (f c)).
Proof. rewrite map_app, fold_left_app. reflexivity. Qed.
Lemma rev4_opened tree rates az h l t : error_model tree rates az h l "ISCWSA MWD Rev4" = Totals t ->
  yaml_tool_error az 0 (Some (180 * (PI / 180))) true h l (tf_codes tool_ISCWSA_MWD_Rev4) = Totals t.
Proof.
  unfold error_model. assert (O : open_model tree "ISCWSA MWD Rev4" = Yaml tool_ISCWSA_MWD_Rev4) by reflexivity. rewrite O.
  replace (is_rev4 "ISCWSA MWD Rev4") with true by reflexivity. unfold yaml_model_error.
  replace (tortuosity_of (tf_tort tool_ISCWSA_MWD_Rev4)) with (@None R) by reflexivity.
  replace (existsb _ (tf_codes tool_ISCWSA_MWD_Rev4)) with false by reflexivity. auto.
Qed.
Lemma rev5_opened tree rates az h l t name : rev5_name name -> error_model tree rates az h l name = Totals t ->
  yaml_tool_error az 0.000572615 (Some (180 * (PI / 180))) false h l (tf_codes tool_ISCWSA_MWD_Rev5_11) = Totals t.
Proof.
  intros [-> | ->]; unfold error_model;
  (match goal with |- context [open_model ?a ?b] => assert (O : open_model a b = Yaml tool_ISCWSA_MWD_Rev5_11) by reflexivity end; rewrite O; clear O);
  (match goal with |- context [is_rev4 ?b] => replace (is_rev4 b) with false by reflexivity end); unfold yaml_model_error; auto.
Qed.

(** Rev4: the same covariances *)
Lemma legacy_same_rev4 tree rates az h l t : error_model tree rates az h l "ISCWSA MWD Rev4" = Totals t ->
  iscwsa_mwd az "ISCWSA MWD Rev4" "iscwsa_mwd_rev4" h l = Covs (t_all t).
Proof.
  intros H. apply rev4_opened in H. destruct (yaml_all _ _ _ _ _ _ _ _ H) as [M T].
  destruct (legacy_list az None "ISCWSA MWD Rev4" true h l legacy_rev4 (tf_codes tool_ISCWSA_MWD_Rev4)) as [A B].
  - split; reflexivity.
  - exact rev4_alike.
  - intros; apply legacy_known; auto.
  - intros _ c I. apply rev4_no_xcl, I.
  - destruct l as [|? [|? ?]]; auto; discriminate.
  - exact M.
  - rewrite (legacy_made az "ISCWSA MWD Rev4" "iscwsa_mwd_rev4" h l None legacy_rev4 eq_refl A), T. f_equal. apply B.
Qed.

(** Rev5: the declination term is smaller *)
Lemma dec_terms az name b h l e : legacy_name name b ->
  call_func az 0.000572615 b h l "DEC-OH" "AZ" 0.003665191429188092 "global" = Made e ->
  exists e', legacy_func az (Some 0.000572615) name h l (mkCode "DEC-OH" "AZ" 0.003490658503988659 "systematic") = Made e' /\
    er_cov_NEV e' = map (mscale (dec_ratio * dec_ratio)) (er_cov_NEV e).
Proof.
  intros [NB NN] H. unfold legacy_func. cbn [c_function c_name c_magnitude c_propagation].
  replace (existsb (String.eqb "AZ") legacy_functions) with true by reflexivity.
  replace (String.eqb "AZ" "ABXY_TI2") with false by reflexivity. rewrite NB.
  change (simple_error w_AZ b h l "DEC-OH" 0.003665191429188092 "global" = Made e) in H.
  change (exists e', simple_error w_AZ b h l "DEC-OH" 0.003490658503988659 "systematic" = Made e' /\
    er_cov_NEV e' = map (mscale (dec_ratio * dec_ratio)) (er_cov_NEV e)).
  unfold simple_error in *. destruct (seq_opt (map (w_AZ h) l)) as [d|]; [|discriminate].
  destruct (generate_error _ _ _ "global" None) as [x|] eqn:G; [|discriminate]. injection H as <-.
  destruct (magnitude_scale _ _ _ _ dec_ratio _ G) as (y & Y & C).
  replace (map (vscale dec_ratio) (map (vscale 0.003665191429188092) d)) with (map (vscale 0.003490658503988659) d) in Y.
  2: { rewrite map_map. apply map_ext. intros v.
    assert (D : dec_ratio * 0.003665191429188092 = 0.003490658503988659) by (unfold dec_ratio; field; lra).
    unfold vscale; simpl; rewrite <- !Rmult_assoc, D. reflexivity. }
  destruct (global_same _ _ _ _ Y) as (z & Z & E). rewrite Z. exists z. split; [reflexivity|]. rewrite E. exact C.
Qed.
Lemma split_scaled k l : l = map2 madd (map (mscale k) l) (map (mscale (1 - k)) l).
Proof.
  unfold map2. induction l as [|m l IH]; [reflexivity|]. simpl. rewrite <- IH. f_equal.
  destruct m as [[a b c] [d e f] [g h i]]. unfold madd, mscale, vadd, vscale; simpl. repeat f_equal; ring.
Qed.
Lemma legacy_rev5_less tree rates az h l t name : rev5_name name -> error_model tree rates az h l name = Totals t ->
  match l with _ :: s1 :: _ => is_sing h s1 = false | _ => True end ->
  exists covs e, iscwsa_mwd az name "iscwsa_mwd_rev5" h l = Covs covs /\
    call_func az 0.000572615 false h l "DEC-OH" "AZ" 0.003665191429188092 "global" = Made e /\
    t_all t = map2 madd covs (map (mscale (1 - dec_ratio * dec_ratio)) (er_cov_NEV e)).
Proof.
  intros N H V. apply (rev5_opened _ _ _ _ _ _ _ N) in H. destruct (yaml_all _ _ _ _ _ _ _ _ H) as [M T].
  assert (LN : legacy_name name false) by (destruct N as [-> | ->]; split; reflexivity).
  rewrite rev5_split in M, T.
  assert (V' : match l with _ :: s1 :: _ => false = false -> is_sing h s1 = false | _ => True end) by (destruct l as [|? [|? ?]]; auto).
  destruct (legacy_list az (Some 0.000572615) name false h l legacy_before (firstn 13 (tf_codes tool_ISCWSA_MWD_Rev5_11)) LN rev5_before) as [A1 B1];
    [intros c I; apply legacy_known; right; rewrite legacy_split; apply in_or_app; auto | discriminate | exact V'
    | intros c I; apply M; apply in_or_app; left; exact I |].
  destruct (legacy_list az (Some 0.000572615) name false h l legacy_after (skipn 14 (tf_codes tool_ISCWSA_MWD_Rev5_11)) LN rev5_after) as [A2 B2];
    [intros c I; apply legacy_known; right; rewrite legacy_split; apply in_or_app; right; right; exact I | discriminate | exact V'
    | intros c I; apply M; apply in_or_app; right; right; exact I |].
  destruct (M (mkCode "DEC-OH" "AZ" 0.003665191429188092 "global")) as [e E]; [apply in_or_app; right; left; reflexivity|].
  cbn [c_name c_function c_magnitude c_propagation] in E.
  destruct (dec_terms az name false h l e LN E) as (e' & E' & C).
  assert (A : forall o, In o (map (legacy_func az (Some 0.000572615) name h l) legacy_rev5) -> exists e, o = Made e).
  { intros o I. rewrite legacy_split, map_app in I. apply in_app_or in I. destruct I as [I|[I|I]]; [apply A1, I|rewrite <- I, E'; eauto|apply A2, I]. }
  exists (fold_left plus (map (legacy_func az (Some 0.000572615) name h l) legacy_rev5) (zeros (length l))). exists e.
  split; [exact (legacy_made az name "iscwsa_mwd_rev5" h l _ _ eq_refl A)|]. split; [exact E|].
  rewrite T, legacy_split, !fold_split, E'. clear A M T.
  match goal with |- fold_left plus ?x (plus ?a ?o) = _ => replace o with (Made e) end.
  rewrite <- B1, <- B2. unfold plus at 2. unfold plus at 4. rewrite C, <- (fold_plus _ _ _ A2). f_equal.
  rewrite <- map2_madd_assoc. f_equal. apply split_scaled.
Qed.

(** ** a vertical second station *)
Lemma set_nth_at {A} (x : A) a b r : set_nth 1 x (a :: b :: r) = a :: x :: r.
Proof. reflexivity. Qed.
Lemma replace_at h : forall l e r k, (length e = length l)%nat -> (length r = length l)%nat ->
  nth_error (replace_sing h l e r) k = match nth_error l k with Some s => if is_sing h s then nth_error r k else nth_error e k | None => None end.
Proof.
  induction l as [|s l IH]; intros e r k E R1.
  - destruct k; reflexivity.
  - destruct e as [|a e]; [discriminate|]. destruct r as [|b r]; [discriminate|]. destruct k as [|k]; simpl; [destruct (is_sing h s); reflexivity|].
    apply IH; simpl in *; lia.
Qed.
Lemma triple_length {A B} (f : A -> A -> A -> B) : forall l, length (triplewise f l) = (length l - 2)%nat.
Proof.
  induction l as [|a l IH]; [reflexivity|]. destruct l as [|b [|c l]]; [reflexivity|reflexivity|].
  change (triplewise f (a :: b :: c :: l)) with (f a b c :: triplewise f (b :: c :: l)). cbn [length] in *. rewrite IH. lia.
Qed.
Lemma vstacked_length f l : (2 <= length l)%nat -> length (vstacked f l) = length l.
Proof. intros H. unfold vstacked. cbn [length]. rewrite app_length, triple_length. simpl. lia. Qed.
Lemma replaced_second h s0 s1 s2 l e f x : is_sing h s1 = true -> (length e = 3 + length l)%nat ->
  replace_sing h (s0 :: s1 :: s2 :: l) e (set_nth 1 x (vstacked f (s0 :: s1 :: s2 :: l)))
  = match replace_sing h (s0 :: s1 :: s2 :: l) e (vstacked f (s0 :: s1 :: s2 :: l)) with a :: _ :: r => a :: x :: r | o => o end.
Proof.
  intros S1 E. destruct e as [|e0 [|e1 e]]; try discriminate E. unfold vstacked. simpl triplewise. cbn [app]. rewrite set_nth_at.
  cbn [replace_sing]. rewrite S1. reflexivity.
Qed.
Lemma given_fields d code eD p e es x : generate_error d code eD p (Some (e, es)) = Some x -> er_e_NEV x = e /\ er_e_NEV_star x = es.
Proof.
  unfold generate_error. destruct (_ || _ || _)%bool; [intros H; injection H as <-; auto|]. destruct (p =? "random")%string; [|discriminate].
  intros H; injection H as <-; auto.
Qed.
Lemma given_total d code eD p g g' x : generate_error d code eD p (Some g) = Some x -> exists y, generate_error d code eD p (Some g') = Some y.
Proof.
  unfold generate_error. destruct g as [a b], g' as [a' b']. destruct (_ || _ || _)%bool; [eauto|]. destruct (p =? "random")%string; [eauto|discriminate].
Qed.
Lemma e_NEV_len d e : length d = length e -> length (e_NEV d e) = length e /\ length (e_NEV_star d e) = length e.
Proof.
  intros H. unfold e_NEV, e_NEV_star. assert (Z : forall l, length (zero_first l) = length l) by (intros [|? ?]; reflexivity).
  rewrite !Z, !map2_length by exact H. auto.
Qed.
Lemma legacy_second_vertical az tort tort' name h l s0 s code mag p e : rev5_name name -> nth_error l 0 = Some s0 -> nth_error l 1 = Some s ->
  vertical h s -> call_func az tort false h l code "ABXY_TI2" mag p = Made e ->
  exists e', legacy_func az tort' name h l (mkCode code "ABXY_TI2" mag p) = Made e' /\
    let d := mkV 0 ((w_md s - w_md s0) / 2 * mag * cos (w_azt s) / h_G h) 0 in
    (exists v, nth_error (er_e_NEV e') 1 = Some v /\ nth_error (er_e_NEV e) 1 = Some (vadd v d)) /\
    (exists v, nth_error (er_e_NEV_star e') 1 = Some v /\ nth_error (er_e_NEV_star e) 1 = Some (vadd v d)) /\
    forall k, k <> 1%nat -> nth_error (er_e_NEV e') k = nth_error (er_e_NEV e) k /\ nth_error (er_e_NEV_star e') k = nth_error (er_e_NEV_star e) k.
Proof.
  intros N H0 H1 V H. apply is_sing_iff in V.
  assert (LN : legacy_name name false) by (destruct N as [-> | ->]; split; reflexivity). destruct LN as [NB NN].
  change (ABXY_TI2 false h l code mag p = Made e) in H.
  assert (Q : legacy_func az tort' name h l (mkCode code "ABXY_TI2" mag p) = ab_error w_ABXY_TI2 false false h l code mag p).
  { unfold legacy_func. cbn [c_function c_name c_magnitude c_propagation].
    replace (existsb (String.eqb "ABXY_TI2") legacy_functions) with true by reflexivity. rewrite String.eqb_refl, NB, NN. reflexivity. }
  rewrite Q. clear Q. unfold ABXY_TI2, ab_error in *.
  assert (X : existsb (is_sing h) l = true) by (apply existsb_exists; exists s; split; [apply (nth_error_In _ _ H1)|exact V]).
  rewrite X in *. cbn [negb andb] in *. destruct (Nat.ltb (length l) 3) eqn:L; [discriminate|].
  destruct (Req_EM_T (h_G h) 0) as [|G]; [discriminate|].
  destruct l as [|a [|b [|c l]]]; try discriminate L. injection H0 as ->. injection H1 as ->.
  unfold sing_error in *. destruct (seq_opt (map (w_ABXY_TI2 h) (s0 :: s :: c :: l))) as [dp|] eqn:DP; [|discriminate]. rewrite X in *.
  cbv zeta in *. unfold given_error in *.
  assert (LD : length (map (vscale mag) dp) = (3 + length l)%nat).
  { rewrite map_length. destruct (seq_opt_nth _ _ _ DP) as [Q _]. rewrite Q, map_length. reflexivity. }
  assert (LR : length (drdp false (map survey_rad (s0 :: s :: c :: l))) = length (map (vscale mag) dp)).
  { rewrite LD, drdp_length, map_length; [reflexivity|simpl; lia]. }
  destruct (e_NEV_len _ _ LR) as [L1 L2]. rewrite LD in L1, L2.
  destruct (generate_error _ _ _ _ _) as [x|] eqn:GE in H; [|discriminate]. injection H as <-.
  destruct (given_fields _ _ _ _ _ _ _ GE) as [F1 F2].
  edestruct (given_total _ _ _ _ _ (replace_sing h (s0 :: s :: c :: l) (e_NEV (drdp false (map survey_rad (s0 :: s :: c :: l))) (map (vscale mag) dp))
     (ab_sing h (s0 :: s :: c :: l) mag false),
     replace_sing h (s0 :: s :: c :: l) (e_NEV_star (drdp false (map survey_rad (s0 :: s :: c :: l))) (map (vscale mag) dp))
     (ab_star h (s0 :: s :: c :: l) mag false)) _ GE) as [y Y].
  rewrite Y. exists y. split; [reflexivity|]. cbv zeta. destruct (given_fields _ _ _ _ _ _ _ Y) as [K1 K2].
  rewrite F1, F2, K1, K2. unfold ab_sing, ab_star. rewrite !replaced_second by assumption.
  remember (e_NEV (drdp false (map survey_rad (s0 :: s :: c :: l))) (map (vscale mag) dp)) as E1 eqn:Z1. clear Z1.
  remember (e_NEV_star (drdp false (map survey_rad (s0 :: s :: c :: l))) (map (vscale mag) dp)) as E2 eqn:Z2. clear Z2.
  clear F1 F2 K1 K2 Y GE LR LD DP.
  destruct E1 as [|p0 [|p1 E1]]; try discriminate L1. destruct E2 as [|q0 [|q1 E2]]; try discriminate L2.
  unfold vstacked. cbn [triplewise app replace_sing nth]. rewrite V.
  split; [|split].
  - eexists. split; [reflexivity|]. cbn [nth_error]. f_equal. unfold vadd, md_of; simpl. f_equal; field; exact G.
  - eexists. split; [reflexivity|]. cbn [nth_error]. f_equal. unfold vadd, md_of; simpl. f_equal; field; exact G.
  - intros [|[|k]] K; [split; reflexivity|congruence|split; reflexivity].
Qed.

(** a straight hole at one radian *)
Definition slant : list wstation := [mkWS 0 1 0 0 0 0; mkWS 100 1 0 0 0 54; mkWS 200 1 0 0 0 108].
Lemma slant_usable name : regular_model name -> ~ axial_model name -> ~ In name ["BLIND"; "BLIND_Fl"; "UNKNOWN"; "UNKNOWN_Fl"]%string ->
  exists t, error_model [] (fun _ _ => None) "grid" plumb slant name = Totals t.
Proof.
  intros RM AX BL. pose proof PI2_3_2 as P3. unfold PI2 in P3.
  assert (RS : regular_survey plumb slant).
  { split; [exact slanted_sensible|]. split; [unfold plumb; cbn; lra|]. split; [cbn; lia|].
    intros s [<-|[<-|[<-|[]]]]; cbn; lra. }
  apply usable_iff; [exact RM|exact RS|]. split; [intros s [<-|[<-|[<-|[]]]]; cbn; lra|]. split; [contradiction|].
  split; [|contradiction]. intros _ k a b Ha Hb; destruct k as [|[|[|[|k]]]]; cbn in Ha, Hb; try discriminate; injection Ha as <-; injection Hb as <-; cbn; lra.
Qed.
Lemma rev4_regular : regular_model "ISCWSA MWD Rev4" /\ ~ axial_model "ISCWSA MWD Rev4" /\ ~ In "ISCWSA MWD Rev4"%string ["BLIND"; "BLIND_Fl"; "UNKNOWN"; "UNKNOWN_Fl"]%string.
Proof.
  split; [split; [left; apply mem_iff; vm_compute; reflexivity|split; [|split]; cbn; intuition discriminate]|].
  split; [intros A; apply A; reflexivity|cbn; intuition discriminate].
Qed.
Lemma rev5_regular : regular_model "ISCWSA MWD Rev5.11" /\ ~ axial_model "ISCWSA MWD Rev5.11" /\ ~ In "ISCWSA MWD Rev5.11"%string ["BLIND"; "BLIND_Fl"; "UNKNOWN"; "UNKNOWN_Fl"]%string.
Proof.
  split; [split; [left; apply mem_iff; vm_compute; reflexivity|split; [|split]; cbn; intuition discriminate]|].
  split; [intros A; apply A; reflexivity|cbn; intuition discriminate].
Qed.
Lemma legacy_rev5_differs : exists h l t covs, error_model [] (fun _ _ => None) "grid" h l "ISCWSA MWD Rev5.11" = Totals t /\
  iscwsa_mwd "grid" "ISCWSA MWD Rev5.11" "iscwsa_mwd_rev5" h l = Covs covs /\ covs <> t_all t.
Proof.
  destruct rev5_regular as (RM & AX & BL). destruct (slant_usable _ RM AX BL) as [t T].
  destruct (legacy_rev5_less _ _ _ _ _ _ _ (or_introl eq_refl) T) as (covs & e & C & E & D).
  { unfold slant, is_sing, plumb; simpl. destruct (Rlt_dec 1 _); [exfalso; lra|reflexivity]. }
  pose proof (rev5_opened _ _ _ _ _ _ _ (or_introl eq_refl) T) as O.
  assert (L : (0 < length slant)%nat) by (simpl; lia).
  destruct (yaml_totals _ _ _ _ _ _ _ _ L O) as (? & errs & ? & K).
  assert (L1 : (1 < length slant)%nat) by (simpl; lia). destruct (K 1%nat L1) as (a & ? & ? & ? & ? & A & _). clear K O L1.
  exists plumb, slant, t, covs. split; [exact T|]. split; [exact C|]. intros Q. rewrite <- Q in D, A. clear Q C T t RM AX BL.
  change (simple_error w_AZ false plumb slant "DEC-OH" 0.003665191429188092 "global" = Made e) in E.
  unfold simple_error in E. cbn [map seq_opt w_AZ slant] in E.
  unfold generate_error in E. cbn [String.eqb Ascii.eqb Bool.eqb orb of_generate] in E. injection E as <-.
  cbn [er_cov_NEV] in D. apply (f_equal (fun l => nth_error l 1)) in D. revert D.
  destruct covs as [|c0 [|c1 covs]]; [discriminate|discriminate|]. clear A. unfold map2. cbn [map combine nth_error].
  intros D. injection D as D. apply (f_equal (fun m => vy (r2 m))) in D. revert D.
  destruct c1 as [[p11 p12 p13] [p21 p22 p23] [p31 p32 p33]].
  cbv [M_Utils.cov_from_vec outer mscale vscale madd vadd e_NEV_star_row r1 r2 r3 vx vy vz vzero d_depth d_inc d_az half_dmd survey_rad M_Utils.st_md M_Utils.st_inc M_Utils.st_azi w_md w_inc w_azm w_azt w_azg w_tvd drdp_dc drdp_az_at].
  rewrite sin_0, cos_0. intros D.
  assert (S1 : 0 < sin 1) by (apply sin_gt_0; [lra|pose proof PI2_3_2 as P3; unfold PI2 in P3; lra]).
  assert (DR : 1 - dec_ratio * dec_ratio > 0). { unfold dec_ratio. assert (W : 0.003490658503988659 / 0.003665191429188092 < 1) by (apply (Rmult_lt_reg_r 0.003665191429188092); [lra|field_simplify; lra]).
    assert (0 < 0.003490658503988659 / 0.003665191429188092) by (apply Rdiv_lt_0_compat; lra). nra. }
  clear - D S1 DR. set (m := 0.003665191429188092) in *. assert (M : m > 0) by (unfold m; lra). clearbody m.
  assert (Q : (1 - dec_ratio * dec_ratio) * ((m * 50 * sin 1) * (m * 50 * sin 1)) = 0) by lra.
  assert (0 < m * 50 * sin 1) by (apply Rmult_lt_0_compat; lra).
  assert (0 < (1 - dec_ratio * dec_ratio) * ((m * 50 * sin 1) * (m * 50 * sin 1))) by (apply Rmult_lt_0_compat; [lra|apply Rmult_lt_0_compat; assumption]). lra.
Qed.
(** the statement with the station named *)
Lemma legacy_rev5_declination : forall tree rates az h l t name, rev5_name name -> error_model tree rates az h l name = Totals t ->
  (forall s, nth_error l 1 = Some s -> ~ vertical h s) ->
  exists covs e, iscwsa_mwd az name "iscwsa_mwd_rev5" h l = Covs covs /\
    call_func az 0.000572615 false h l "DEC-OH" "AZ" 0.003665191429188092 "global" = Made e /\
    t_all t = map2 madd covs (map (mscale (1 - dec_ratio * dec_ratio)) (er_cov_NEV e)).
Proof.
  intros tree rates az h l t name N H V. apply (legacy_rev5_less tree rates); auto. destruct l as [|s0 [|s1 l]]; auto.
  destruct (is_sing h s1) eqn:E; [|reflexivity]. apply is_sing_iff in E. exfalso. exact (V s1 eq_refl E).
Qed.
Lemma legacy_other_model az name model h l : model <> "iscwsa_mwd_rev4"%string -> model <> "iscwsa_mwd_rev5"%string ->
  iscwsa_mwd az name model h l = LegacyRaise.
Proof.
  intros A B. unfold iscwsa_mwd, legacy_model. apply String.eqb_neq in A, B. rewrite ?A, ?B. reflexivity.
Qed.
(** a vertical hole *)
Definition plunge : list wstation := [mkWS 0 0 0 0 0 0; mkWS 100 0 0 0 0 100; mkWS 200 0 0 0 0 200].
Lemma plunge_error : exists e, call_func "grid" 0.000572615 false plumb plunge "ABXY-TI2S" "ABXY_TI2" 0.002 "systematic" = Made e.
Proof.
  change (exists e, ABXY_TI2 false plumb plunge "ABXY-TI2S" 0.002 "systematic" = Made e).
  unfold ABXY_TI2, ab_error.
  assert (X : existsb (is_sing plumb) plunge = true).
  { unfold plunge, is_sing, plumb; simpl. destruct (Rlt_dec 0 _); [reflexivity|exfalso; lra]. }
  rewrite X. cbn [negb andb length plunge Nat.ltb Nat.leb]. destruct (Req_EM_T (h_G plumb) 0) as [Z|_]; [exfalso; unfold plumb in Z; simpl in Z; lra|].
  apply sing_ok; [right; left; reflexivity|intros s; eexists; reflexivity].
Qed.
