(** The gyro models with their formulas evaluated. *)
Require Import Reals ZArith Ascii String List Bool Arith Lra Lia.
Require Import Verif.Base Verif.NumPy Verif.M_Error Verif.M_Weights Verif.M_DmsText Verif.M_Text Verif.M_Rewrite.
Require Import Verif.P_Trig Verif.P_Error Verif.P_Error2 Verif.M_Interpreter Verif.M_FormulaData Verif.M_Formulas Verif.Spec_Formulas.
Require Import Verif.P_Formulas Verif.P_Formulas2 Verif.P_Formulas3.
Require Import Verif.M_Bundle Verif.M_Models Verif.Spec_Models Verif.P_Models Verif.P_Models2 Verif.M_FormulaModels.
Import ListNotations.
Local Open Scope R_scope.

Definition plain_names : list string := ["DRFR"; "DRFS"; "DSFS"; "DSTS"; "DSTG"; "SAG"; "XYM1"; "XYM2"; "EXT-REF"; "AXYZ-MIS"; "AXYZ-SF"]%string.
Definition gyro_names : list string :=
  plain_names ++ ["SAGE"; "AXYZ-ZB"; "GXY-B1R"; "GXY-B1S"; "GXY-B2R"; "GXY-B2S"; "GXY-G1"; "GXY-G4"]%string.
Definition film_names : list string := plain_names ++ ["XYM3"; "XYM4"]%string.

Lemma formulas_of_in name f : formulas_of name = Some f -> In f json_formulas /\ f_name f = name.
Proof. intros H. apply find_some in H. destruct H as [I E]. apply String.eqb_eq in E. auto. Qed.

Ltac over l H := unfold l in H; simpl in H; repeat (destruct H as [<-|H]); try contradiction.
Ltac found := eexists; split; [unfold formulas_of; cbv [find json_formulas f_name String.eqb Ascii.eqb Bool.eqb]; reflexivity|].

Lemma plain_row name h lat s : In name plain_names -> exists f r, formulas_of name = Some f /\ term_row h lat f s = Some (Some r).
Proof.
  intros I. over plain_names I; eexists; eexists; (split; [reflexivity|]); ev; reflexivity.
Qed.
Lemma gyro_row name h lat s : In name gyro_names -> h_G h <> 0 -> cos (lat * (PI / 180)) <> 0 -> cos (w_inc s) <> 0 -> 0 <= sin (w_inc s) ->
  exists f r, formulas_of name = Some f /\ term_row h lat f s = Some (Some r).
Proof.
  intros I G C D S0. apply in_app_or in I. destruct I as [I|I]; [apply plain_row; exact I|].
  assert (E : 0.262516 <> 0) by lra.
  assert (E1 : 0.262516 * cos (lat * (PI / 180)) <> 0) by (apply Rmult_integral_contrapositive; auto).
  assert (E2 : 0.262516 * cos (lat * (PI / 180)) * cos (w_inc s) <> 0) by (apply Rmult_integral_contrapositive; auto).
  assert (T : tan_ (w_inc s) = Some (sin (w_inc s) / cos (w_inc s))) by (apply fdiv_ok; auto).
  simpl in I. repeat (destruct I as [<-|I]); try contradiction; eexists; eexists; (split; [reflexivity|]).
  1: { ev. rewrite quarter_pow. destruct (Rlt_dec (sin (w_inc s)) 0) as [L|L]; [exfalso; exact (Rlt_not_le _ _ L S0)|]. reflexivity. }
  all: ev; rewrite ?T; cbv iota beta; first [rewrite (fdiv_ok _ _ G)|rewrite (fdiv_ok _ _ E1)|rewrite (fdiv_ok _ _ E2)]; reflexivity.
Qed.
Lemma film_row name h lat s : In name film_names -> sin (w_inc s) <> 0 -> exists f r, formulas_of name = Some f /\ term_row h lat f s = Some (Some r).
Proof.
  intros I N. apply in_app_or in I. destruct I as [I|I]; [apply plain_row; exact I|].
  simpl in I. repeat (destruct I as [<-|I]); try contradiction; eexists; eexists; (split; [reflexivity|]);
  ev; rewrite (fdiv_ok _ _ N); reflexivity.
Qed.
Lemma left_row name h lat s : In name left_out_terms -> exists f, formulas_of name = Some f /\ term_row h lat f s = None.
Proof.
  intros I. over left_out_terms I; eexists; (split; [reflexivity|]); reflexivity.
Qed.

(** which terms a model has *)
Definition terms_in (names : list string) (m : json_model) : bool := forallb (fun t => mem (jt_name t) names) (jm_terms m).
Definition has_term (name : string) (m : json_model) : bool := existsb (fun t => String.eqb (jt_name t) name) (jm_terms m).
Definition is_film (file : string) : bool := mem file ["CB_Film_GMS.json"; "CB_Film_GMS_Fl.json"; "CB_Film_GSS.json"; "CB_Film_GSS_Fl.json"]%string.
Definition is_ct (file : string) : bool := mem file ["GYRO-NS-CT.json"; "GYRO-NS-CT_Fl.json"]%string.
Lemma terms_checked : forallb (fun m =>
    if is_film (jm_file m) then terms_in (film_names ++ left_out_terms ++ ["DSFW"]%string) m && has_term "XYM3" m
    else terms_in (gyro_names ++ left_out_terms) m && (if is_ct (jm_file m) then has_term "GXY-B1S" m else true))%bool json_models = true.
Proof. vm_compute. reflexivity. Qed.
Lemma modes_checked : forallb (fun m => forallb (fun t => negb (mem (jt_name t) left_out_terms && String.eqb (jt_mode t) "Well"))%bool (jm_terms m)) json_models = true.
Proof. vm_compute. reflexivity. Qed.

Lemma below_first_some rows : ~ In None (tl rows) -> exists d, below_first rows = Some d.
Proof.
  destruct rows as [|o r]; intros N; [exists []; reflexivity|]. simpl in N. destruct (seq_opt_some _ N) as [m [E _]].
  simpl. rewrite E. eexists. reflexivity.
Qed.
Lemma below_first_none rows : In None (tl rows) -> below_first rows = None.
Proof. destruct rows as [|o r]; [contradiction|]. simpl. intros I. rewrite seq_opt_none by exact I. reflexivity. Qed.
Lemma seq_opt_inv {A} (l : list (option A)) m : seq_opt l = Some m -> l = map Some m.
Proof.
  revert m. induction l as [|[a|] l IH]; intros m E; simpl in E; try discriminate; [injection E as <-; reflexivity|].
  destruct (seq_opt l) as [q|]; [|discriminate]. injection E as <-. simpl. f_equal. auto.
Qed.

Lemma finite_good h lat l t : (forall s, In s (tl l) -> exists f r, formulas_of (jt_name t) = Some f /\ term_row h lat f s = Some (Some r)) ->
  finite_term h lat l t = true.
Proof.
  intros H. unfold finite_term, term_rows. destruct (formulas_of (jt_name t)) as [f|]; [|reflexivity].
  destruct (seq_opt (map (term_row h lat f) l)) as [rows|] eqn:E; [|reflexivity].
  apply seq_opt_inv in E.
  destruct (below_first_some rows) as [d ->]; [|reflexivity].
  intros N. destruct l as [|s0 l]; [destruct rows; [contradiction|discriminate]|]. destruct rows as [|o rows]; [discriminate|].
  simpl in N, E, H. injection E as _ E.
  assert (I : In (Some None) (map (term_row h lat f) l)) by (rewrite E; apply in_map with (f := Some) in N; exact N).
  apply in_map_iff in I. destruct I as (s & Q & I). destruct (H s I) as (f' & r & F & T). injection F as <-. congruence.
Qed.
Lemma finite_left h lat l t : In (jt_name t) left_out_terms -> l <> [] -> term_rows h lat l (jt_name t) = None.
Proof.
  intros I N. unfold term_rows. destruct l as [|s l]; [congruence|].
  destruct (left_row _ h lat s I) as (f & -> & T). rewrite seq_opt_none; [reflexivity|]. left. exact T.
Qed.
Lemma finite_bad h lat l t f s : formulas_of (jt_name t) = Some f -> ~ In (f_function f) unknown_functions -> In s (tl l) -> term_row h lat f s = Some None ->
  finite_term h lat l t = false.
Proof.
  intros F U I T. unfold finite_term, term_rows. rewrite F.
  pose proof (proj1 (formulas_of_in _ _ F)) as J.
  assert (N : ~ In None (map (term_row h lat f) l)).
  { intros M. apply in_map_iff in M. destruct M as [x [M _]]. apply (unknown_row f h lat x J) in M. contradiction. }
  destruct (seq_opt_some _ N) as [rows [R1 _]]. rewrite R1. apply seq_opt_inv in R1.
  rewrite below_first_none; [reflexivity|].
  destruct l as [|s0 l]; [contradiction|]. destruct rows as [|o rows]; [discriminate|]. simpl in *. injection R1 as _ R1.
  apply (in_map (term_row h lat f)) in I. rewrite R1, T in I. apply in_map_iff in I. destruct I as (x & Q & I). injection Q as ->. exact I.
Qed.

Lemma terms_in_iff names m : terms_in names m = true -> forall t, In t (jm_terms m) -> In (jt_name t) names.
Proof. intros H t I. unfold terms_in in H. rewrite forallb_forall in H. apply mem_iff, H, I. Qed.
Lemma has_term_iff name m : has_term name m = true -> exists t, In t (jm_terms m) /\ jt_name t = name.
Proof. intros H. apply existsb_exists in H. destruct H as (t & I & E). apply String.eqb_eq in E. eauto. Qed.
Lemma cos_zero_half x : 0 <= x <= PI -> cos x = 0 -> x = PI / 2.
Proof.
  intros B C. destruct (Rtotal_order x (PI / 2)) as [L|[E|L]]; auto; exfalso; pose proof PI_RGT_0.
  - assert (0 < cos x) by (apply cos_gt_0; lra). lra.
  - assert (cos x < 0) by (apply cos_lt_0; lra). lra.
Qed.

Lemma gyro_formulas_usable tree az h lat l name : some_order tree -> In name (map fst gyro_models) ->
  h_G h <> 0 -> -90 < lat < 90 -> (forall s, In s l -> 0 <= w_inc s <= PI) ->
  ((exists t, formula_error_model tree az h lat l name = Totals t) <->
   name <> "CB_Film_GMS"%string /\ (forall s, In s l -> w_inc s < gyro_limit name * (PI / 180)) /\
   (name = "CB_Film_GSS"%string -> forall s, In s (tl l) -> 0 < w_inc s) /\
   (name = "GYRO-NS-CT"%string -> forall s, In s (tl l) -> w_inc s <> PI / 2)).
Proof.
  intros O I G LT B. pose proof PI_RGT_0 as PP.
  assert (LA : cos (lat * (PI / 180)) <> 0).
  { apply Rgt_not_eq, cos_gt_0; nra. }
  pose proof (gyro_usable_iff tree (json_rates h lat l) az h l name O I) as U.
  apply in_map_iff in I. destruct I as ([n [a b]] & <- & I). cbn [fst] in *.
  destruct (gyro_opens tree n a b O I) as (f & F & Q).
  destruct (models_found n a b I _ Q) as (m & FM & E & J).
  unfold formula_error_model. rewrite F, FM.
  assert (TL : forall s, In s (tl l) -> In s l) by (destruct l; [contradiction|right; auto]).
  assert (FIN : (forall s, In s l -> w_inc s < gyro_limit n * (PI / 180)) -> n <> "CB_Film_GMS"%string ->
    (forallb (finite_term h lat l) (jm_terms m) = true <->
     (n = "CB_Film_GSS"%string -> forall s, In s (tl l) -> 0 < w_inc s) /\
     (n = "GYRO-NS-CT"%string -> forall s, In s (tl l) -> w_inc s <> PI / 2))).
  { intros LIM NG.
    pose proof terms_checked as W. rewrite forallb_forall in W. specialize (W m J). rewrite E in W.
    assert (D : (is_film (jf_file f) = true <-> (n = "CB_Film_GMS" \/ n = "CB_Film_GSS")%string) /\
       (is_ct (jf_file f) = true <-> n = "GYRO-NS-CT"%string)).
    { destruct I as [I|[I|[I|[I|[I|[]]]]]]; injection I as <- <- <-; destruct Q as [-> | ->]; vm_compute; split; split; intuition congruence. }
    destruct D as [D1 D2]. destruct (is_film (jf_file f)) eqn:FI.
    - assert (NN : n = "CB_Film_GSS"%string) by (destruct (proj1 D1 eq_refl); congruence).
      apply andb_true_iff in W. destruct W as [W X].
      split.
      + intros H. rewrite forallb_forall in H. split; [|intros; congruence]. intros _ s Hs.
        destruct (has_term_iff _ _ X) as (t & Ht & Nt).
        destruct (Rle_lt_or_eq_dec 0 (w_inc s)) as [L|L]; [apply B, TL, Hs|exact L|exfalso].
        specialize (H t Ht).
        assert (FO : formulas_of (jt_name t) = Some t_XYM3) by (rewrite Nt; reflexivity).
        assert (K : ~ In (f_function t_XYM3) unknown_functions) by (apply vertical_known; simpl; tauto).
        rewrite (finite_bad h lat l t _ s FO K Hs) in H; [discriminate|].
        apply vertical_row; [apply (formulas_of_in _ _ FO)|simpl; tauto|rewrite <- L; apply sin_0].
      + intros [H _]. specialize (H NN). apply forallb_forall. intros t Ht.
        pose proof (terms_in_iff _ _ W t Ht) as K. apply in_app_or in K.
        assert (LF : forall s, In s (tl l) -> sin (w_inc s) <> 0).
        { intros s Hs. apply Rgt_not_eq, sin_gt_0; [apply H, Hs|]. specialize (LIM s (TL s Hs)). rewrite NN in LIM. unfold gyro_limit in LIM.
          destruct (string_dec "CB_Film_GSS" "GYRO-NS-CT"); [discriminate|]. nra. }
        destruct K as [K|K].
        * apply finite_good. intros s Hs. apply film_row; auto.
        * apply in_app_or in K. destruct K as [K|[K|[]]].
          -- destruct l as [|s l]; [apply finite_good; contradiction|].
             unfold finite_term. rewrite (finite_left h lat (s :: l) t K); [reflexivity|discriminate].
          -- apply finite_good. intros s Hs. exists t_DSFW. rewrite <- K. eexists. split; [reflexivity|]. ev. reflexivity.
    - apply andb_true_iff in W. destruct W as [W X].
      assert (NF : n <> "CB_Film_GSS"%string) by (intros ->; assert (false = true) by (apply D1; auto); discriminate).
      assert (GOOD : (forall s, In s (tl l) -> w_inc s <> PI / 2) -> forallb (finite_term h lat l) (jm_terms m) = true).
      { intros H. apply forallb_forall. intros t Ht. pose proof (terms_in_iff _ _ W t Ht) as K. apply in_app_or in K.
        destruct K as [K|K].
        - apply finite_good. intros s Hs. apply gyro_row; auto.
          + intros C. apply (H s Hs), cos_zero_half; auto.
          + apply sin_ge_0; apply B, TL, Hs.
        - destruct l as [|s l]; [apply finite_good; contradiction|].
          unfold finite_term. rewrite (finite_left h lat (s :: l) t K); [reflexivity|discriminate]. }
      split.
      + intros H. split; [intros; congruence|]. intros CT s Hs HP. apply D2 in CT. rewrite CT in X.
        destruct (has_term_iff _ _ X) as (t & Ht & Nt). rewrite forallb_forall in H. specialize (H t Ht).
        assert (FO : formulas_of (jt_name t) = Some t_GXY_B1S) by (rewrite Nt; reflexivity).
        rewrite (finite_bad h lat l t _ s FO) in H; [discriminate| |exact Hs|].
        * simpl. intros K. repeat (destruct K as [K|K]; [discriminate K|]). contradiction.
        * ev. rewrite HP, cos_PI2, Rmult_0_r, fdiv_bad. reflexivity.
      + intros [_ H]. apply GOOD. intros s Hs HP.
        destruct (string_dec n "GYRO-NS-CT") as [CT|CT]; [exact (H CT s Hs HP)|].
        specialize (LIM s (TL s Hs)). unfold gyro_limit in LIM. destruct (string_dec n "GYRO-NS-CT"); [contradiction|].
        rewrite HP in LIM. nra. }
  destruct (error_model tree (json_rates h lat l) az h l n) as [t| |] eqn:EM.
  - destruct (proj1 U (ex_intro _ t eq_refl)) as [U1 U2]. specialize (FIN U2 U1).
    destruct (forallb (finite_term h lat l) (jm_terms m)).
    + split; [intros _; pose proof (proj1 FIN eq_refl); tauto|]. intros _. eauto.
    + split; [intros [x X]; discriminate|]. intros (_ & _ & K). apply FIN in K. discriminate.
  - split; [intros [x X]; discriminate|]. intros (U1 & U2 & _). destruct (proj2 U (conj U1 U2)) as [x X]. discriminate.
  - split; [intros [x X]; discriminate|]. intros (U1 & U2 & _). destruct (proj2 U (conj U1 U2)) as [x X]. discriminate.
Qed.

(** ** the terms left out *)
Definition kept (t : term) : bool := negb (mem (tm_name t) left_out_terms).
Definition kept_entry (kt : string * term) : bool := negb (mem (fst kt) left_out_terms).
Lemma set_filter k t d : kept_entry (k, t) = true -> filter kept_entry (dict_set k t d) = dict_set k t (filter kept_entry d).
Proof.
  assert (X : forall k t t', kept_entry (k, t) = kept_entry (k, t')) by reflexivity.
  generalize kept_entry X. clear X. intros P X K.
  induction d as [|[k' t'] d IH]; [cbn [dict_set filter]; rewrite K; reflexivity|]. cbn [dict_set]. destruct (String.eqb k k') eqn:N.
  - apply String.eqb_eq in N. subst k'. cbn [filter]. rewrite K, (X k t' t), K. cbn [dict_set]. rewrite String.eqb_refl. reflexivity.
  - cbn [filter]. destruct (P (k', t')); [|exact IH]. cbn [dict_set]. rewrite N, IH. reflexivity.
Qed.
Lemma set_filter_out k t d : kept_entry (k, t) = false -> filter kept_entry (dict_set k t d) = filter kept_entry d.
Proof.
  assert (X : forall k t t', kept_entry (k, t) = kept_entry (k, t')) by reflexivity.
  generalize kept_entry X. clear X. intros P X K.
  induction d as [|[k' t'] d IH]; [cbn [dict_set filter]; rewrite K; reflexivity|]. cbn [dict_set]. destruct (String.eqb k k') eqn:N.
  - apply String.eqb_eq in N. subst k'. cbn [filter]. rewrite K, (X k t' t), K. reflexivity.
  - cbn [filter]. rewrite IH. reflexivity.
Qed.
Lemma codes_filter terms : json_codes (filter kept terms) = filter kept_entry (json_codes terms).
Proof.
  unfold json_codes.
  assert (G : forall d, fold_left (fun d t => dict_set (tm_name t) t d) (filter kept terms) (filter kept_entry d)
    = filter kept_entry (fold_left (fun d t => dict_set (tm_name t) t d) terms d)).
  { induction terms as [|t terms IH]; intros d; [reflexivity|]. simpl.
    destruct (kept t) eqn:E.
    - simpl. rewrite <- IH, set_filter by exact E. reflexivity.
    - rewrite <- IH, set_filter_out by exact E. reflexivity. }
  exact (G []).
Qed.
Lemma set_in {A} k (v : A) d kt : In kt (dict_set k v d) -> kt = (k, v) \/ In kt d.
Proof.
  induction d as [|[k' v'] d IH]; simpl; [intuition|]. destruct (String.eqb k k'); simpl; intuition.
Qed.
Lemma codes_in terms kt : In kt (json_codes terms) -> In (snd kt) terms /\ fst kt = tm_name (snd kt).
Proof.
  unfold json_codes.
  assert (G : forall d, In kt (fold_left (fun d t => dict_set (tm_name t) t d) terms d) -> (In (snd kt) terms /\ fst kt = tm_name (snd kt)) \/ In kt d).
  { induction terms as [|t terms IH]; intros d I; [right; exact I|]. simpl in I |- *. destruct (IH _ I) as [[X Y]|X]; [left; auto|].
    apply set_in in X. destruct X as [-> |X]; [left; simpl; auto|right; exact X]. }
  intros I. destruct (G [] I) as [X|[]]. exact X.
Qed.

Definition short_totals (n : nat) (t : totals) : Prop :=
  (length (t_all t) <= n /\ length (t_random t) <= n /\ length (t_systematic t) <= n /\ length (t_global t) <= n /\ length (t_within_pad t) <= n)%nat.
Lemma map2_zero n : forall l, (length l <= n)%nat -> map2 madd l (repeat mzero n) = l.
Proof.
  induction n as [|n IH]; intros [|m l] H; simpl in *; try reflexivity; try lia.
  unfold map2. cbn [combine map fst snd]. fold (map2 madd l (repeat mzero n)). rewrite IH by lia. f_equal.
  destruct m as [[a b c] [d e f] [g h i]]. unfold madd, mzero, vadd, vzero; simpl. repeat f_equal; ring.
Qed.
Lemma map2_short n (a b : list M3) : (length a <= n)%nat -> (length (map2 madd a b) <= n)%nat.
Proof. intros H. unfold map2. rewrite map_length, combine_length. lia. Qed.
Lemma add_short n t v : short_totals n t -> short_totals n (add_error t v).
Proof.
  intros (A & B & C & D & E). unfold add_error, short_totals; simpl.
  repeat split; repeat match goal with |- context [if ?b then _ else _] => destruct b end; auto using map2_short.
Qed.
Lemma add_zero n t v : short_totals n t -> er_cov_NEV v = repeat mzero n -> add_error t v = t.
Proof.
  intros (A & B & C & D & E) Z. unfold add_error. rewrite Z. rewrite !map2_zero by assumption.
  destruct t; simpl. f_equal; repeat match goal with |- context [if ?b then _ else _] => destruct b end; reflexivity.
Qed.
Lemma sum_filter {A} n (F : A -> option error) (P : A -> bool) d : forall t, short_totals n t ->
  (forall a, In a d -> P a = false -> exists v, F a = Some v /\ er_cov_NEV v = repeat mzero n) ->
  sum_errors t (map F d) = sum_errors t (map F (filter P d)).
Proof.
  induction d as [|a d IH]; intros t S0 H; [reflexivity|]. simpl. destruct (P a) eqn:E.
  - simpl. destruct (F a) as [v|]; [|reflexivity]. apply IH; [apply add_short; exact S0|]. intros; apply H; auto. right; auto.
  - destruct (H a (or_introl eq_refl) E) as (v & -> & Z). rewrite (add_zero n) by assumption. apply IH; [exact S0|]. intros; apply H; auto. right; auto.
Qed.

Lemma left_out_nothing rev4 max_inc h lat l m : In m json_models -> l <> [] ->
  json_tool_error rev4 max_inc (map survey_rad l) (json_terms (json_rates h lat l) m)
  = json_tool_error rev4 max_inc (map survey_rad l)
      (filter (fun t => negb (mem (tm_name t) left_out_terms)) (json_terms (json_rates h lat l) m)).
Proof.
  intros IM N. unfold json_tool_error. match goal with |- context [if ?b then _ else _] => destruct b end; [|reflexivity].
  unfold tool_totals. change (fun t => negb (mem (tm_name t) left_out_terms)) with kept. rewrite codes_filter.
  apply (sum_filter (length l)).
  - unfold short_totals, zeros; simpl. rewrite !repeat_length, map_length. lia.
  - intros [k t] I K. destruct (codes_in _ _ I) as [J E]. simpl in J, E. subst k. unfold json_terms in J. apply in_map_iff in J.
    destruct J as (jt & <- & J). unfold kept_entry in K. cbn [fst tm_name] in K. apply negb_false_iff, mem_iff in K.
    pose proof modes_checked as W. rewrite forallb_forall in W. specialize (W m IM). rewrite forallb_forall in W. specialize (W jt J).
    apply negb_true_iff, andb_false_iff in W. destruct W as [W|W]; [apply mem_iff in K; congruence|].
    unfold call_interpreter. simpl. unfold json_rates. rewrite (finite_left h lat l jt K N). rewrite (drdp_length_wst rev4 l N).
    assert (KP : known_propagation (json_propagation (jt_mode jt))).
    { unfold json_propagation. rewrite W. unfold known_propagation.
      repeat match goal with |- context [if ?b then _ else _] => destruct b end; simpl; tauto. }
    destruct (generated (drdp rev4 (map survey_rad l)) (jt_name jt) (map (vscale (jt_value jt * mag_unit_to_base (jt_unit jt))) (repeat vzero (length l)))
      (json_propagation (jt_mode jt)) None KP) as [er G].
    exists er. split; [exact G|]. apply (zero_error _ _ _ _ _ _ (drdp_length_wst rev4 l N) G).
Qed.
(** which terms they are in each model *)
Lemma left_out_where : map (fun m => (jm_file m, filter (fun n => mem n left_out_terms) (map jt_name (jm_terms m)))) json_models
  = [("CB_Film_GMS.json", ["XCLA"; "XCLH"; "GZ-GD"]); ("CB_Film_GMS_Fl.json", ["XCLA"; "XCLH"; "GZ-GD"]);
     ("CB_Film_GSS.json", ["XCLA"; "XCLH"; "GZ-GD"]); ("CB_Film_GSS_Fl.json", ["XCLA"; "XCLH"; "GZ-GD"]);
     ("GYRO-MWD.json", ["XYM3E"; "XYM4E"; "XCLA"; "XCLH"; "GXY-RN"]); ("GYRO-MWD_Fl.json", ["XYM3E"; "XYM4E"; "XCLA"; "XCLH"; "GXY-RN"]);
     ("GYRO-NS-CT.json", ["XYM3E"; "XYM4E"; "XCLA"; "XCLH"; "GXY-RN"; "GXY-GD"; "GXY-GRW"]);
     ("GYRO-NS-CT_Fl.json", ["XYM3E"; "XYM4E"; "XCLA"; "XCLH"; "GXY-RN"; "GXY-GD"; "GXY-GRW"]);
     ("GYRO-NS.json", ["XYM3E"; "XYM4E"; "XCLA"; "XCLH"; "GXY-RN"]); ("GYRO-NS_Fl.json", ["XYM3E"; "XYM4E"; "XCLA"; "XCLH"; "GXY-RN"])]%string.
Proof. vm_compute. reflexivity. Qed.
