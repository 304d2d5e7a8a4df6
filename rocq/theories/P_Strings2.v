(** Strings built by lengths, String.depth, unusable strings: C18, C19, C54. *)
Require Import Reals Lra Lia Bool String List Arith Permutation Sorted.
Require Import Verif.M_Architecture Verif.Spec_Strings Verif.P_Strings.
Import ListNotations.
Open Scope R_scope.

Lemma tiles_app : forall a b lo mid hi, tiles lo mid a -> tiles mid hi b -> tiles lo hi (a ++ b).
Proof.
  induction a as [|[x y] a IH]; simpl; intros b lo mid hi H K. subst; auto.
  destruct H as (-> & L & H). repeat split; auto. eapply IH; eauto.
Qed.
Lemma tiles_joined : forall ivs lo hi, tiles lo hi ivs ->
  joined ivs /\ (ivs = [] \/ snd (last ivs (0, 0)) = hi) /\ Forall (fun iv => lo <= fst iv) ivs /\
  StronglySorted Rle (map snd ivs).
Proof.
  induction ivs as [|[t b] ivs IH]; intros lo hi H.
  - repeat split; simpl; auto; constructor.
  - simpl in H. destruct H as (-> & L & H). destruct (IH _ _ H) as (J & F & A & S).
    split; [|split; [|split]].
    + destruct ivs as [|[t2 b2] ivs]; simpl; auto. simpl in H. destruct H as (-> & _). auto.
    + right. destruct F as [->|F]. simpl in *. auto. destruct ivs; simpl in *; auto.
    + constructor. simpl; lra. eapply Forall_impl; [|exact A]. simpl. intros; lra.
    + simpl. constructor; auto. apply tiles_le in H. destruct H as [_ H].
      rewrite Forall_forall. intros x Hx. apply in_map_iff in Hx. destruct Hx as ([t' b'] & <- & I).
      simpl. specialize (H _ _ I). lra.
Qed.
Lemma keyed_number : forall vs ivs i, spans vs ivs ->
  keyed s_bottom (number i vs) = Some (combine (map snd ivs) (number i vs)).
Proof.
  intros vs ivs i H. revert i. induction H as [|v iv vs ivs [T B] S IH]; intros i; simpl; auto.
  rewrite B, IH. auto.
Qed.
Lemma keyed_app : forall key a b la lb, keyed key a = Some la -> keyed key b = Some lb ->
  keyed key (a ++ b) = Some (la ++ lb).
Proof.
  induction a as [|x a IH]; simpl; intros b la lb A B.
  - injection A; intro; subst. auto.
  - destruct (key (snd x)); [|discriminate]. destruct (keyed key a) eqn:E; [|discriminate].
    injection A; intro; subst. rewrite (IH _ _ _ eq_refl B). auto.
Qed.
Lemma number_app : forall A (a b : list A) i, number i (a ++ b) = number i a ++ number (i + length a) b.
Proof.
  induction a; simpl; intros. rewrite Nat.add_0_r; auto. rewrite IHa. do 3 f_equal. lia.
Qed.
Lemma sorted_combine : forall (ks : list R) (ds : list (nat * section)), StronglySorted Rle ks ->
  StronglySorted le1 (combine ks ds).
Proof.
  intros ks ds H. revert ds. induction H as [|k ks S IH F]; intros ds; simpl. constructor.
  destruct ds as [|d ds]; constructor; auto.
  rewrite Forall_forall in *. intros [k' d'] I. apply in_combine_l in I. unfold le1. simpl. auto.
Qed.
Lemma combine_app' : forall A B (a b : list A) (c d : list B), length a = length c ->
  combine (a ++ b) (c ++ d) = combine a c ++ combine b d.
Proof. induction a; destruct c; simpl; intros; try discriminate; auto. f_equal. auto. Qed.
(** the sort puts a new section behind the shallower-or-equal ones *)
Lemma sort_insert : forall a b ia ib v bot n,
  spans a ia -> spans b ib -> s_bottom v = Some bot -> StronglySorted Rle (map snd (ia ++ ib)) ->
  Forall (fun iv => snd iv <= bot) ia -> Forall (fun iv => bot < snd iv) ib ->
  exists d', sort_by s_bottom (number 0 (a ++ b) ++ [(n, v)]) = Some d' /\ map snd d' = a ++ v :: b.
Proof.
  intros a b ia ib v bot n Sa Sb B SS F G.
  assert (S : spans (a ++ b) (ia ++ ib)) by (apply Forall2_app; auto).
  unfold sort_by.
  erewrite keyed_app; [|apply keyed_number; exact S|simpl; rewrite B; reflexivity].
  eexists. split; [reflexivity|].
  rewrite fold_left_app. simpl.
  rewrite (fold_insert_id (combine (map snd (ia ++ ib)) (number 0 (a ++ b))) []).
  2: { simpl. apply sorted_combine; auto. }
  simpl. rewrite number_app, map_app.
  assert (La : length (map snd ia) = length (number 0 a)).
  { rewrite map_length, number_length. clear -Sa. induction Sa; simpl; auto. }
  assert (CE : combine (map snd ia ++ map snd ib) (number 0 a ++ number (0 + length a) b) =
     combine (map snd ia) (number 0 a) ++ combine (map snd ib) (number (0 + length a) b)).
  { apply combine_app'; auto. }
  rewrite CE, insert_mid.
  - rewrite !map_app. simpl.
    assert (X : forall vs ivs i, spans vs ivs -> map snd (map snd (combine (map snd ivs) (number i vs))) = vs).
    { intros vs ivs i H. revert i. induction H; intros i; simpl; auto. f_equal. auto. }
    rewrite (X a ia), (X b ib); auto.
  - rewrite Forall_forall in *. intros [k d] I. apply in_combine_l in I. simpl.
    apply in_map_iff in I. destruct I as (iv & <- & I). apply F; auto.
  - rewrite Forall_forall in *. intros [k d] I. apply in_combine_l in I. simpl.
    apply in_map_iff in I. destruct I as (iv & <- & I). apply G; auto.
Qed.

(** * a bottom-up string built by lengths *)
Definition zero_at (top : R) (v : section) : Prop := s_top v = Some top /\ s_bottom v = Some top.
Record INV (s : str) (zs done : list section) (dv : list (R * R)) (cur : R) : Prop := mkINV {
  i_meth : a_method s = BottomUp;
  i_secs : a_sections s = number 0 (zs ++ rev done);
  i_spans : spans done dv;
  i_zero : Forall (zero_at (a_top s)) zs;
  i_tile : tiles cur (a_bottom s) (rev dv);
  i_above : Forall (fun iv => cur < snd iv) dv;
  i_top : a_top s <= cur;
  i_zs : zs = [] \/ cur = a_top s;
  i_none : done = [] -> zs = [] /\ cur = a_bottom s
}.
Lemma spans_rev : forall vs ivs, spans vs ivs -> spans (rev vs) (rev ivs).
Proof.
  induction 1; simpl. constructor. apply Forall2_app; auto.
Qed.
Lemma spans_zeros : forall top zs, Forall (zero_at top) zs -> spans zs (repeat (top, top) (length zs)).
Proof. induction 1 as [|z zs [A B]]; simpl; constructor; auto. Qed.
Lemma tiles_zeros : forall top n, tiles top top (repeat (top, top) n).
Proof. induction n; simpl; auto. repeat split; auto. lra. Qed.

Lemma step_length : forall s zs done dv cur kw len,
  INV s zs done dv cur -> s_length kw = Some len -> 0 < len -> s_top kw = None -> s_bottom kw = None ->
  let t := Rmax (a_top s) (cur - len) in
  let v := override (mkSec (Some t) (Some cur) None []) kw in
  exists s', add_bottom_up s kw = (s', None) /\
    a_cls s' = a_cls s /\ a_top s' = a_top s /\ a_bottom s' = a_bottom s /\
    a_complete s' = (a_complete s || req t (a_top s))%bool /\
    (cur = a_top s -> done <> [] -> INV s' (zs ++ [v]) done dv cur) /\
    (a_top s < cur -> INV s' [] (done ++ [v]) (dv ++ [(t, cur)]) t).
Proof.
  intros s zs done dv cur kw len I HL Pos HT HB t v. destruct I.
  assert (TV : s_top v = Some t) by (unfold v; simpl; rewrite HT; auto).
  assert (BV : s_bottom v = Some cur) by (unfold v; simpl; rewrite HB; auto).
  assert (Lt : t <= cur). { unfold t. apply Rmax_lub; lra. }
  assert (Gt : a_top s <= t) by apply Rmax_l.
  unfold add_bottom_up. rewrite i_secs0.
  assert (Bot : match number 0 (zs ++ rev done) with [] => Some (a_bottom s)
     | _ => match lookup 0 (number 0 (zs ++ rev done)) with Some sec => s_top sec | None => None end end = Some cur).
  { destruct zs as [|z zs].
    - destruct (rev done) as [|d0 r] eqn:E.
      + simpl. assert (done = []) by (apply (f_equal (@rev _)) in E; rewrite rev_involutive in E; auto).
        f_equal. symmetry. apply i_none0; auto.
      + simpl. pose proof (spans_rev _ _ i_spans0) as S. rewrite E in S.
        destruct (rev dv) as [|[t1 b1] ivs] eqn:Ed; inversion S as [|? ? ? ? [T B] S']; subst. rewrite T.
        simpl in i_tile0. simpl. f_equal. tauto.
    - simpl. inversion i_zero0 as [|? ? [Z1 Z2]]; subst. rewrite Z1. destruct i_zs0; [discriminate|congruence]. }
  rewrite Bot. rewrite HL. simpl truthy. unfold req at 1. destruct (Req_EM_T len 0); [lra|].
  assert (Et : (if Rlt_dec (cur - len) (a_top s) then a_top s else cur - len) = t).
  { unfold t, Rmax. destruct (Rlt_dec _ _), (Rle_dec _ _); lra. }
  rewrite Et. rewrite assign_number. fold v. clearbody v.
  assert (SZ := spans_zeros _ _ i_zero0). assert (SR := spans_rev _ _ i_spans0).
  assert (TZ : zs = [] \/ tiles cur cur (repeat (a_top s, a_top s) (length zs))).
  { destruct i_zs0 as [->|E]; auto. right. rewrite E. apply tiles_zeros. }
  assert (TA : tiles cur (a_bottom s) (repeat (a_top s, a_top s) (length zs) ++ rev dv)).
  { destruct TZ as [->|TZ]; simpl; auto. eapply tiles_app; eauto. }
  destruct (sort_insert zs (rev done) _ (rev dv) v cur (length (zs ++ rev done)) SZ SR BV) as (d' & Sd & Vd).
  { apply (tiles_joined _ _ _ TA). }
  { destruct i_zs0 as [->|E]; simpl. constructor.
    rewrite Forall_forall. intros x Hx. apply repeat_spec in Hx. subst x. simpl. lra. }
  { rewrite Forall_forall in *. intros x Hx. apply in_rev in Hx. auto. }
  rewrite Sd, Vd.
  assert (TN : tiles (match zs with [] => t | _ => cur end) (a_bottom s)
            (repeat (a_top s, a_top s) (length zs) ++ (t, cur) :: rev dv)).
  { destruct i_zs0 as [->|E]; simpl. auto.
    assert (t = cur) by lra.
    destruct zs as [|z zs]; simpl. auto. split; [auto|]. split; [lra|].
    apply tiles_app with cur. rewrite E. apply tiles_zeros. simpl. repeat split; auto. }
  assert (SN : spans (zs ++ v :: rev done) (repeat (a_top s, a_top s) (length zs) ++ (t, cur) :: rev dv)).
  { apply Forall2_app; auto. }
  assert (CH : check_bottom_up (a_top s) (a_bottom s) (zs ++ v :: rev done) = None).
  { apply check_bu. eexists. split; [exact SN|]. destruct (tiles_joined _ _ _ TN) as (J & F & A & _).
    split; auto. split; auto. eapply Forall_impl; [|exact A]. simpl. intros a Ha.
    destruct zs; lra. }
  rewrite CH.
  eexists. split; [reflexivity|]. simpl. split; auto. split; auto. split; auto. split.
  { f_equal. destruct zs as [|z zs]; simpl. rewrite TV. auto.
    inversion i_zero0 as [|? ? [Z1 Z2]]; subst. rewrite Z1.
    destruct i_zs0 as [|E]; [discriminate|]. f_equal. lra. }
  split.
  - intros E ND. unfold finish. constructor; simpl; auto.
    + rewrite <- app_assoc. auto.
    + apply Forall_app. split; auto. constructor; auto. split; [rewrite TV|rewrite BV]; f_equal; lra.
    + congruence.
  - intros L. unfold finish.
    assert (zs = []) by (destruct i_zs0; auto; lra). subst zs. simpl.
    assert (Lt' : t < cur). { unfold t. apply Rmax_lub_lt; lra. }
    constructor; simpl; auto.
    + rewrite rev_app_distr. auto.
    + apply Forall2_app; auto.
    + rewrite rev_app_distr. simpl. auto.
    + apply Forall_app. split. eapply Forall_impl; [|exact i_above0]. simpl. intros; lra. constructor; auto.
    + intro E. destruct done; discriminate.
Qed.

Lemma stored_id : forall A (l acc : list (string * A)), NoDup (map fst (acc ++ l)) ->
  fold_left (fun d kv => assign_s (fst kv) (snd kv) d) l acc = acc ++ l.
Proof.
  induction l as [|[k v] l IH]; simpl; intros acc ND. rewrite app_nil_r; auto.
  assert (E : assign_s k v acc = acc ++ [(k, v)]).
  { rewrite map_app in ND. simpl in ND. apply NoDup_remove in ND. destruct ND as [_ N].
    clear IH. assert (N' : ~ In k (map fst acc)) by (intro; apply N; apply in_app_iff; auto). clear N.
    induction acc as [|[k' v'] acc IH]; simpl in *; auto.
    destruct (String.eqb_spec k k'). subst; tauto. rewrite IH; auto. }
  rewrite E, IH; rewrite <- app_assoc; auto.
Qed.
Lemma has_key_in : forall k d, has_key k d = true <-> In k (map fst d).
Proof.
  intros. unfold has_key. rewrite existsb_exists, in_map_iff. split.
  - intros (x & I & E). apply String.eqb_eq in E. eauto.
  - intros (x & E & I). exists x. split; auto. apply String.eqb_eq. auto.
Qed.
Lemma NoDup_snoc : forall A (l : list A) x, NoDup l -> ~ In x l -> NoDup (l ++ [x]).
Proof.
  induction l; simpl; intros x N I. repeat constructor; auto.
  inversion N; subst. constructor. rewrite in_app_iff. simpl. intuition. apply IHl; auto.
Qed.
Lemma defaults_nodup : forall c kw, NoDup (map fst (s_other kw)) -> NoDup (map fst (s_other (with_defaults c kw))).
Proof.
  intros c kw N. unfold with_defaults. destruct c; auto.
  destruct (has_key "density" (s_other kw)) eqn:E; auto. simpl. rewrite map_app. simpl. apply NoDup_snoc; auto.
  intro I. apply has_key_in in I. congruence.
Qed.
Lemma defaults_geom : forall c kw, s_length (with_defaults c kw) = s_length kw /\
  s_top (with_defaults c kw) = s_top kw /\ s_bottom (with_defaults c kw) = s_bottom kw.
Proof. intros. unfold with_defaults. destruct c; auto. destruct (has_key _ _); auto. Qed.
Lemma sized_go : forall s kw len, sized_call (a_cls s) kw len -> a_method s = BottomUp ->
  add_section s kw = add_bottom_up s (with_defaults (a_cls s) kw).
Proof.
  intros s kw len (_ & _ & _ & _ & _ & W) M. unfold add_section, with_defaults. rewrite M.
  destruct (a_cls s); auto. destruct W as [W1 W2]; auto.
  apply has_key_in in W1. apply has_key_in in W2. rewrite W1, W2. auto.
Qed.

(** content of a stored section other than its depths *)
Definition content (v : section) := (s_length v, s_other v).
Definition call_content (c : cls) (kw : section) := (s_length kw, s_other (with_defaults c kw)).

Record INV2 (c : cls) (top bottom : R) (calls : list section) (lens : list R) (s : str)
  (zs done : list section) (dv : list (R * R)) : Prop := mkINV2 {
  j_inv : INV s zs done dv (stacked top bottom lens);
  j_cls : a_cls s = c; j_top : a_top s = top; j_bottom : a_bottom s = bottom;
  j_len : (length zs + length done)%nat = length lens;
  j_dv : forall j iv, nth_error dv j = Some iv ->
     iv = (stacked top bottom (firstn (S j) lens), stacked top bottom (firstn j lens));
  j_done : (length done < length lens)%nat -> stacked top bottom (firstn (length done) lens) = top;
  j_content : map content done = firstn (length done) (map (call_content c) calls);
  j_complete : a_complete s = true <-> stacked top bottom lens = top
}.
Lemma rsum_app : forall a b, rsum (a ++ b) = rsum a + rsum b.
Proof. induction a; simpl; intros. lra. rewrite IHa. lra. Qed.
Lemma stacked_snoc : forall top bottom lens len, 0 < len ->
  stacked top bottom (lens ++ [len]) = Rmax top (stacked top bottom lens - len).
Proof.
  intros. unfold stacked. rewrite rsum_app. simpl. unfold Rmax.
  repeat destruct (Rle_dec _ _); lra.
Qed.
Lemma rsum_pos : forall l, Forall (fun x => 0 < x) l -> 0 <= rsum l.
Proof. induction 1; simpl; lra. Qed.
Lemma spans_length : forall vs ivs, spans vs ivs -> length vs = length ivs.
Proof. induction 1; simpl; auto. Qed.

Lemma sized_step : forall c top bottom calls lens s zs done dv kw len,
  top < bottom -> length calls = length lens ->
  INV2 c top bottom calls lens s zs done dv -> sized_call c kw len ->
  exists s' zs' done' dv', add_section s kw = (s', None) /\
    INV2 c top bottom (calls ++ [kw]) (lens ++ [len]) s' zs' done' dv' /\
    (stacked top bottom lens <> top -> zs' = [] /\ exists v, done' = done ++ [v]).
Proof.
  intros c top bottom calls lens s zs done dv kw len TB LE J SC. destruct J.
  pose proof SC as (H1 & H2 & H3 & H4 & H5 & H6).
  rewrite <- j_cls0 in SC. rewrite (sized_go _ _ _ SC (i_meth _ _ _ _ _ j_inv0)), j_cls0.
  destruct (defaults_geom c kw) as (G1 & G2 & G3).
  destruct (step_length _ _ _ _ _ (with_defaults c kw) len j_inv0) as (s' & A & C' & T' & B' & CO & Z & D);
    try congruence.
  rewrite j_top0 in *. rewrite <- stacked_snoc in * by auto.
  set (v := override _ _) in *.
  assert (CV : content v = call_content c kw).
  { unfold v, content, call_content. simpl. rewrite G1, H1. simpl. f_equal.
    apply (stored_id _ (s_other (with_defaults c kw)) []). apply defaults_nodup; auto. }
  assert (Ge : top <= stacked top bottom lens) by apply Rmax_l.
  destruct (Req_EM_T (stacked top bottom lens) top) as [E|NE].
  - assert (ND : done <> []).
    { intro N. destruct (i_none _ _ _ _ _ j_inv0 N) as [_ Q]. rewrite j_bottom0 in Q. lra. }
    assert (E2 : stacked top bottom (lens ++ [len]) = top).
    { rewrite stacked_snoc by auto. rewrite E. unfold Rmax. destruct (Rle_dec _ _); lra. }
    exists s', (zs ++ [v]), done, dv. split; auto. split; [|congruence]. constructor; auto; try congruence.
    + rewrite E2, <- E. apply Z; auto.
    + rewrite !app_length. simpl. lia.
    + intros j iv Hj. rewrite (j_dv0 _ _ Hj).
      assert (j < length lens)%nat.
      { assert (j < length dv)%nat by (apply nth_error_Some; congruence).
        pose proof (spans_length _ _ (i_spans _ _ _ _ _ j_inv0)). lia. }
      rewrite !firstn_app. replace (S j - length lens)%nat with 0%nat by lia.
      replace (j - length lens)%nat with 0%nat by lia. rewrite !firstn_O, !app_nil_r. auto.
    + intros _. rewrite firstn_app. replace (length done - length lens)%nat with 0%nat by lia.
      rewrite firstn_O, app_nil_r.
      destruct (Nat.lt_ge_cases (length done) (length lens)); auto.
      rewrite firstn_all2 by lia. auto.
    + rewrite map_app, firstn_app, map_length.
      replace (length done - length calls)%nat with 0%nat by lia. rewrite firstn_O, app_nil_r. auto.
    + rewrite CO, orb_true_iff, req_true, E2. tauto.
  - assert (ZN : zs = []) by (destruct (i_zs _ _ _ _ _ j_inv0); auto; congruence). subst zs.
    simpl in j_len0.
    exists s', [], (done ++ [v]), (dv ++ [(stacked top bottom (lens ++ [len]), stacked top bottom lens)]).
    split; auto. split; [|split; eauto]. constructor; auto; try congruence.
    + apply D. lra.
    + rewrite !app_length. simpl. lia.
    + pose proof (spans_length _ _ (i_spans _ _ _ _ _ j_inv0)) as SL.
      intros j iv Hj. destruct (Nat.lt_ge_cases j (length dv)).
      * rewrite nth_error_app1 in Hj by auto. rewrite (j_dv0 _ _ Hj).
        rewrite !firstn_app. replace (S j - length lens)%nat with 0%nat by lia.
        replace (j - length lens)%nat with 0%nat by lia. rewrite !firstn_O, !app_nil_r. auto.
      * rewrite nth_error_app2 in Hj by auto.
        destruct (j - length dv)%nat eqn:Q; simpl in Hj; [|destruct n; discriminate].
        injection Hj; intro; subst iv. assert (j = length lens) by lia. subst j.
        rewrite (firstn_all2 (lens ++ [len])) by (rewrite app_length; simpl; lia).
        rewrite firstn_app, firstn_all, Nat.sub_diag, firstn_O, app_nil_r. auto.
    + rewrite !app_length. simpl. lia.
    + rewrite !map_app, app_length. simpl. rewrite j_content0, CV.
      rewrite !firstn_all2; auto; try rewrite app_length; rewrite ?map_length; simpl; lia.
    + rewrite CO, orb_true_iff, req_true. split; auto. intros [Q|Q]; auto. apply j_complete0 in Q. congruence.
Qed.
Lemma start_inv : forall c top bottom, top < bottom ->
  INV2 c top bottom [] [] (new_str c BottomUp top bottom) [] [] [].
Proof.
  intros c top bottom H.
  assert (E : stacked top bottom [] = bottom). { unfold stacked. simpl. unfold Rmax. destruct (Rle_dec _ _); lra. }
  constructor; simpl; auto; try lia.
  - constructor; simpl; auto; try constructor; rewrite ?E; auto.
  - intros j iv Hj. destruct j; discriminate.
  - rewrite E. split; [discriminate|lra].
Qed.
Lemma sized_inv : forall c top bottom calls lens s, top < bottom -> Forall2 (sized_call c) calls lens ->
  reached anything (new_str c BottomUp top bottom) calls s ->
  exists zs done dv, INV2 c top bottom calls lens s zs done dv.
Proof.
  intros c top bottom calls lens s TB F R. revert lens F. induction R as [|calls s kw s' R IH A _]; intros lens F.
  - inversion F; subst. exists [], [], []. apply start_inv; auto.
  - apply Forall2_app_inv_l in F. destruct F as (l1 & l2 & F1 & F2 & ->).
    inversion F2 as [|? len ? ? SC F3]; subst. inversion F3; subst.
    destruct (IH _ F1) as (zs & done & dv & J).
    assert (LE : length calls = length l1) by (clear -F1; induction F1; simpl; auto).
    destruct (sized_step _ _ _ _ _ _ _ _ _ _ _ TB LE J SC) as (s2 & zs' & done' & dv' & A' & J' & _).
    rewrite A in A'. injection A'; intro; subst s2. eauto.
Qed.
(** sized calls never raise *)
Lemma sized_succeeds : forall c top bottom calls lens, top < bottom -> Forall2 (sized_call c) calls lens ->
  exists s, reached anything (new_str c BottomUp top bottom) calls s.
Proof.
  intros c top bottom calls. induction calls as [|kw calls IH] using rev_ind; intros lens TB F.
  - eexists. constructor.
  - apply Forall2_app_inv_l in F. destruct F as (l1 & l2 & F1 & F2 & ->).
    inversion F2 as [|? len ? ? SC F3]; subst. inversion F3; subst.
    destruct (IH _ TB F1) as [s R]. destruct (sized_inv _ _ _ _ _ _ TB F1 R) as (zs & done & dv & J).
    assert (LE : length calls = length l1) by (clear -F1; induction F1; simpl; auto).
    destruct (sized_step _ _ _ _ _ _ _ _ _ _ _ TB LE J SC) as (s2 & zs' & done' & dv' & A' & J' & _).
    exists s2. econstructor; eauto. exact I.
Qed.
Lemma inv_sections : forall c top bottom calls lens s zs done dv,
  INV2 c top bottom calls lens s zs done dv -> Forall (fun x => 0 < x) lens ->
  forall j, (j < length lens)%nat -> exists v, lookup (length lens - 1 - j) (a_sections s) = Some v /\
    s_top v = Some (stacked top bottom (firstn (S j) lens)) /\
    s_bottom v = Some (stacked top bottom (firstn j lens)) /\
    (zs = [] -> nth_error done j = Some v).
Proof.
  intros c top bottom calls lens s zs done dv J PL j Hj. destruct J.
  pose proof (spans_length _ _ (i_spans _ _ _ _ _ j_inv0)) as SL.
  rewrite (i_secs _ _ _ _ _ j_inv0). 
  rewrite lookup_number by lia. rewrite Nat.sub_0_r.
  destruct (Nat.lt_ge_cases j (length done)) as [D|D].
  - rewrite nth_error_app2 by lia.
    assert (NR : nth_error (rev done) (length lens - 1 - j - length zs) = nth_error done j).
    { destruct (nth_error done j) as [v|] eqn:E; [|apply nth_error_None in E; lia].
      rewrite <- (rev_involutive done) in E.
      assert (X : nth_error (rev (rev done)) j = nth_error (rev done) (length (rev done) - S j)).
      { clear -D. rewrite <- (rev_length done) in D. revert D. generalize (rev done). clear. intros l D.
        rewrite (nth_error_nth' (rev l) (mkSec None None None [])) by (rewrite rev_length; auto).
        rewrite rev_nth by auto. symmetry. apply nth_error_nth'. lia. }
      rewrite X in E. rewrite rev_length in E. rewrite <- E. f_equal. lia. }
    rewrite NR. destruct (nth_error done j) as [v|] eqn:E; [|apply nth_error_None in E; lia].
    exists v. split; auto.
    assert (exists iv, nth_error dv j = Some iv /\ s_top v = Some (fst iv) /\ s_bottom v = Some (snd iv)).
    { clear -E j_inv0. pose proof (i_spans _ _ _ _ _ j_inv0) as S. clear j_inv0. revert j E.
      induction S; intros j E; destruct j; simpl in *; try discriminate; eauto.
      injection E; intro; subst. exists y. tauto. }
    destruct H as (iv & N & T & B). rewrite (j_dv0 _ _ N) in T, B. auto.
  - assert (length zs > 0)%nat by lia.
    rewrite nth_error_app1 by lia.
    destruct (nth_error zs (length lens - 1 - j)) as [v|] eqn:E; [|apply nth_error_None in E; lia].
    exists v. split; auto. apply nth_error_In in E.
    pose proof (i_zero _ _ _ _ _ j_inv0) as Z. rewrite Forall_forall in Z. destruct (Z _ E) as [T B].
    rewrite j_top0 in *.
    assert (Q : forall m, (length done <= m)%nat -> stacked top bottom (firstn m lens) = top).
    { intros m Hm. specialize (j_done0 ltac:(lia)).
      replace (firstn m lens) with (firstn (length done) lens ++ firstn (m - length done) (skipn (length done) lens)).
      2: { rewrite <- (firstn_skipn (length done) lens) at 3. rewrite firstn_app, firstn_firstn, firstn_length.
           rewrite Nat.min_r by lia. rewrite (Nat.min_l (length done) (length lens)) by lia. auto. }
      unfold stacked in *. rewrite rsum_app.
      assert (0 <= rsum (firstn (m - length done) (skipn (length done) lens))).
      { apply rsum_pos. rewrite Forall_forall in *. intros x Hx. apply PL.
        rewrite <- (firstn_skipn (length done) lens). apply in_app_iff. right.
        rewrite <- (firstn_skipn (m - length done) (skipn (length done) lens)). apply in_app_iff; auto. }
      unfold Rmax in *. repeat destruct (Rle_dec _ _); lra. }
    rewrite (Q (S j)), (Q j) by lia. split; auto. split; auto. intro; subst zs; simpl in *; lia.
Qed.
Lemma sized_pos : forall c calls lens, Forall2 (sized_call c) calls lens -> Forall (fun x => 0 < x) lens.
Proof. induction 1 as [|x y l l' (H & P & _)]; constructor; auto. Qed.
(** C18 *)
Lemma built_by_lengths : forall c top bottom calls lens,
  top < bottom -> Forall2 (sized_call c) calls lens ->
  exists s, reached anything (new_str c BottomUp top bottom) calls s /\
    (a_complete s = true <-> bottom - top <= rsum lens) /\
    forall j, (j < length lens)%nat -> exists v, lookup (length lens - 1 - j) (a_sections s) = Some v /\
      s_top v = Some (stacked top bottom (firstn (S j) lens)) /\
      s_bottom v = Some (stacked top bottom (firstn j lens)).
Proof.
  intros c top bottom calls lens TB F. destruct (sized_succeeds _ _ _ _ _ TB F) as [s R].
  exists s. split; auto. destruct (sized_inv _ _ _ _ _ _ TB F R) as (zs & done & dv & J).
  split.
  - rewrite (j_complete _ _ _ _ _ _ _ _ _ J). unfold stacked, Rmax. destruct (Rle_dec _ _); split; lra.
  - intros j Hj. destruct (inv_sections _ _ _ _ _ _ _ _ _ J (sized_pos _ _ _ F) j Hj) as (v & A & B & C & _). eauto.
Qed.

(** * depth *)
Definition param_call (sec : section) : section := mkSec None None (s_length sec) (depth_params sec).
Lemma filter_nodup_keys : forall (f : string * pval -> bool) l, NoDup (map fst l) -> NoDup (map fst (filter f l)).
Proof.
  induction l as [|a l IH]; simpl; intros N; auto. inversion N; subst.
  destruct (f a); simpl; auto. constructor; auto. intro I. apply H1.
  apply in_map_iff in I. destruct I as (x & E & I). apply filter_In in I. apply in_map_iff. exists x. tauto.
Qed.
Lemma loop_ok : forall top md secs slens rest extra calls lens s done dv,
  top < md -> map snd rest = secs ++ extra ->
  Forall2 (fun v len => s_length v = Some len /\ 0 < len /\ NoDup (map fst (s_other v))) secs slens ->
  length calls = length lens -> Forall (fun x => 0 < x) lens ->
  INV2 String_ top md calls lens s [] done dv -> stacked top md lens <> top ->
  md - top <= rsum lens + rsum slens ->
  exists m s' done' dv', depth_loop top rest s = inl s' /\ (0 < m <= length secs)%nat /\
    INV2 String_ top md (calls ++ map param_call (firstn m secs)) (lens ++ firstn m slens) s' [] done' dv' /\
    stacked top md (lens ++ firstn m slens) = top /\
    stacked top md (lens ++ firstn (m - 1) slens) <> top.
Proof.
  intros top md secs slens rest extra calls lens s done dv TM HR F. revert rest calls lens s done dv HR.
  induction F as [|v len secs slens (HL & HP & HN) F IH]; intros rest calls lens s done dv HR LE PL J NT SU.
  - exfalso. apply NT. simpl in SU. unfold stacked, Rmax. destruct (Rle_dec _ _); lra.
  - destruct rest as [|[k v'] rest]; [discriminate|]. simpl in HR. injection HR; intros HR' E. subst v'.
    simpl. rewrite HL.
    assert (SC : sized_call String_ (param_call v) len).
    { repeat split; simpl; auto. apply filter_nodup_keys; auto. discriminate. discriminate. }
    destruct (sized_step _ _ _ _ _ _ _ _ _ _ _ TM LE J SC) as (s2 & zs2 & done2 & dv2 & A & J2 & Z).
    destruct (Z NT) as [-> _]. clear Z. unfold param_call in A. rewrite HL in A. rewrite A.
    assert (PL2 : Forall (fun x => 0 < x) (lens ++ [len])) by (apply Forall_app; auto).
    destruct (inv_sections _ _ _ _ _ _ _ _ _ J2 PL2 (length lens)) as (v2 & L2 & T2 & B2 & _).
    { rewrite app_length. simpl. lia. }
    replace (length (lens ++ [len]) - 1 - length lens)%nat with 0%nat in L2 by (rewrite app_length; simpl; lia).
    rewrite L2, T2. rewrite (firstn_all2 (lens ++ [len])) by (rewrite app_length; simpl; lia).
    destruct (req _ top) eqn:Q.
    + apply req_true in Q. exists 1%nat, s2, done2, dv2. simpl. rewrite app_nil_r.
      split; [auto|]. split; [lia|]. split; [exact J2|]. split; [exact Q|exact NT].
    + assert (Q' : stacked top md (lens ++ [len]) <> top).
      { intro X. rewrite (proj2 (req_true _ _) X) in Q. discriminate. }
      destruct (IH rest (calls ++ [param_call v]) (lens ++ [len]) s2 done2 dv2) as (m & s3 & done3 & dv3 & D & Hm & J3 & E1 & E2); auto.
      { rewrite !app_length. simpl. lia. }
      { rewrite rsum_app. simpl in *. lra. }
      exists (S m), s3, done3, dv3. split; auto. split. lia.
      rewrite <- !app_assoc in *. simpl in *. split; [exact J3|]. split; [exact E1|].
      replace (m - 0)%nat with (S (m - 1)) by lia. simpl. auto.
Qed.
Lemma firstn_le_in : forall A (l : list A) m x, In x (firstn m l) -> In x l.
Proof. induction l; destruct m; simpl; intros; try tauto. destruct H; auto. right. eapply IHl; eauto. Qed.
Lemma string_depth : forall c top bottom calls lens s md,
  Forall2 (sized_call c) calls lens -> reached anything (new_str c BottomUp top bottom) calls s ->
  a_complete s = true -> top < md <= bottom ->
  exists s' m, depth s md = inl s' /\ a_cls s' = String_ /\ a_top s' = top /\ a_bottom s' = md /\
    a_complete s' = true /\ length (a_sections s') = m /\ (0 < m <= length calls)%nat /\
    rsum (firstn (m - 1) lens) < md - top <= rsum (firstn m lens) /\
    forall j, (j < m)%nat -> exists v kw, lookup (m - 1 - j) (a_sections s') = Some v /\
      nth_error calls j = Some kw /\
      s_top v = Some (stacked top md (firstn (S j) lens)) /\
      s_bottom v = Some (stacked top md (firstn j lens)) /\
      s_length v = nth_error lens j /\
      s_other v = filter (fun kv => negb (String.eqb (fst kv) "buoyancy_factor")) (s_other (with_defaults c kw)).
Proof.
  intros c top bottom calls lens s md F R CO [TM MB].
  destruct (sized_inv _ _ _ _ _ _ (Rlt_le_trans _ _ _ TM MB) F R) as (zs & done & dv & J).
  assert (PL := sized_pos _ _ _ F).
  assert (LE : length calls = length lens) by (clear -F; induction F; simpl; auto).
  destruct J. apply j_complete0 in CO.
  unfold depth. rewrite j_top0, j_bottom0.
  destruct (Rlt_dec top md); [|lra]. destruct (Rle_dec md bottom); [|lra].
  pose proof (firstn_skipn (length done) calls) as FSC. pose proof (firstn_skipn (length done) lens) as FSL.
  assert (DL : (length done <= length lens)%nat) by lia.
  assert (FD : Forall2 (fun v len => s_length v = Some len /\ 0 < len /\ NoDup (map fst (s_other v))) done (firstn (length done) lens)).
  { clear -F j_content0 DL LE. revert j_content0 DL. revert done. induction F as [|kw len calls lens SC F IH]; intros done E DL.
    - destruct done; simpl in *; [constructor|lia].
    - destruct done as [|v done]; simpl in *; [constructor|]. injection E; intros E1 E2 E3. 
      destruct SC as (H1 & H2 & H3 & H4 & H5 & H6). constructor.
      + split; [congruence|]. split; auto. rewrite E2. apply defaults_nodup; auto.
      + apply IH; auto. lia. }
  assert (SU : md - top <= 0 + rsum (firstn (length done) lens)).
  { assert (stacked top bottom (firstn (length done) lens) = top).
    { destruct (Nat.lt_ge_cases (length done) (length lens)); auto. rewrite firstn_all2; auto. }
    unfold stacked, Rmax in H. destruct (Rle_dec _ _); lra. }
  destruct (loop_ok top md done (firstn (length done) lens) (rev (a_sections s)) (rev zs) [] [] (new_str String_ BottomUp top md) [] [])
    as (m & s' & done' & dv' & D & Hm & J' & E1 & E2); auto.
  { rewrite map_rev, (i_secs _ _ _ _ _ j_inv0), number_vals, rev_app_distr, rev_involutive. auto. }
  { apply start_inv; auto. }
  { unfold stacked, Rmax. simpl. destruct (Rle_dec _ _); lra. }
  simpl app in *. rewrite firstn_firstn in *. rewrite Nat.min_l in * by lia. 
  rewrite ?(Nat.min_l (m - 1)) in E2 by lia.
  exists s', m. split; auto. rename J' into K.
  assert (LM : length (firstn m lens) = m) by (rewrite firstn_length; lia).
  assert (LD : length done' = m). { pose proof (j_len _ _ _ _ _ _ _ _ _ K). simpl in *. lia. }
  split. apply K. split. apply K. split. apply K. split. apply K; auto.
  split. { rewrite (i_secs _ _ _ _ _ (j_inv _ _ _ _ _ _ _ _ _ K)), number_length. simpl. rewrite rev_length. auto. }
  split. lia. split.
  { unfold stacked, Rmax in E1, E2. split.
    - destruct (Rle_dec top (md - rsum (firstn (m - 1) lens))); lra.
    - destruct (Rle_dec top (md - rsum (firstn m lens))); lra. }
  intros j Hj.
  assert (PM : Forall (fun x => 0 < x) (firstn m lens)).
  { rewrite Forall_forall in *. intros x Hx. apply PL. eapply firstn_le_in; eauto. }
  destruct (inv_sections _ _ _ _ _ _ _ _ _ K PM j) as (v & L & T & B & N). lia.
  rewrite LM in L. specialize (N eq_refl).
  rewrite !firstn_firstn in T, B. rewrite Nat.min_l in T, B by lia.
  destruct (nth_error calls j) as [kw|] eqn:Ek; [|apply nth_error_None in Ek; lia].
  exists v, kw. split; auto. split; auto. split; auto. split; auto.
  pose proof (j_content _ _ _ _ _ _ _ _ _ K) as C1.
  assert (C2 : content v = call_content String_ (param_call (nth j done v))).
  { assert (X : nth_error (map content done') j = Some (content v)) by (apply map_nth_error; auto).
    rewrite C1, LD in X. rewrite firstn_all2 in X by (rewrite !map_length, firstn_length; lia).
    destruct (nth_error done j) as [x|] eqn:Ex; [|apply nth_error_None in Ex; lia].
    rewrite (nth_error_nth _ _ v Ex).
    assert (Y : nth_error (firstn m done) j = Some x).
    { rewrite <- Ex. clear -Hj. revert j Hj done. induction m; intros j Hj done. lia. destruct done, j; simpl; auto. apply IHm. lia. }
    rewrite (map_nth_error _ _ _ (map_nth_error param_call _ _ Y)) in X. congruence. }
  assert (C3 : content (nth j done v) = call_content c kw).
  { destruct (nth_error done j) as [x|] eqn:Ex; [|apply nth_error_None in Ex; lia].
    rewrite (nth_error_nth _ _ v Ex).
    assert (X : nth_error (map content done) j = Some (content x)) by (apply map_nth_error; auto).
    rewrite j_content0 in X.
    assert (Y : nth_error (firstn (length done) (map (call_content c) calls)) j = Some (call_content c kw)).
    { rewrite <- (map_nth_error (call_content c) _ _ Ek).
      assert (J1 : (j < length done)%nat) by lia. clear -J1. revert j J1 calls. generalize (length done).
      induction n; intros j Hj calls. lia. destruct calls, j; simpl; auto. apply IHn. lia. }
    congruence. }
  unfold content, call_content, param_call in *. simpl in C2. injection C2; intros Q1 Q2. injection C3; intros Q3 Q4.
  split.
  - rewrite Q2, Q4.
    destruct (nth_error lens j) as [l|] eqn:El; [|apply nth_error_None in El; lia].
    clear -F Ek El. revert j Ek El. induction F as [|? ? ? ? (H & _)]; intros j Ek El; destruct j; simpl in *; try discriminate.
    + congruence. + eapply IHF; eauto.
  - rewrite Q1. unfold depth_params. rewrite Q3. auto.
Qed.
Lemma depth_range : forall s md, ~ (a_top s < md <= a_bottom s) -> depth s md = inr AssertionError.
Proof. intros s md H. unfold depth. destruct (Rlt_dec _ _); auto. destruct (Rle_dec _ _); auto. tauto. Qed.
Lemma depth_no_length : forall s md k v, a_top s < md <= a_bottom s ->
  last (a_sections s) (k, v) = (k, v) -> a_sections s <> [] -> s_length v = None ->
  depth s md = inr KeyError.
Proof.
  intros s md k v [A B] L NE N. unfold depth. destruct (Rlt_dec _ _); [|tauto]. destruct (Rle_dec _ _); [|tauto].
  destruct (a_sections s) as [|x l] using rev_ind; [congruence|].
  rewrite last_last in L. subst x. rewrite rev_app_distr. simpl. rewrite N. auto.
Qed.

(** * strings made unusable by a rejected call: C54 *)
Lemma always_raises : forall (Q : str -> Prop),
  (forall s kw, Q s -> exists e s', add_section s kw = (s', Some e) /\ Q s') ->
  forall calls s, Q s -> Forall (fun e => e <> None) (attempts s calls).
Proof.
  intros Q H. induction calls; simpl; intros s HQ. constructor.
  destruct (H s a HQ) as (e & s' & -> & HQ'). constructor; auto. discriminate.
Qed.
Lemma bu_dead : forall s kw, a_method s = BottomUp ->
  (exists v, lookup 0 (a_sections s) = Some v /\ s_top v = None) ->
  exists e, add_section s kw = (s, Some e).
Proof.
  intros s kw M (v & L & T). unfold add_section, add_bottom_up. rewrite M.
  destruct (a_sections s) as [|x d] eqn:E; [discriminate|]. rewrite L, T.
  destruct (a_cls s); eauto. destruct (_ && _)%bool; eauto.
Qed.
Lemma top_only_kills : forall c top bottom kw t, s_length kw = None -> s_top kw = Some t -> t <> 0 ->
  (c = WellBore -> In "id"%string (map fst (s_other kw)) /\ In "coeff_friction_sliding"%string (map fst (s_other kw))) ->
  exists s', add_section (new_str c BottomUp top bottom) kw = (s', Some UnboundLocalError) /\
    forall calls, Forall (fun e => e <> None) (attempts s' calls).
Proof.
  intros c top bottom kw t HL HT Nz W.
  assert (Go : add_section (new_str c BottomUp top bottom) kw =
     add_bottom_up (new_str c BottomUp top bottom) (with_defaults c kw)).
  { unfold add_section, with_defaults. simpl. destruct c; auto. destruct W as [W1 W2]; auto.
    apply has_key_in in W1. apply has_key_in in W2. rewrite W1, W2. auto. }
  destruct (defaults_geom c kw) as (G1 & G2 & G3).
  eexists. split.
  - rewrite Go. unfold add_bottom_up. simpl. rewrite G1, HL, G2, HT. simpl.
    unfold req. destruct (Req_EM_T t 0); [tauto|]. reflexivity.
  - intros calls. apply (always_raises (fun s => a_method s = BottomUp /\ exists v, lookup 0 (a_sections s) = Some v /\ s_top v = None)).
    + intros s k [M V]. destruct (bu_dead s k M V) as [e E]. eauto.
    + simpl. split; auto. eexists. split; reflexivity.
Qed.
(** top-down: a section below the string's bottom stays and fails every later check *)
Lemma sort_in : forall key d d' k v, sort_by key d = Some d' -> In (k, v) d -> In (k, v) d'.
Proof. intros. apply sort_spec in H. destruct H as [P _]. eapply Permutation_in; eauto. Qed.
Lemma assign_in : forall A k (v : A) d x, In x d -> fst x <> k -> In x (assign k v d).
Proof.
  induction d as [|[k' v'] d IH]; simpl; intros x I N; [tauto|].
  destruct (Nat.eqb_spec k k'); simpl.
  - destruct I as [<-|I]; auto. simpl in N. congruence.
  - destruct I; auto.
Qed.
Lemma assign_length : forall A k (v : A) d, (length d <= length (assign k v d))%nat.
Proof. induction d as [|[k' v'] d IH]; simpl. lia. destruct (Nat.eqb k k'); simpl; lia. Qed.
Lemma sort_length : forall key d d', sort_by key d = Some d' -> length d' = length d.
Proof. intros. apply sort_spec in H. destruct H as [P _]. symmetry. apply Permutation_length; auto. Qed.
Lemma assign_indexed : forall s v, indexed s ->
  assign (length (a_sections s)) v (a_sections s) =
  number 0 (map snd (a_sections s)) ++ [(length (map snd (a_sections s)), v)].
Proof. intros s v I. rewrite <- (assign_number _ v (map snd (a_sections s))). rewrite <- I. reflexivity. Qed.
Definition too_deep (s : str) : Prop := a_method s = TopDown /\
  exists k v b, In (k, v) (a_sections s) /\ (k < length (a_sections s))%nat /\ s_bottom v = Some b /\ a_bottom s < b.
Lemma td_reject : forall s kw, too_deep s -> exists e s', add_top_down s kw = (s', Some e) /\ too_deep s'.
Proof.
  intros s kw (M & k & v & b & I & K & B & L). unfold add_top_down.
  destruct (match a_sections s with [] => _ | _ => _ end) as [top|].
  2: { do 2 eexists. split; [reflexivity|]. split; auto. exists k, v, b. auto. }
  assert (I2 : In (k, v) (assign (length (a_sections s)) (override (mkSec (Some top) None None []) kw) (a_sections s))).
  { apply assign_in; auto. simpl. lia. }
  set (d := assign _ _ _) in *.
  assert (Ld : (length (a_sections s) <= length d)%nat) by apply assign_length.
  destruct (sort_by s_top d) as [d'|] eqn:E.
  2: { do 2 eexists. split; [reflexivity|]. split; auto. exists k, v, b. simpl. repeat split; auto. lia. }
  pose proof (sort_in _ _ _ _ _ E I2) as I3. pose proof (sort_length _ _ _ E) as LE.
  destruct (check_top_down _ _ _ _) as [e|] eqn:C.
  - do 2 eexists. split; [reflexivity|]. split; auto. exists k, v, b. simpl. repeat split; auto. lia.
  - exfalso. apply check_td in C. destruct C as (ivs & S & _ & _ & F).
    destruct (spans_in _ _ v S) as (t' & b' & I4 & T' & B'). apply in_map_iff. exists (k, v). auto.
    rewrite Forall_forall in F. specialize (F _ I4). simpl in F. assert (b' = b) by congruence. lra.
Qed.
Lemma td_reject_section : forall s kw, too_deep s -> exists e s', add_section s kw = (s', Some e) /\ too_deep s'.
Proof.
  intros s kw T. pose proof T as (M & _). unfold add_section. rewrite M.
  destruct (a_cls s); try (apply td_reject; auto).
  destruct (_ && _)%bool. apply td_reject; auto. eauto.
Qed.
Lemma too_deep_kills : forall c top bottom calls s kw b,
  reached anything (new_str c TopDown top bottom) calls s ->
  s_bottom kw = Some b -> bottom < b ->
  (c = WellBore -> In "id"%string (map fst (s_other kw)) /\ In "coeff_friction_sliding"%string (map fst (s_other kw))) ->
  exists s' e, add_section s kw = (s', Some e) /\
    forall calls', Forall (fun e => e <> None) (attempts s' calls').
Proof.
  intros c top bottom calls s kw b R HB L W.
  destruct (history_td _ _ _ _ _ _ R) as (C & M & T & B & I & LE & K & _).
  assert (X : exists e s', add_section s kw = (s', Some e) /\ too_deep s').
  { assert (Go : add_section s kw = add_top_down s (with_defaults c kw)).
    { unfold add_section, with_defaults. rewrite M, C. destruct c; auto. destruct W as [W1 W2]; auto.
      apply has_key_in in W1. apply has_key_in in W2. rewrite W1, W2. auto. }
    rewrite Go. destruct (defaults_geom c kw) as (G1 & G2 & G3).
    unfold add_top_down.
    destruct (match a_sections s with [] => _ | _ => _ end) as [t0|] eqn:E0.
    - rewrite (assign_indexed _ _ I).
      set (v := override _ _).
      assert (BV : s_bottom v = Some b) by (unfold v; simpl; rewrite G3, HB; auto).
      assert (TV : exists t, s_top v = Some t) by (unfold v; simpl; destruct (s_top (with_defaults c kw)); simpl; eauto).
      clearbody v. set (d := number 0 _ ++ _).
      assert (I2 : In (length (map snd (a_sections s)), v) d) by (apply in_app_iff; simpl; auto).
      assert (Ld : (length (map snd (a_sections s)) < length d)%nat)
        by (unfold d; rewrite app_length, number_length; simpl; lia).
      destruct (sort_by s_top d) as [d'|] eqn:E.
      2: { do 2 eexists. split; [reflexivity|]. split; auto. do 3 eexists. simpl. repeat split; eauto. congruence. }
      pose proof (sort_in _ _ _ _ _ E I2) as I3. pose proof (sort_length _ _ _ E) as LE'.
      destruct (check_top_down _ _ _ _) as [e|] eqn:CH.
      + do 2 eexists. split; [reflexivity|]. split; auto. do 3 eexists. simpl. repeat split; eauto. lia. congruence.
      + exfalso. apply check_td in CH. destruct CH as (ivs & S & _ & _ & F).
        destruct (spans_in _ _ v S) as (t' & b' & I4 & T' & B'). apply in_map_iff. eexists. split; [|exact I3]. auto.
        rewrite Forall_forall in F. specialize (F _ I4). simpl in F. assert (b' = b) by congruence.
        change (snd (t', b')) with b' in F. rewrite B in F. lra.
    - exfalso. destruct (a_sections s) as [|x d] eqn:ES; [discriminate|].
      destruct K as (body & t & bb & S & _). { intro; subst calls; simpl in *; lia. }
      rewrite <- ES in *. rewrite I in E0. rewrite number_length, map_length, lookup_number in E0 by lia.
      destruct (nth_error (map snd (a_sections s)) (length (a_sections s) - 1 - 0)) as [v|] eqn:EN.
      + apply nth_error_In in EN. destruct (spans_in _ _ _ S EN) as (? & ? & _ & _ & Q). congruence.
      + apply nth_error_None in EN. rewrite map_length in EN. rewrite ES in EN. simpl in EN. lia. }
  destruct X as (e & s' & A & TD). exists s', e. split; auto. intros calls'.
  apply (always_raises too_deep); auto. intros. apply td_reject_section; auto.
Qed.

(** * negative lengths *)
Definition neg_kw (l : R) : section := mkSec None None (Some l) [].
Ltac rdec := repeat match goal with
  | |- context [Rlt_dec ?a ?b] => destruct (Rlt_dec a b); try lra
  | |- context [Rle_dec ?a ?b] => destruct (Rle_dec a b); try lra
  | |- context [Req_EM_T ?a ?b] => destruct (Req_EM_T a b); try lra
  end.
Lemma negative_length : exists s,
  reached anything (new_str String_ BottomUp 0 10) [neg_kw 10; neg_kw (-5)] s /\
  a_complete s = true /\ exists v, lookup 0 (a_sections s) = Some v /\ s_top v = Some 5 /\ s_bottom v = Some 0.
Proof.
  assert (E1 : add_section (new_str String_ BottomUp 0 10) (neg_kw 10) =
    (mkStr String_ BottomUp 0 10 [(0%nat, mkSec (Some 0) (Some 10) (Some 10) [])] true, None)).
  { unfold add_section, add_bottom_up, neg_kw, req, truthy, sort_by, new_str. simpl. unfold req, rle. rdec.
    simpl. rdec. simpl. unfold finish. simpl. replace (10 - 10) with 0 by lra. rdec. reflexivity. }
  assert (E2 : add_section (mkStr String_ BottomUp 0 10 [(0%nat, mkSec (Some 0) (Some 10) (Some 10) [])] true) (neg_kw (-5)) =
    (mkStr String_ BottomUp 0 10 [(0%nat, mkSec (Some 5) (Some 0) (Some (-5)) []); (1%nat, mkSec (Some 0) (Some 10) (Some 10) [])] true, None)).
  { unfold add_section, add_bottom_up, neg_kw, req, truthy, sort_by. simpl. unfold req, rle. rdec.
    simpl. rdec. simpl. unfold req, rle. rdec. simpl. unfold finish. simpl. replace (0 - -5) with 5 by lra. reflexivity. }
  eexists. split; [|split].
  - change [neg_kw 10; neg_kw (-5)] with (([] ++ [neg_kw 10]) ++ [neg_kw (-5)]).
    eapply reached_call; [eapply reached_call; [apply reached_start|exact E1|exact I]|exact E2|exact I].
  - reflexivity.
  - eexists. split; [reflexivity|]. split; reflexivity.
Qed.
