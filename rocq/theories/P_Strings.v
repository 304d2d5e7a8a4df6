(** Proofs about welleng/architecture.py: C18, C19, C54. *)
Require Import Reals Lra Lia Bool String List Arith Permutation Sorted.
Require Import Verif.M_Architecture Verif.Spec_Strings.
Import ListNotations.
Open Scope R_scope.

(** * the stable sort *)
Definition le1 (a b : R * (nat * section)) : Prop := fst a <= fst b.
Lemma insert_perm : forall x l, Permutation (x :: l) (insert_by x l).
Proof.
  induction l as [|y l IH]; simpl; auto.
  destruct (Rlt_dec (fst x) (fst y)); auto.
  rewrite perm_swap. constructor. apply IH.
Qed.
Lemma fold_insert_perm : forall l acc, Permutation (acc ++ l) (fold_left (fun a x => insert_by x a) l acc).
Proof.
  induction l as [|x l IH]; simpl; intros.
  - rewrite app_nil_r. auto.
  - rewrite <- IH. rewrite <- insert_perm. symmetry. apply Permutation_middle.
Qed.
Lemma insert_sorted : forall x l, StronglySorted le1 l -> StronglySorted le1 (insert_by x l).
Proof.
  induction 1 as [|y l S IH F]; simpl.
  - repeat constructor.
  - destruct (Rlt_dec (fst x) (fst y)).
    + constructor. constructor; auto. constructor. unfold le1; lra.
      eapply Forall_impl; [|exact F]. unfold le1. intros; lra.
    + constructor; auto. rewrite Forall_forall in *. intros z Hz.
      apply (Permutation_in z (Permutation_sym (insert_perm x l))) in Hz.
      destruct Hz as [<-|Hz]; auto. unfold le1; lra.
Qed.
Lemma fold_insert_sorted : forall l acc, StronglySorted le1 acc ->
  StronglySorted le1 (fold_left (fun a x => insert_by x a) l acc).
Proof. induction l; simpl; intros; auto. apply IHl, insert_sorted; auto. Qed.
Lemma insert_end : forall x l, Forall (fun y => fst y <= fst x) l -> insert_by x l = l ++ [x].
Proof.
  induction l; simpl; intros F; auto. inversion F; subst.
  destruct (Rlt_dec (fst x) (fst a)); [lra|]. rewrite IHl; auto.
Qed.
Lemma insert_front : forall x l, Forall (fun y => fst x < fst y) l -> insert_by x l = x :: l.
Proof.
  destruct l; simpl; intros F; auto. inversion F; subst.
  destruct (Rlt_dec (fst x) (fst p)); [auto|lra].
Qed.
Lemma insert_mid : forall x l m, Forall (fun y => fst y <= fst x) l -> Forall (fun y => fst x < fst y) m ->
  insert_by x (l ++ m) = l ++ x :: m.
Proof.
  induction l; simpl; intros m F G. apply insert_front; auto.
  inversion F; subst. destruct (Rlt_dec (fst x) (fst a)); [lra|]. rewrite IHl; auto.
Qed.
Lemma fold_insert_id : forall l acc, StronglySorted le1 (acc ++ l) ->
  fold_left (fun a x => insert_by x a) l acc = acc ++ l.
Proof.
  induction l as [|x l IH]; simpl; intros acc S.
  - rewrite app_nil_r. auto.
  - rewrite insert_end.
    + rewrite IH; rewrite <- app_assoc; auto.
    + clear IH. induction acc; simpl in *; constructor.
      * inversion S; subst. rewrite Forall_forall in H2. apply (H2 x). apply in_app_iff; simpl; auto.
      * apply IHacc. inversion S; auto.
Qed.
Lemma keyed_spec : forall key d l, keyed key d = Some l ->
  map snd l = d /\ Forall (fun p => key (snd (snd p)) = Some (fst p)) l.
Proof.
  induction d as [|kv d IH]; simpl; intros l H.
  - injection H; intro; subst. auto.
  - destruct (key (snd kv)) eqn:E; [|discriminate]. destruct (keyed key d); [|discriminate].
    injection H; intro; subst l. destruct (IH _ eq_refl) as [A B]. simpl. rewrite A. auto.
Qed.
Lemma sort_spec : forall key d d', sort_by key d = Some d' ->
  Permutation d d' /\
  exists l, map snd l = d' /\ StronglySorted le1 l /\ Forall (fun p => key (snd (snd p)) = Some (fst p)) l.
Proof.
  intros key d d' H. unfold sort_by in H. destruct (keyed key d) eqn:E; [|discriminate].
  injection H; intro; subst d'. destruct (keyed_spec _ _ _ E) as [<- F].
  pose proof (fold_insert_perm l []) as P. simpl in P. split.
  - apply Permutation_map; auto.
  - eexists. split; [reflexivity|]. split. apply fold_insert_sorted. constructor.
    rewrite Forall_forall in *. intros x Hx. apply F. eapply Permutation_in; [symmetry; exact P|auto].
Qed.

(** * dictionaries with keys 0..n-1 *)
Lemma number_keys : forall A (l : list A) i, map fst (number i l) = seq i (length l).
Proof. induction l; simpl; intros; auto. rewrite IHl. auto. Qed.
Lemma number_vals : forall A (l : list A) i, map snd (number i l) = l.
Proof. induction l; simpl; intros; auto. rewrite IHl. auto. Qed.
Lemma number_length : forall A (l : list A) i, length (number i l) = length l.
Proof. induction l; simpl; intros; auto. Qed.
Lemma number_vals_keys : forall A (d : list (nat * A)) i, map fst d = seq i (length d) -> d = number i (map snd d).
Proof.
  induction d as [|[k v] d IH]; simpl; intros i H; auto. injection H; intros. subst k. f_equal. apply IH; auto.
Qed.
Lemma assign_new : forall A k (v : A) d, ~ In k (map fst d) -> assign k v d = d ++ [(k, v)].
Proof.
  induction d as [|[k' v'] d IH]; simpl; intros H; auto.
  destruct (Nat.eqb_spec k k'). subst; tauto. rewrite IH; tauto.
Qed.
Lemma assign_number : forall A (v : A) l, assign (length (number 0 l)) v (number 0 l) = number 0 l ++ [(length l, v)].
Proof.
  intros. rewrite assign_new. rewrite number_length. auto.
  rewrite number_keys, number_length. rewrite in_seq. lia.
Qed.
Lemma lookup_number : forall A (l : list A) i k, (i <= k)%nat -> lookup k (number i l) = nth_error l (k - i).
Proof.
  induction l; simpl; intros i k H. destruct (k - i)%nat; auto.
  destruct (Nat.eqb_spec k i). subst. rewrite Nat.sub_diag. auto.
  rewrite IHl by lia. replace (k - i)%nat with (S (k - S i)) by lia. auto.
Qed.

(** * the checks *)
Fixpoint joined (ivs : list (R * R)) : Prop :=
  match ivs with
  | a :: ((b :: _) as r) => snd a = fst b /\ joined r
  | _ => True
  end.
Lemma req_true : forall x y, req x y = true <-> x = y.
Proof. intros. unfold req. destruct (Req_EM_T x y); split; auto; discriminate. Qed.
Lemma rle_true : forall x y, rle x y = true <-> x <= y.
Proof. intros. unfold rle. destruct (Rle_dec x y); split; auto; try discriminate; tauto. Qed.
Definition from (prev : option section) (top : R) (ivs : list (R * R)) : Prop :=
  match ivs with [] => True | iv :: _ => match prev with None => fst iv = top | Some p => s_bottom p = Some (fst iv) end end.
Lemma check_td : forall top bottom vs prev,
  check_top_down top bottom prev vs = None <->
  exists ivs, spans vs ivs /\ joined ivs /\ from prev top ivs /\ Forall (fun iv => snd iv <= bottom) ivs.
Proof.
  induction vs as [|v vs IH]; intros prev; simpl.
  - split; auto. intros _. exists []. repeat split; simpl; constructor.
  - split.
    + destruct (match prev with None => Some top | Some p => s_bottom p end) as [want|] eqn:W; [|discriminate].
      destruct (s_top v) as [t|] eqn:T; [|discriminate].
      destruct (req t want) eqn:Q; [|discriminate]. apply req_true in Q. subst want.
      destruct (s_bottom v) as [b|] eqn:B; [|discriminate].
      destruct (rle b bottom) eqn:L; [|discriminate]. apply rle_true in L.
      rewrite IH. intros (ivs & S & J & F & A). exists ((t, b) :: ivs). split; [|split; [|split]].
      * constructor; auto.
      * simpl. destruct ivs as [|iv ivs]; simpl; auto. split; auto. simpl in F. congruence.
      * simpl. destruct prev; congruence.
      * constructor; auto.
    + intros (ivs & S & J & F & A). inversion S as [|? iv ? ivs' [T B] S']; subst. simpl in F.
      assert (W : match prev with None => Some top | Some p => s_bottom p end = Some (fst iv)).
      { destruct prev; auto. congruence. }
      rewrite W, T, B. inversion A; subst.
      rewrite (proj2 (req_true _ _)) by auto. rewrite (proj2 (rle_true _ _)) by auto.
      apply IH. exists ivs'. destruct ivs' as [|iv' ivs'']; simpl in *; auto.
      destruct J as [J1 J2]. repeat split; auto. congruence.
Qed.
Lemma check_bu : forall top bottom vs,
  check_bottom_up top bottom vs = None <->
  exists ivs, spans vs ivs /\ joined ivs /\ (ivs = [] \/ snd (last ivs (0, 0)) = bottom) /\
    Forall (fun iv => top <= fst iv) ivs.
Proof.
  induction vs as [|v vs IH]; simpl.
  - split; auto. intros _. exists []. repeat split; simpl; auto; constructor.
  - split.
    + destruct (match vs with [] => Some bottom | n :: _ => s_top n end) as [want|] eqn:W; [|discriminate].
      destruct (s_bottom v) as [b|] eqn:B; [|discriminate].
      destruct (req b want) eqn:Q; [|discriminate]. apply req_true in Q. subst want.
      destruct (s_top v) as [t|] eqn:T; [|discriminate].
      destruct (rle top t) eqn:L; [|discriminate]. apply rle_true in L.
      rewrite IH. intros (ivs & S & J & F & A). exists ((t, b) :: ivs). split; [|split; [|split]].
      * constructor; auto.
      * simpl. destruct ivs as [|iv ivs]; simpl; auto. split; auto.
        inversion S as [|? ? ? ? [T' B'] S']; subst. simpl in *. congruence.
      * right. destruct F as [->|F]. inversion S; subst. simpl in *. congruence.
        destruct ivs; simpl in *; auto. inversion S; subst. simpl in *. congruence.
      * constructor; auto.
    + intros (ivs & S & J & F & A). inversion S as [|? iv ? ivs' [T B] S']; subst.
      assert (W : match vs with [] => Some bottom | n :: _ => s_top n end = Some (snd iv)).
      { destruct F as [F|F]; [discriminate|]. inversion S' as [|v1 iv1 ? ? [T1 B1] S1]; subst; simpl in *; auto.
        destruct J; congruence. }
      rewrite W, T, B. inversion A; subst.
      rewrite (proj2 (req_true _ _)) by auto. rewrite (proj2 (rle_true _ _)) by auto.
      apply IH. exists ivs'. destruct F as [F|F]; [discriminate|]. destruct ivs' as [|iv' ivs'']; simpl in *; auto.
      destruct J as [J1 J2]. repeat split; auto.
Qed.
Lemma spans_det : forall vs a b, spans vs a -> spans vs b -> a = b.
Proof.
  intros vs a b H. revert b. induction H as [|v [t bo] vs a [T B] S IH]; intros b H; inversion H; subst; auto.
  destruct y as [t' b']. destruct H2 as [T' B']. simpl in *. f_equal; [congruence|auto].
Qed.

Lemma sorted_keys : forall l, StronglySorted le1 l -> StronglySorted Rle (map fst l).
Proof.
  induction 1; simpl; constructor; auto. rewrite Forall_forall in *. intros x Hx.
  apply in_map_iff in Hx. destruct Hx as (y & <- & Hy). apply H0; auto.
Qed.
Lemma keys_tops : forall (l : list (R * (nat * section))) ivs, Forall (fun p => s_top (snd (snd p)) = Some (fst p)) l ->
  spans (map snd (map snd l)) ivs -> map fst l = map fst ivs.
Proof.
  induction l; simpl; intros ivs F S; inversion S as [|? iv ? ivs' [T B] S']; subst; auto.
  inversion F; subst. simpl. f_equal; [congruence|auto].
Qed.
Lemma keys_bottoms : forall (l : list (R * (nat * section))) ivs, Forall (fun p => s_bottom (snd (snd p)) = Some (fst p)) l ->
  spans (map snd (map snd l)) ivs -> map fst l = map snd ivs.
Proof.
  induction l; simpl; intros ivs F S; inversion S as [|? iv ? ivs' [T B] S']; subst; auto.
  inversion F; subst. simpl. f_equal; [congruence|auto].
Qed.

(** * one successful call *)
Lemma add_section_go : forall s kw s' , add_section s kw = (s', None) ->
  (match a_method s with TopDown => add_top_down s (with_defaults (a_cls s) kw)
   | BottomUp => add_bottom_up s (with_defaults (a_cls s) kw) end) = (s', None).
Proof.
  intros s kw s' H. unfold add_section in H. unfold with_defaults.
  destruct (a_cls s); auto. destruct (_ && _)%bool; [auto|discriminate].
Qed.
Definition indexed (s : str) : Prop := a_sections s = number 0 (map snd (a_sections s)).
Lemma td_call : forall s kw s', indexed s -> a_method s = TopDown -> add_top_down s kw = (s', None) ->
  a_cls s' = a_cls s /\ a_method s' = TopDown /\ a_top s' = a_top s /\ a_bottom s' = a_bottom s /\ indexed s' /\
  exists v ivs l,
    Permutation (map snd (a_sections s) ++ [v]) (map snd (a_sections s')) /\
    spans (map snd (a_sections s')) ivs /\ joined ivs /\ from None (a_top s) ivs /\
    Forall (fun iv => snd iv <= a_bottom s) ivs /\
    ivs <> [] /\ StronglySorted Rle (map fst ivs) /\
    l = last ivs (0,0) /\
    a_complete s' = (a_complete s || req (snd l) (a_bottom s))%bool.
Proof.
  intros s kw s' I M H. unfold add_top_down in H.
  destruct (match a_sections s with [] => Some (a_top s) | _ => match lookup (length (a_sections s) - 1) (a_sections s) with Some sec => s_bottom sec | None => None end end) as [top|]; [|discriminate].
  set (v := override (mkSec (Some top) None None []) kw) in *.
  destruct (sort_by s_top _) as [d'|] eqn:E; [|discriminate].
  destruct (check_top_down _ _ _ _) eqn:C; [discriminate|].
  injection H; intro; subst s'. clear H. unfold finish. cbn [a_cls a_method a_top a_bottom a_sections a_complete].
  repeat split; auto. { unfold indexed. simpl. rewrite number_vals. auto. }
  rewrite number_vals.
  apply sort_spec in E. destruct E as (P & l & EL & SS & FK).
  rewrite I, assign_number in P. apply (Permutation_map snd) in P. rewrite map_app, number_vals in P. simpl in P.
  apply check_td in C. destruct C as (ivs & S & J & F & A).
  assert (NE : map snd d' <> []).
  { intro N. rewrite N in P. apply Permutation_sym, Permutation_nil in P. destruct (map snd (a_sections s)); discriminate. }
  exists v, ivs, (last ivs (0,0)). repeat split; auto.
  - intro N. subst ivs. inversion S. congruence.
  - replace (map fst ivs) with (map fst l). apply sorted_keys; auto.
    subst d'. eapply keys_tops; eauto.
  - f_equal. clear -S NE. 
    assert (G : s_bottom (last (map snd d') kw) = Some (snd (last ivs (0,0)))).
    { revert NE. induction S as [|v iv vs ivs [T B] S IH]; intro NE; [congruence|].
      destruct S as [|v2 iv2 vs2 ivs2 Q S]; simpl; auto. apply IH. discriminate. }
    rewrite G. auto.
Qed.
Lemma bu_call : forall s kw s', indexed s -> a_method s = BottomUp -> add_bottom_up s kw = (s', None) ->
  a_cls s' = a_cls s /\ a_method s' = BottomUp /\ a_top s' = a_top s /\ a_bottom s' = a_bottom s /\ indexed s' /\
  exists v iv ivs,
    Permutation (map snd (a_sections s) ++ [v]) (map snd (a_sections s')) /\
    spans (map snd (a_sections s')) (iv :: ivs) /\ joined (iv :: ivs) /\
    snd (last (iv :: ivs) (0,0)) = a_bottom s /\
    Forall (fun iv => a_top s <= fst iv) (iv :: ivs) /\
    StronglySorted Rle (map snd (iv :: ivs)) /\
    a_complete s' = (a_complete s || req (fst iv) (a_top s))%bool.
Proof.
  intros s kw s' I M H. unfold add_bottom_up in H.
  match type of H with match ?m with Some _ => _ | None => _ end = _ => destruct m as [bottom|]; [|discriminate] end.
  match type of H with match ?m with inl _ => _ | inr _ => _ end = _ => destruct m as [[top|]|]; [|discriminate|discriminate] end.
  set (v := override (mkSec (Some top) (Some bottom) None []) kw) in *.
  destruct (sort_by s_bottom _) as [d'|] eqn:E; [|discriminate].
  destruct (check_bottom_up _ _ _) eqn:C; [discriminate|].
  injection H; intro; subst s'. clear H. unfold finish. cbn [a_cls a_method a_top a_bottom a_sections a_complete].
  repeat split; auto. { unfold indexed. simpl. rewrite number_vals. auto. }
  rewrite number_vals.
  apply sort_spec in E. destruct E as (P & l & EL & SS & FK).
  rewrite I, assign_number in P. apply (Permutation_map snd) in P. rewrite map_app, number_vals in P. simpl in P.
  apply check_bu in C. destruct C as (ivs & S & J & F & A).
  assert (NE : map snd d' <> []).
  { intro N. rewrite N in P. apply Permutation_sym, Permutation_nil in P. destruct (map snd (a_sections s)); discriminate. }
  destruct ivs as [|iv ivs]. { inversion S; congruence. }
  destruct F as [F|F]; [discriminate|].
  exists v, iv, ivs. repeat split; auto.
  - replace (map snd (iv :: ivs)) with (map fst l). apply sorted_keys; auto.
    subst d'. eapply keys_bottoms; eauto.
  - f_equal. clear -S. inversion S as [|? ? ? ? [T B] S']; subst. simpl. rewrite T. auto.
Qed.

(** * histories *)
Lemma joined_tiles_td : forall ivs t0, ivs <> [] -> joined ivs -> fst (hd (0,0) ivs) = t0 -> StronglySorted Rle (map fst ivs) ->
  exists body t b, ivs = body ++ [(t, b)] /\ tiles t0 t body.
Proof.
  induction ivs as [|[t b] ivs IH]; intros t0 NE J H S. congruence.
  simpl in H. subst t0. destruct ivs as [|[t2 b2] ivs].
  - exists [], t, b. split; auto. simpl. auto.
  - simpl in J. destruct J as [J1 J2]. simpl in J1. subst b.
    inversion S as [|? ? S' F]; subst.
    destruct (IH t2) as (body & t' & b' & E & T); auto. discriminate.
    exists ((t, t2) :: body), t', b'. rewrite E. split; auto. simpl. repeat split; auto.
    rewrite Forall_forall in F. apply F. simpl. auto.
Qed.
Lemma joined_tiles_bu : forall ivs t b hi, joined ((t, b) :: ivs) -> snd (last ((t, b) :: ivs) (0,0)) = hi ->
  StronglySorted Rle (map snd ((t, b) :: ivs)) -> tiles b hi ivs.
Proof.
  induction ivs as [|[t2 b2] ivs IH]; intros t b hi J L S. simpl in *. auto.
  destruct J as [J1 J2]. simpl in J1. subst t2.
  inversion S as [|? ? S' F]; subst. simpl. split; [|split]; auto.
  - rewrite Forall_forall in F. apply F. simpl. auto.
  - apply (IH b b2); auto.
Qed.
Lemma spans_in : forall vs ivs v, spans vs ivs -> In v vs ->
  exists t b, In (t, b) ivs /\ s_top v = Some t /\ s_bottom v = Some b.
Proof.
  induction 1 as [|x [t b] vs ivs [T B] S IH]; simpl; intros I. tauto.
  destruct I as [->|I]. exists t, b. auto. destruct (IH I) as (t' & b' & ? & ? & ?). eauto 6.
Qed.
Lemma spans_in_iv : forall vs ivs t b, spans vs ivs -> In (t, b) ivs ->
  exists v, In v vs /\ s_top v = Some t /\ s_bottom v = Some b.
Proof.
  induction 1 as [|x [t' b'] vs ivs [T B] S IH]; simpl; intros I. tauto.
  destruct I as [E|I]. injection E; intros; subst. eauto. destruct (IH I) as (v & ? & ? & ?). eauto.
Qed.
Lemma upright_vals : forall s v t b, upright s -> In v (map snd (a_sections s)) ->
  s_top v = Some t -> s_bottom v = Some b -> t <= b.
Proof.
  intros s v t b U I T B. apply in_map_iff in I. destruct I as ([k v'] & <- & I). eapply U; eauto.
Qed.
Lemma tiles_snoc : forall body lo t b, tiles lo t body -> t <= b -> tiles lo b (body ++ [(t, b)]).
Proof.
  induction body as [|[x y] body IH]; simpl; intros lo t b H L.
  - subst. auto.
  - destruct H as (-> & L1 & H). repeat split; auto.
Qed.
Lemma tiles_le : forall body lo hi, tiles lo hi body -> lo <= hi /\ forall t b, In (t, b) body -> lo <= t /\ t <= b /\ b <= hi.
Proof.
  induction body as [|[x y] body IH]; simpl; intros lo hi H.
  - subst. split. lra. tauto.
  - destruct H as (-> & L1 & H). destruct (IH _ _ H) as [L2 A]. split. lra.
    intros t b [E|I]. injection E; intros; subst; lra. specialize (A _ _ I). lra.
Qed.
Lemma spans_snoc_tiles : forall s body t b lo, upright s -> spans (map snd (a_sections s)) (body ++ [(t, b)]) ->
  tiles lo t body -> tiles lo b (body ++ [(t, b)]).
Proof.
  intros s body t b lo U S T. apply tiles_snoc; auto.
  destruct (spans_in_iv _ _ t b S) as (v & I & A & B). apply in_app_iff; simpl; auto.
  eapply upright_vals; eauto.
Qed.
Lemma history_td : forall P c top bottom calls s, reached P (new_str c TopDown top bottom) calls s ->
  a_cls s = c /\ a_method s = TopDown /\ a_top s = top /\ a_bottom s = bottom /\ indexed s /\
  length (a_sections s) = length calls /\
  (calls <> [] -> exists body t b, spans (map snd (a_sections s)) (body ++ [(t, b)]) /\
     tiles top t body /\ Forall (fun iv => snd iv <= bottom) (body ++ [(t, b)])) /\
  (calls = [] -> a_complete s = false).
Proof.
  intros P c top bottom calls s H. induction H as [|calls s kw s' H IH A HP].
  - simpl. repeat split; auto. congruence.
  - destruct IH as (C & M & T & B & I & L & _). apply add_section_go in A. rewrite M in A.
    destruct (td_call _ _ _ I M A) as (C' & M' & T' & B' & I' & v & ivs & l & PM & SP & J & F & FB & NE & SS & -> & CO).
    repeat split; auto; try congruence.
    + apply Permutation_length in PM. rewrite app_length, !map_length in PM. rewrite app_length. simpl in *. lia.
    + intros _. destruct (joined_tiles_td ivs top) as (body & t & b & E & TL); auto.
      { destruct ivs; [congruence|]. simpl in *. congruence. }
      subst ivs. exists body, t, b. split; auto. split; auto. rewrite B in FB. auto.
    + intro E. destruct calls; discriminate.
Qed.
Lemma history_bu : forall P c top bottom calls s, reached P (new_str c BottomUp top bottom) calls s ->
  a_cls s = c /\ a_method s = BottomUp /\ a_top s = top /\ a_bottom s = bottom /\ indexed s /\
  length (a_sections s) = length calls /\
  (calls <> [] -> exists body t b, spans (map snd (a_sections s)) ((t, b) :: body) /\
     tiles b bottom body /\ Forall (fun iv => top <= fst iv) ((t, b) :: body)) /\
  (calls = [] -> a_complete s = false).
Proof.
  intros P c top bottom calls s H. induction H as [|calls s kw s' H IH A HP].
  - simpl. repeat split; auto. congruence.
  - destruct IH as (C & M & T & B & I & L & _). apply add_section_go in A. rewrite M in A.
    destruct (bu_call _ _ _ I M A) as (C' & M' & T' & B' & I' & v & [t b] & ivs & PM & SP & J & F & FB & SS & CO).
    repeat split; auto; try congruence.
    + apply Permutation_length in PM. rewrite app_length, !map_length in PM. rewrite app_length. simpl in *. lia.
    + intros _. exists ivs, t, b. split; auto. rewrite T in FB. split; auto.
      eapply joined_tiles_bu; eauto. congruence.
    + intro E. destruct calls; discriminate.
Qed.
(** C18 *)
Lemma strings_top_down : forall c top bottom calls s,
  reached anything (new_str c TopDown top bottom) calls s -> calls <> [] ->
  map fst (a_sections s) = seq 0 (length calls) /\
  exists body t b, spans (map snd (a_sections s)) (body ++ [(t, b)]) /\
    tiles top t body /\ Forall (fun iv => snd iv <= bottom) (body ++ [(t, b)]) /\
    (t <= b -> tiles top b (body ++ [(t, b)])).
Proof.
  intros c top bottom calls s H NE. destruct (history_td _ _ _ _ _ _ H) as (_ & _ & _ & _ & I & L & K & _).
  split. { rewrite I, number_keys, map_length. congruence. }
  destruct (K NE) as (body & t & b & S & T & F). exists body, t, b. repeat split; auto. apply tiles_snoc; auto.
Qed.
Lemma strings_bottom_up : forall c top bottom calls s,
  reached anything (new_str c BottomUp top bottom) calls s -> calls <> [] ->
  map fst (a_sections s) = seq 0 (length calls) /\
  exists body t b, spans (map snd (a_sections s)) ((t, b) :: body) /\
    tiles b bottom body /\ Forall (fun iv => top <= fst iv) ((t, b) :: body) /\
    (t <= b -> tiles t bottom ((t, b) :: body)).
Proof.
  intros c top bottom calls s H NE. destruct (history_bu _ _ _ _ _ _ H) as (_ & _ & _ & _ & I & L & K & _).
  split. { rewrite I, number_keys, map_length. congruence. }
  destruct (K NE) as (body & t & b & S & T & F). exists body, t, b. repeat split; auto.
Qed.
Lemma complete_td : forall c top bottom calls s,
  reached upright (new_str c TopDown top bottom) calls s -> calls <> [] ->
  exists ivs hi, spans (map snd (a_sections s)) ivs /\ tiles top hi ivs /\ hi <= bottom /\
    (a_complete s = true <-> hi = bottom).
Proof.
  intros c top bottom calls s H. induction H as [|calls s kw s' H IH A HP]; intros NE. congruence.
  destruct (history_td _ _ _ _ _ _ H) as (C & M & T & B & I & L & _ & Z). 
  apply add_section_go in A. rewrite M in A.
  destruct (td_call _ _ _ I M A) as (C' & M' & T' & B' & I' & v & ivs & l & PM & SP & J & F & FB & NE2 & SS & -> & CO).
  destruct (joined_tiles_td ivs top) as (body & t & b & E & TL); auto.
  { destruct ivs; [congruence|]. simpl in *. congruence. }
  subst ivs. exists (body ++ [(t, b)]), b. split; auto.
  assert (TT := spans_snoc_tiles _ _ _ _ _ HP SP TL). split; auto.
  assert (LB : b <= bottom). { rewrite Forall_forall in FB. rewrite <- B. apply (FB (t, b)). apply in_app_iff; simpl; auto. }
  split; auto. rewrite CO, orb_true_iff, req_true, last_last, B. simpl.
  split; auto. intros [Q|]; auto.
  destruct calls as [|k calls]. { rewrite Z in Q by auto. discriminate. }
  destruct IH as (ivs & hi & S1 & T1 & L1 & K1). discriminate.
  assert (hi = bottom) by (apply K1; auto). subst hi.
  assert (X : exists t1, In (t1, bottom) ivs).
  { clear -T1 S1 L. destruct ivs as [|i0 ivs] using rev_ind.
    - inversion S1. destruct (a_sections s); simpl in *; [lia|discriminate].
    - destruct i0 as [t1 b1]. exists t1. apply in_app_iff. right. left.
      f_equal. clear -T1. revert top T1. induction ivs as [|[x y] ivs IH]; simpl; intros top T1.
      + tauto. + apply (IH y); tauto. }
  destruct X as [t1 X]. destruct (spans_in_iv _ _ _ _ S1 X) as (v1 & I1 & A1 & B1).
  assert (I2 : In v1 (map snd (a_sections s'))). { eapply Permutation_in; [exact PM|]. apply in_app_iff; auto. }
  destruct (spans_in _ _ _ SP I2) as (t2 & b2 & I3 & A3 & B3).
  apply (proj2 (tiles_le _ _ _ TT)) in I3. assert (b2 = bottom) by congruence. lra.
Qed.
Lemma complete_bu : forall c top bottom calls s,
  reached upright (new_str c BottomUp top bottom) calls s -> calls <> [] ->
  exists ivs lo, spans (map snd (a_sections s)) ivs /\ tiles lo bottom ivs /\ top <= lo /\
    (a_complete s = true <-> lo = top).
Proof.
  intros c top bottom calls s H. induction H as [|calls s kw s' H IH A HP]; intros NE. congruence.
  destruct (history_bu _ _ _ _ _ _ H) as (C & M & T & B & I & L & _ & Z). 
  apply add_section_go in A. rewrite M in A.
  destruct (bu_call _ _ _ I M A) as (C' & M' & T' & B' & I' & v & [t b] & ivs & PM & SP & J & F & FB & SS & CO).
  rewrite T in *. rewrite B in *.
  exists ((t, b) :: ivs), t. split; auto.
  assert (U : t <= b).
  { destruct (spans_in_iv _ _ t b SP) as (x & I3 & A3 & B3). simpl; auto. eapply upright_vals; eauto. }
  assert (TT : tiles t bottom ((t, b) :: ivs)).
  { simpl. repeat split; auto. eapply joined_tiles_bu; eauto. }
  split; auto. assert (top <= t) by (inversion FB; auto). split; auto.
  rewrite CO, orb_true_iff, req_true. simpl. split; auto. intros [Q|]; auto.
  destruct calls as [|k calls]. { rewrite Z in Q by auto. discriminate. }
  destruct IH as (jvs & lo & S1 & T1 & L1 & K1). discriminate.
  assert (lo = top) by (apply K1; auto). subst lo.
  destruct jvs as [|[t1 b1] jvs].
  { inversion S1. destruct (a_sections s); simpl in *; [lia|discriminate]. }
  simpl in T1. destruct T1 as (-> & _).
  destruct (spans_in_iv _ _ top b1 S1) as (v1 & I1 & A1 & B1). simpl; auto.
  assert (I2 : In v1 (map snd (a_sections s'))). { eapply Permutation_in; [exact PM|]. apply in_app_iff; auto. }
  destruct (spans_in _ _ _ SP I2) as (t2 & b2 & I3 & A3 & B3).
  apply (proj2 (tiles_le _ _ _ TT)) in I3. assert (t2 = top) by congruence. lra.
Qed.
