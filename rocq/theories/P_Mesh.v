(** Faces of the well mesh form a closed surface. *)
Require Import Reals ZArith Bool String List FinFun Lra Lia Psatz.
Require Import Verif.Base Verif.NumPy Verif.M_Utils Verif.M_Mesh Verif.Spec_Mesh.
Import ListNotations.
Open Scope nat_scope.

(** ** vertices by ring and position *)
Lemma fm_map : forall A B C (f : B -> list C) (g : A -> B) l, flat_map f (map g l) = flat_map (fun x => f (g x)) l.
Proof. induction l; simpl; congruence. Qed.
Lemma map_fm : forall A B C (f : B -> C) (g : A -> list B) l, map f (flat_map g l) = flat_map (fun x => map f (g x)) l.
Proof. induction l; simpl; auto. rewrite map_app. congruence. Qed.
Inductive vert := Ring (r a : nat) | Top | Bot.
Section Faces.
  Variables (n rows : nat).
  Hypothesis Hn : 3 <= n.
  Hypothesis Hr : 2 <= rows.

  Definition nxt (a : nat) : nat := if S a =? n then 0 else S a.
  Lemma nxt_spec : forall a, (S a = n /\ nxt a = 0) \/ (S a <> n /\ nxt a = S a).
  Proof. intro a. unfold nxt. destruct (Nat.eqb_spec (S a) n); auto. Qed.

  Definition enc (v : vert) : nat :=
    match v with Ring r a => r * n + a | Top => rows * n | Bot => rows * n + 1 end.
  Definition ok (v : vert) : Prop := match v with Ring r a => r < rows /\ a < n | _ => True end.
  Lemma ring_lt : forall r a, r < rows -> a < n -> r * n + a < rows * n.
  Proof. intros. assert (S r * n <= rows * n) by (apply Nat.mul_le_mono_r; lia). simpl in H1. lia. Qed.
  Lemma enc_inj : forall u v, ok u -> ok v -> enc u = enc v -> u = v.
  Proof.
    intros u v Hu Hv E. destruct u as [r a| |], v as [r' a'| |]; simpl in *; auto.
    - destruct (Nat.lt_trichotomy r r') as [L|[L|L]].
      + assert (S r * n <= r' * n) by (apply Nat.mul_le_mono_r; lia). simpl in H. lia.
      + subst r'. f_equal. lia.
      + assert (S r' * n <= r * n) by (apply Nat.mul_le_mono_r; lia). simpl in H. lia.
    - pose proof (ring_lt r a). lia.
    - pose proof (ring_lt r a). lia.
    - pose proof (ring_lt r' a'). lia.
    - lia.
    - pose proof (ring_lt r' a'). lia.
    - lia.
  Qed.

  Definition tri : Type := (vert * vert * vert)%type.
  Definition enc3 (t : tri) : face := let '(a, b, c) := t in (enc a, enc b, enc c).
  Definition f_top a : tri := (Top, Ring 0 a, Ring 0 (nxt a)).
  Definition f_one r a : tri := (Ring r a, Ring (S r) a, Ring (S r) (nxt a)).
  Definition f_two r a : tri := (Ring r a, Ring r (nxt a), Ring (S r) (nxt a)).
  Definition f_bot a : tri := (Bot, Ring (rows - 1) (nxt a), Ring (rows - 1) a).
  Definition tris : list tri :=
    map f_top (seq 0 n) ++
    flat_map (fun r => flat_map (fun a => [f_one r a; f_two r a]) (seq 0 n)) (seq 0 (rows - 1)) ++
    map f_bot (seq 0 n).

  Lemma AB : combine (seq 0 n) (roll1 (seq 0 n)) = map (fun a => (a, nxt a)) (seq 0 n).
  Proof.
    assert (G : forall m s, s + m = n -> combine (seq s m) (seq (S s) (m - 1) ++ [0]) = map (fun a => (a, nxt a)) (seq s m)).
    { induction m; intros s E; auto. simpl. rewrite Nat.sub_0_r. destruct m.
      - simpl. unfold nxt. destruct (Nat.eqb_spec (S s) n); [auto|lia].
      - specialize (IHm (S s) ltac:(lia)). simpl Nat.sub in IHm. rewrite Nat.sub_0_r in IHm. simpl app.
        simpl seq in IHm at 1. cbn [seq]. rewrite IHm. unfold nxt at 2. destruct (Nat.eqb_spec (S s) n); [lia|reflexivity]. }
    specialize (G n 0 eq_refl). rewrite <- G. f_equal. destruct n; [lia|]. simpl. rewrite Nat.sub_0_r. reflexivity.
  Qed.
  Lemma LU : combine (removelast (map (fun r => r + r * (n - 1)) (seq 0 rows))) (tl (map (fun r => r + r * (n - 1)) (seq 0 rows)))
           = map (fun r => (r * n, S r * n)) (seq 0 (rows - 1)).
  Proof.
    assert (E : forall l, map (fun r => r + r * (n - 1)) l = map (fun r => r * n) l).
    { intro l. apply map_ext. intro r. rewrite Nat.mul_sub_distr_l, Nat.mul_1_r. assert (r <= r * n) by nia. lia. }
    rewrite E.
    assert (G : forall m s, combine (removelast (map (fun r => r * n) (seq s (S m)))) (tl (map (fun r => r * n) (seq s (S m))))
       = map (fun r => (r * n, S r * n)) (seq s m)).
    { induction m; intro s; auto. specialize (IHm (S s)).
      change (seq s (S (S m))) with (s :: S s :: seq (S (S s)) m). change (seq (S s) (S m)) with (S s :: seq (S (S s)) m) in IHm.
      cbn [map removelast tl] in *. cbn [seq map combine]. f_equal. rewrite <- IHm. destruct (seq (S (S s)) m); reflexivity. }
    specialize (G (rows - 1) 0). replace (S (rows - 1)) with rows in G by lia. exact G.
  Qed.
  Lemma faces_enc : get_faces n rows = map enc3 tris.
  Proof.
    unfold get_faces, get_ends. rewrite AB, LU. unfold tris. rewrite !map_app, !map_map. apply f_equal2; [reflexivity|apply f_equal2; [|reflexivity]].
    rewrite fm_map, map_fm. apply flat_map_ext. intro r. rewrite fm_map, map_fm. apply flat_map_ext. intro a.
    unfold enc3, f_one, f_two, enc. cbn [map fst snd]. rewrite !(Nat.add_comm a), !(Nat.add_comm (nxt a)). reflexivity.
  Qed.
  Lemma tris_in : forall t, In t tris <->
    (exists a, a < n /\ t = f_top a) \/ (exists r a, r < rows - 1 /\ a < n /\ (t = f_one r a \/ t = f_two r a)) \/
    (exists a, a < n /\ t = f_bot a).
  Proof.
    intro t. unfold tris. rewrite !in_app_iff, !in_map_iff, in_flat_map. split.
    - intros [(a & <- & I)|[(r & I & J)|(a & <- & I)]].
      + apply in_seq in I. left. exists a. split; auto. lia.
      + apply in_seq in I. apply in_flat_map in J. destruct J as (a & J & K). apply in_seq in J. simpl in K.
        right; left. exists r, a. split; [lia|]. split; [lia|]. intuition auto.
      + apply in_seq in I. right; right. exists a. split; auto. lia.
    - intros [(a & I & ->)|[(r & a & I & J & K)|(a & I & ->)]].
      + left. exists a. split; auto. apply in_seq. lia.
      + right; left. exists r. split. apply in_seq; lia. apply in_flat_map. exists a. split. apply in_seq; lia.
        simpl. intuition auto.
      + right; right. exists a. split; auto. apply in_seq. lia.
  Qed.
  Lemma NoDup_map_seq : forall A (f : nat -> A) m s, (forall a b, f a = f b -> a = b) -> NoDup (map f (seq s m)).
  Proof. intros. apply FinFun.Injective_map_NoDup. exact H. apply seq_NoDup. Qed.
  Lemma NoDup_app' : forall A (l m : list A), NoDup l -> NoDup m -> (forall x, In x l -> ~ In x m) -> NoDup (l ++ m).
  Proof.
    induction l; simpl; intros m Hl Hm H; auto. inversion Hl; subst. constructor.
    - rewrite in_app_iff. intros [I|I]; [tauto|]. apply (H a); auto.
    - apply IHl; auto.
  Qed.
  Lemma NoDup_flat_map' : forall A B (f : A -> list B) l, NoDup l -> (forall a, NoDup (f a)) ->
    (forall a b x, In x (f a) -> In x (f b) -> a = b) -> NoDup (flat_map f l).
  Proof.
    induction l; simpl; intros Hl Hf H. constructor. inversion Hl; subst. apply NoDup_app'; auto.
    intros x I J. apply in_flat_map in J. destruct J as (b & J & K). assert (a = b) by (eapply H; eauto). subst. tauto.
  Qed.
  Lemma tris_NoDup : NoDup tris.
  Proof.
    unfold tris. apply NoDup_app'; [|apply NoDup_app'|].
    - apply NoDup_map_seq. intros a b E. injection E; auto.
    - apply NoDup_flat_map'. apply seq_NoDup.
      + intro r. apply NoDup_flat_map'. apply seq_NoDup.
        * intro a. repeat constructor; simpl; auto. intros [E|[]]. injection E; intros. lia.
        * intros a b x [<-|[<-|[]]] [E|[E|[]]]; injection E; intros; auto; lia.
      + intros r r' x I J. apply in_flat_map in I. apply in_flat_map in J.
        destruct I as (a & _ & [<-|[<-|[]]]), J as (b & _ & [E|[E|[]]]); injection E; intros; auto.
    - apply NoDup_map_seq. intros a b E. injection E; auto.
    - intros x I J. apply in_flat_map in I. destruct I as (r & _ & I). apply in_flat_map in I. destruct I as (a & _ & I).
      apply in_map_iff in J. destruct J as (b & <- & _). simpl in I. destruct I as [E|[E|[]]]; discriminate.
    - intros x I J. apply in_map_iff in I. destruct I as (b & <- & _). apply in_app_iff in J. destruct J as [J|J].
      + apply in_flat_map in J. destruct J as (r & _ & J). apply in_flat_map in J. destruct J as (a & _ & J).
        simpl in J. destruct J as [E|[E|[]]]; discriminate.
      + apply in_map_iff in J. destruct J as (c & E & _). discriminate.
  Qed.

  Definition vsides (t : tri) : list (vert * vert) := let '(a, b, c) := t in [(a, b); (b, c); (c, a)].
  Definition side (x y : vert) (t : tri) : Prop := In (x, y) (vsides t) \/ In (y, x) (vsides t).
  Definition okt (t : tri) : Prop := let '(a, b, c) := t in ok a /\ ok b /\ ok c.
  Lemma nxt_lt : forall a, a < n -> nxt a < n.
  Proof. intros a H. destruct (nxt_spec a); lia. Qed.
  Lemma tris_ok : forall t, In t tris -> okt t.
  Proof.
    intros t I. apply tris_in in I. destruct I as [(a & I & ->)|[(r & a & I & J & [->| ->])|(a & I & ->)]];
    pose proof (nxt_lt a); simpl; repeat split; auto; try lia.
  Qed.
  Lemma has_side_enc : forall x y t, ok x -> ok y -> okt t -> has_side (enc x) (enc y) (enc3 t) = true <-> side x y t.
  Proof.
    intros x y [[a b] c] Hx Hy (Ha & Hb & Hc). unfold has_side, sides, enc3, side, vsides. simpl.
    rewrite !orb_true_iff, !andb_true_iff, !Nat.eqb_eq.
    assert (I : forall u v, ok u -> ok v -> enc u = enc v <-> u = v).
    { intros u v Hu Hv. split. apply enc_inj; auto. congruence. }
    rewrite !I by auto. rewrite <- !pair_equal_spec. intuition (auto; discriminate).
  Qed.

  Lemma PRV : forall a, a < n -> exists p, p < n /\ nxt p = a.
  Proof. intros a H. destruct a. exists (n - 1). destruct (nxt_spec (n - 1)); lia. exists a. destruct (nxt_spec a); lia. Qed.
  Lemma TT : forall a, a < n -> In (f_top a) tris.
  Proof. intros; apply tris_in; eauto. Qed.
  Lemma TB : forall a, a < n -> In (f_bot a) tris.
  Proof. intros; apply tris_in; eauto 6. Qed.
  Lemma T1 : forall r a, r < rows - 1 -> a < n -> In (f_one r a) tris.
  Proof. intros; apply tris_in; right; left; exists r, a; auto. Qed.
  Lemma T2 : forall r a, r < rows - 1 -> a < n -> In (f_two r a) tris.
  Proof. intros; apply tris_in; right; left; exists r, a; auto. Qed.
  Lemma UU : forall P : tri -> Prop, (forall c, c < n -> P (f_top c)) -> (forall c, c < n -> P (f_bot c)) ->
      (forall s c, s < rows - 1 -> c < n -> P (f_one s c)) -> (forall s c, s < rows - 1 -> c < n -> P (f_two s c)) ->
      forall u, In u tris -> P u.
  Proof. intros P A1 A2 A3 A4 u Iu. apply tris_in in Iu.
    destruct Iu as [(c & Hc & ->)|[(s & c & Hs & Hc & [->| ->])|(c & Hc & ->)]]; auto. Qed.
    Ltac nl := repeat match goal with
      | H : context[nxt ?a] |- _ => pose proof (nxt_spec a);
          let z := fresh "z" in let E := fresh "E" in remember (nxt a) as z eqn:E; clear E
      end; lia.
    Ltac same := match goal with
      | |- f_top ?c = f_top ?a => assert (c = a) by nl; congruence
      | |- f_bot ?c = f_bot ?a => assert (c = a) by nl; congruence
      | |- f_one ?r ?c = f_one ?s ?a => assert (r = s) by nl; assert (c = a) by nl; congruence
      | |- f_two ?r ?c = f_two ?s ?a => assert (r = s) by nl; assert (c = a) by nl; congruence
      end.
    Ltac solve2 := subst; split; [first [apply TT | apply TB | apply T1 | apply T2]; lia|]; split;
      [let K := fresh in intro K; injection K; intros; exfalso; nl || discriminate|]; split;
      [unfold side; cbn; first [tauto | match goal with Er : S _ = _ |- _ => rewrite ?Er; tauto end]|];
      match goal with |- forall u, In u tris -> @?P u => refine (UU P _ _ _ _); cbv beta end; intros;
      match goal with SU : side _ _ _ |- _ => unfold side, vsides, f_top, f_one, f_two, f_bot in SU; simpl in SU;
        destruct SU as [[SU|[SU|[SU|[]]]]|[SU|[SU|[SU|[]]]]]; try discriminate; injection SU; clear SU; intros end;
      first [left; same | right; same | exfalso; nl].
  (** the two faces at each side *)
  Lemma two_faces : forall t x y, In t tris -> In (x, y) (vsides t) ->
    exists t', In t' tris /\ t' <> t /\ side x y t' /\ forall u, In u tris -> side x y u -> u = t \/ u = t'.
  Proof.
    intros t x y I S.
    apply tris_in in I.
    destruct I as [(a & I & ->)|[(r & a & I & J & [->| ->])|(a & I & ->)]]; simpl in S;
    destruct S as [E|[E|[E|[]]]]; injection E; clear E; intros Ey Ex.
    (* top: T-a, a-b, b-T *)
    - destruct (PRV a I) as (p & Hp & Ep). exists (f_top p). solve2.
    - exists (f_two 0 a). solve2.
    - exists (f_top (nxt a)). pose proof (nxt_lt a). solve2.
    - destruct (PRV a J) as (p & Hp & Ep). exists (f_two r p). solve2.
    - destruct (Nat.eq_dec r (rows - 2)). exists (f_bot a). assert (Er : S r = rows - 1) by lia. solve2. exists (f_two (S r) a). solve2.
    - exists (f_two r a). solve2.
    - destruct (Nat.eq_dec r 0). subst r. exists (f_top a). solve2. exists (f_one (r - 1) a). assert (Er : S (r - 1) = r) by lia. solve2.
    - exists (f_one r (nxt a)). pose proof (nxt_lt a). solve2.
    - exists (f_one r a). solve2.
    - exists (f_bot (nxt a)). pose proof (nxt_lt a). solve2.
    - exists (f_one (rows - 2) a). assert (Er : S (rows - 2) = rows - 1) by lia. solve2.
    - destruct (PRV a I) as (p & Hp & Ep). exists (f_bot p). solve2.
  Qed.

  Lemma filter_map' : forall A B (p : B -> bool) (g : A -> B) l, filter p (map g l) = map g (filter (fun x => p (g x)) l).
  Proof. induction l; simpl; auto. destruct (p (g a)); simpl; congruence. Qed.
  Lemma two_len : forall A (l : list A) a b, NoDup l -> a <> b -> (forall u, In u l <-> u = a \/ u = b) -> length l = 2.
  Proof.
    intros A l a b N D H. assert (L1 : length l <= 2).
    { apply (NoDup_incl_length N (l' := [a; b])). intros u Iu. apply H in Iu. simpl. intuition auto. }
    assert (N2 : NoDup [a; b]) by (repeat constructor; simpl; intuition auto).
    assert (L2 : 2 <= length l). { apply (NoDup_incl_length N2). intros u Iu. apply H. simpl in Iu. intuition auto. }
    lia.
  Qed.
  Lemma side_ok : forall t x y, okt t -> In (x, y) (vsides t) -> ok x /\ ok y.
  Proof. intros [[a b] c] x y (Ha & Hb & Hc) [E|[E|[E|[]]]]; injection E; intros; subst; auto. Qed.
  Lemma in_sides : forall t x y, In (x, y) (sides (enc3 t)) -> exists u v, In (u, v) (vsides t) /\ x = enc u /\ y = enc v.
  Proof. intros [[a b] c] x y [E|[E|[E|[]]]]; injection E; intros; subst; simpl; eauto 8. Qed.
  Lemma edges_two : forall f x y, In f (get_faces n rows) -> In (x, y) (sides f) ->
    length (filter (has_side x y) (get_faces n rows)) = 2.
  Proof.
    intros f x y I S. rewrite faces_enc in *. apply in_map_iff in I. destruct I as (t & <- & I).
    apply in_sides in S. destruct S as (u & v & S & -> & ->).
    destruct (two_faces t u v I S) as (t' & I' & D & S' & U).
    destruct (side_ok t u v (tris_ok t I) S) as [Hu Hv].
    rewrite filter_map', map_length. apply (two_len _ _ t t').
    - apply NoDup_filter, tris_NoDup.
    - auto.
    - intro w. rewrite filter_In. split.
      + intros [Iw Hw]. apply has_side_enc in Hw; auto. apply tris_ok; auto.
      + intros [->| ->]; (split; [auto|]); apply has_side_enc; auto using tris_ok. left; auto.
  Qed.
  Lemma enc_lt : forall v, ok v -> enc v < rows * n + 2.
  Proof. intros [r a| |] H; simpl; try lia. destruct H. pose proof (ring_lt r a). lia. Qed.
  Lemma tri_distinct : forall t, In t tris -> let '(a, b, c) := t in a <> b /\ b <> c /\ a <> c.
  Proof.
    assert (E : forall a, nxt a <> a) by (intro a; destruct (nxt_spec a); lia).
    intros t I. apply tris_in in I. destruct I as [(a & I & ->)|[(r & a & I & J & [->| ->])|(a & I & ->)]];
    specialize (E a); simpl; (split; [|split]); try discriminate; intro K; injection K; intros; try lia; congruence.
  Qed.
  Lemma faces_indices : forall f, In f (get_faces n rows) ->
    (forall v, In v (corners f) -> v < n * rows + 2) /\ NoDup (corners f).
  Proof.
    intros f I. rewrite faces_enc in I. apply in_map_iff in I. destruct I as (t & <- & I).
    pose proof (tris_ok t I) as O. pose proof (tri_distinct t I) as D. destruct t as [[a b] c]. destruct O as (Oa & Ob & Oc).
    destruct D as (D1 & D2 & D3). simpl. split.
    - rewrite (Nat.mul_comm n). intros v [<-|[<-|[<-|[]]]]; apply enc_lt; auto.
    - assert (X : forall u v, ok u -> ok v -> u <> v -> enc u <> enc v). { intros u v Hu Hv H E. apply H, enc_inj; auto. }
      repeat constructor; simpl; intuition eauto; try (eapply X; [| |exact D1|]; eauto; fail);
      try (eapply X; [| |exact D2|]; eauto; fail); try (eapply X; [| |exact D3|]; eauto; fail).
  Qed.
  Lemma flat_len : forall A B (f : A -> list B) k l, (forall a, length (f a) = k) -> length (flat_map f l) = k * length l.
  Proof. induction l; simpl; intros; [lia|]. rewrite app_length, H, IHl; auto. lia. Qed.
  Lemma faces_count : length (get_faces n rows) = 2 * n * rows.
  Proof.
    rewrite faces_enc, map_length. unfold tris. rewrite !app_length, !map_length, !seq_length.
    rewrite (flat_len _ _ _ (2 * n)). rewrite seq_length. nia.
    intro r. rewrite (flat_len _ _ _ 2). rewrite seq_length; auto. reflexivity.
  Qed.
  Lemma faces_NoDup : NoDup (get_faces n rows).
  Proof.
    rewrite faces_enc. assert (G : forall l, NoDup l -> (forall t, In t l -> In t tris) -> NoDup (map enc3 l)).
    { induction l as [|t l IH]; intros N H; simpl; constructor; inversion N; subst.
      - intro K. apply in_map_iff in K. destruct K as (u & E & K).
        assert (u = t).
        { pose proof (tris_ok u (H u (or_intror K))) as O1. pose proof (tris_ok t (H t (or_introl eq_refl))) as O2.
          destruct u as [[a b] c], t as [[a' b'] c']. destruct O1 as (?&?&?), O2 as (?&?&?).
          simpl in E. injection E; intros. f_equal; [f_equal|]; apply enc_inj; auto. }
        subst. tauto.
      - apply IH; auto. intros; apply H; right; auto. }
    apply G; auto using tris_NoDup.
  Qed.
  Definition vcorners (t : tri) := let '(a, b, c) := t in [a; b; c].
  Lemma corner_enc : forall t v, In v (vcorners t) -> In (enc v) (corners (enc3 t)).
  Proof. intros [[a b] c] v [<-|[<-|[<-|[]]]]; simpl; auto. Qed.
  Lemma joined_enc : forall t u v z, In t tris -> In u (vcorners t) -> In v (vcorners t) ->
    joined (get_faces n rows) (enc v) z -> joined (get_faces n rows) (enc u) z.
  Proof.
    intros. apply (j_step _ _ (enc v) _ (enc3 t)); auto using corner_enc. rewrite faces_enc. apply in_map; auto.
  Qed.
  Lemma ring_joined : forall r a, r < rows -> a < n -> joined (get_faces n rows) (enc (Ring r a)) (enc (Ring 0 0)).
  Proof.
    induction r; intros a L La.
    - induction a. constructor.
      assert (nxt a = S a) by (destruct (nxt_spec a); lia).
      apply (joined_enc (f_top a) _ (Ring 0 a)); [apply TT; lia| | |apply IHa; lia]; simpl; rewrite ?H; auto.
    - apply (joined_enc (f_one r a) _ (Ring r a)); [apply T1; lia| | |apply IHr; lia]; simpl; auto.
  Qed.
  Lemma dec_vert : forall v, v < n * rows + 2 -> exists u, ok u /\ enc u = v.
  Proof.
    intros v L. destruct (Nat.lt_ge_cases v (rows * n)).
    - exists (Ring (v / n) (v mod n)). pose proof (Nat.div_mod v n ltac:(lia)). pose proof (Nat.mod_upper_bound v n ltac:(lia)).
      simpl. split; [split; [apply Nat.div_lt_upper_bound; lia|auto]|lia].
    - destruct (Nat.eq_dec v (rows * n)). exists Top; simpl; auto. exists Bot; simpl; split; auto. lia.
  Qed.
  Lemma faces_connected : forall v, v < n * rows + 2 -> joined (get_faces n rows) v 0.
  Proof.
    intros v L. destruct (dec_vert v L) as ([r a| |] & O & <-).
    - change 0 with (enc (Ring 0 0)). apply ring_joined; apply O.
    - change 0 with (enc (Ring 0 0)). apply (joined_enc (f_top 0) _ (Ring 0 0)); [apply TT; lia| | |apply ring_joined; lia]; simpl; auto.
    - change 0 with (enc (Ring 0 0)). apply (joined_enc (f_bot 0) _ (Ring (rows - 1) 0)); [apply TB; lia| | |apply ring_joined; lia]; simpl; auto.
  Qed.
  Lemma faces_use : forall v, v < n * rows + 2 -> exists f, In f (get_faces n rows) /\ In v (corners f).
  Proof.
    intros v L. destruct (dec_vert v L) as (u & O & <-).
    assert (X : exists t, In t tris /\ In u (vcorners t)).
    { destruct u as [r a| |]; simpl in O.
      - destruct (Nat.eq_dec r (rows - 1)). exists (f_bot a). split; [apply TB; lia|simpl; subst; auto].
        exists (f_one r a). split; [apply T1; lia|simpl; auto].
      - exists (f_top 0). split; [apply TT; lia|simpl; auto].
      - exists (f_bot 0). split; [apply TB; lia|simpl; auto]. }
    destruct X as (t & I & C). exists (enc3 t). split; [rewrite faces_enc; apply in_map; auto|apply corner_enc; auto].
  Qed.
  Lemma faces_wound : exists f g e, In f (get_faces n rows) /\ In g (get_faces n rows) /\ f <> g /\ In e (sides f) /\ In e (sides g).
  Proof.
    exists (enc3 (f_top 0)), (enc3 (f_two 0 0)), (enc (Ring 0 0), enc (Ring 0 (nxt 0))). rewrite faces_enc.
    split; [apply in_map, TT; lia|]. split; [apply in_map, T2; lia|]. split.
    - intro E. injection E; intros. simpl in *. nia.
    - simpl. auto.
  Qed.
End Faces.

Lemma mesh_closed : forall n rows, 3 <= n -> 2 <= rows ->
  (forall f, In f (get_faces n rows) -> forall x y, In (x, y) (sides f) ->
     length (filter (has_side x y) (get_faces n rows)) = 2) /\
  (forall v w, v < n * rows + 2 -> w < n * rows + 2 -> joined (get_faces n rows) v w).
Proof.
  intros n rows Hn Hr. split.
  - intros f I x y S. apply (edges_two n rows Hn Hr f x y I S).
  - intros v w Hv Hw.
    assert (SY : forall x y, joined (get_faces n rows) x y -> joined (get_faces n rows) y x).
    { assert (TR : forall x y z, joined (get_faces n rows) x y -> joined (get_faces n rows) y z -> joined (get_faces n rows) x z).
      { intros x y z H. induction H; auto. intro K. eapply j_step; eauto. }
      intros x y H. induction H. constructor. eapply TR; [exact IHjoined|]. eapply j_step; [exact H|exact H1|exact H0|constructor]. }
    assert (TR : forall x y z, joined (get_faces n rows) x y -> joined (get_faces n rows) y z -> joined (get_faces n rows) x z).
    { intros x y z H. induction H; auto. intro K. eapply j_step; eauto. }
    apply (TR v 0 w). apply faces_connected; auto. apply SY, faces_connected; auto.
Qed.
Lemma mesh_indices : forall n rows, 3 <= n -> 2 <= rows ->
  length (get_faces n rows) = 2 * n * rows /\ NoDup (get_faces n rows) /\
  (forall f, In f (get_faces n rows) -> NoDup (corners f) /\ forall v, In v (corners f) -> v < n * rows + 2) /\
  (forall v, v < n * rows + 2 -> exists f, In f (get_faces n rows) /\ In v (corners f)).
Proof.
  intros n rows Hn Hr. split; [apply faces_count; auto|]. split; [apply faces_NoDup; auto|]. split.
  - intros f I. destruct (faces_indices n rows Hn Hr f I); auto.
  - apply faces_use; auto.
Qed.
Lemma mesh_wound : forall n rows, 3 <= n -> 2 <= rows ->
  exists f g e, In f (get_faces n rows) /\ In g (get_faces n rows) /\ f <> g /\ In e (sides f) /\ In e (sides g).
Proof. intros. apply faces_wound; auto. Qed.
