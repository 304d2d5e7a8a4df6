(** The formula interpreter: acceptance, calls, names read. *)
Require Import Bool String List Lia.
Require Import Verif.M_Interpreter Verif.Spec_Interpreter.
Import ListNotations.

(** induction over the tree *)
Lemma node_rec' : forall P : node -> Prop,
  (forall l o r, P l -> P r -> P (BinOp l o r)) -> (forall o e, P e -> P (UnaryOp o e)) ->
  (forall c, P (Constant c)) -> (forall x, P (Name x)) ->
  (forall f a k, P f -> Forall P a -> Forall (fun q => P (snd q)) k -> P (Call f a k)) ->
  (forall c l, Forall P l -> P (Other c l)) -> forall n, P n.
Proof.
  intros P HB HU HC HN HF HO. fix IH 1. intros [l o r|o e|c|x|f a k|c l].
  - apply HB; apply IH.
  - apply HU; apply IH.
  - apply HC.
  - apply HN.
  - apply HF; [apply IH| |].
    + induction a; constructor; auto.
    + induction k as [|[s q] k IHk]; constructor; cbn; auto.
  - apply HO. induction l; constructor; auto.
Qed.
Lemma mem_In : forall x l, mem x l = true <-> In x l.
Proof.
  intros. unfold mem. rewrite existsb_exists. split.
  - intros (y & I & E). apply String.eqb_eq in E. subst. auto.
  - intros I. exists x. split; [auto|apply String.eqb_refl].
Qed.
Lemma allowed_arithmetic : forall o, allowed_oper o = true <-> arithmetic o.
Proof.
  intros o. unfold arithmetic, binary. split.
  - destruct o; cbn; intro H; try discriminate; tauto.
  - intros [[->|[->|[->|[->| ->]]]]|[->| ->]]; reflexivity.
Qed.
Lemma forallb_flat : forall {A B} (f : A -> list B) p l,
  forallb p (flat_map f l) = forallb (fun x => forallb p (f x)) l.
Proof. intros. induction l; cbn; auto. rewrite forallb_app, IHl. reflexivity. Qed.
Lemma allowed_not_builtins : ~ In "__builtins__"%string allowed_funcs.
Proof. intro I. apply mem_In in I. discriminate. Qed.
Lemma bin_inv : forall l o r, confined (BinOp l o r) -> arithmetic o /\ confined l /\ confined r.
Proof. intros l o r H. inversion H. auto. Qed.
Lemma un_inv : forall o e, confined (UnaryOp o e) -> arithmetic o /\ confined e.
Proof. intros o e H. inversion H. auto. Qed.
Lemma name_inv : forall x, confined (Name x) -> x <> "__builtins__"%string.
Proof. intros x H. inversion H. auto. Qed.
Lemma call_inv : forall f a k, confined (Call f a k) ->
  exists g, f = Name g /\ k = [] /\ In g allowed_funcs /\ Forall confined a.
Proof. intros f a k H. inversion H. eauto. Qed.
Lemma other_inv : forall c l, ~ confined (Other c l).
Proof. intros c l H. inversion H. Qed.
Theorem validate_confined : forall n, validate n = true <-> confined n.
Proof.
  intro n. unfold validate. split.
  - induction n as [l o r IHl IHr|o e IH|c|x|f a k IHf IHa IHk|c l IH] using node_rec'; cbn; intro H.
    + apply andb_prop in H. destruct H as [Ho H]. rewrite forallb_app in H. apply andb_prop in H. destruct H.
      constructor; auto. apply allowed_arithmetic; auto.
    + apply andb_prop in H. destruct H. constructor; auto. apply allowed_arithmetic; auto.
    + constructor.
    + constructor. rewrite andb_true_r in H. apply negb_true_iff in H. apply String.eqb_neq in H. auto.
    + apply andb_prop in H. destruct H as [Hf H]. destruct f; try discriminate.
      rewrite !forallb_app, !forallb_flat in H. apply andb_prop in H. destruct H as [_ H]. apply andb_prop in H. destruct H as [Ha Hk].
      destruct k as [|q k]; [|discriminate].
      constructor; [apply mem_In; auto|]. rewrite forallb_forall in Ha. rewrite Forall_forall in *. auto.
    + discriminate.
  - induction n as [l o r IHl IHr|o e IH|c|x|f a k IHf IHa IHk|c l IH] using node_rec'; intro H.
    + apply bin_inv in H. destruct H as (Ho & Hl & Hr). cbn. rewrite forallb_app, IHl, IHr by auto.
      apply allowed_arithmetic in Ho. rewrite Ho. reflexivity.
    + apply un_inv in H. destruct H as (Ho & He). cbn. rewrite IH by auto. apply allowed_arithmetic in Ho. rewrite Ho. reflexivity.
    + reflexivity.
    + apply name_inv in H. cbn. apply String.eqb_neq in H. rewrite H. reflexivity.
    + apply call_inv in H. destruct H as (g & -> & -> & G & A).
      cbn [walk forallb check flat_map]. rewrite app_nil_r, forallb_app, forallb_flat.
      pose proof G as I. apply mem_In in I. rewrite I. cbn.
      destruct (String.eqb_spec g "__builtins__"); [subst; exfalso; revert G; apply allowed_not_builtins|]. cbn.
      rewrite forallb_forall. rewrite Forall_forall in *. auto.
    + exfalso. revert H. apply other_inv.
Qed.

Section Facts.
Context {V : Type} (m : machine V) (ns : list (string * V)).
Fixpoint evals (l : list node) : (list V + outcome V) * @trace V :=
  match l with
  | [] => (inl [], [])
  | a :: rest =>
      match eval m ns a with
      | (Value v, t1) =>
          match evals rest with
          | (inl vs, t2) => (inl (v :: vs), t1 ++ t2)
          | (inr e, t2) => (inr e, t1 ++ t2)
          end
      | (e, t1) => (inr e, t1)
      end
  end.
Lemma eval_call : forall f a k, eval m ns (Call f a k) =
  match eval m ns f with
  | (Value g, t0) =>
      match evals a with
      | (inl vs, t) => (match m_call m g vs with Some v => Value v | None => Raised end, t0 ++ t ++ [(g, vs)])
      | (inr e, t) => (e, t0 ++ t)
      end
  | r => r
  end.
Proof.
  intros. cbn [eval]. destruct (eval m ns f) as [[g|y|] t0]; reflexivity.
Qed.
(** everything called is the value of a whitelisted name *)
Lemma eval_calls : forall n, confined n -> forall g vs, In (g, vs) (snd (eval m ns n)) ->
  exists f, In f allowed_funcs /\ lookup f ns = Some g.
Proof.
  induction n as [l o r IHl IHr|o e IH|c|x|f a k IHf IHa IHk|c l IH] using node_rec'; intros C g vs I.
  - apply bin_inv in C. destruct C as (_ & Cl & Cr). cbn in I. destruct (eval m ns l) as [[a|y|] t1]; [|eauto|eauto].
    destruct (eval m ns r) as [[b|y|] t2]; cbn in *; apply in_app_or in I; destruct I; eauto.
  - apply un_inv in C. destruct C as (_ & C). cbn in I. destruct (eval m ns e) as [[a|y|] t]; cbn in *; eauto.
  - destruct I.
  - cbn in I. destruct (lookup x ns); destruct I.
  - apply call_inv in C. destruct C as (f0 & -> & -> & G & Ca).
    rewrite eval_call in I. cbn [eval] in I. destruct (lookup f0 ns) as [h|] eqn:L; [|destruct I].
    assert (A : forall g vs, In (g, vs) (snd (evals a)) -> exists f, In f allowed_funcs /\ lookup f ns = Some g).
    { clear - IHa Ca. induction a as [|q a IH2]; intros g vs I; [destruct I|].
      apply Forall_cons_iff in IHa. destruct IHa as [Hq IHa]. apply Forall_cons_iff in Ca. destruct Ca as [Cq Ca]. cbn in I.
      destruct (eval m ns q) as [[v|y|] t1]; [|eauto|eauto].
      destruct (evals a) as [[w|e] t2]; cbn in *; apply in_app_or in I; destruct I as [I|I]; eauto. }
    destruct (evals a) as [[w|e] t]; cbn in *; [|eauto].
    apply in_app_or in I. destruct I as [I|[I|[]]]; [eauto|]. injection I as -> ->. eauto.
  - exfalso. revert C. apply other_inv.
Qed.
(** a NameError names a name of the formula that is not bound *)
Lemma eval_name_error : forall n x t, confined n -> eval m ns n = (NameError x, t) -> occurs x n /\ lookup x ns = None.
Proof.
  intros n x. unfold occurs.
  induction n as [l o r IHl IHr|o e IH|c|y|f a k IHf IHa IHk|c l IH] using node_rec'; intros t C E.
  - apply bin_inv in C. destruct C as (_ & Cl & Cr).
    cbn in E. destruct (eval m ns l) as [[p|y|] t1] eqn:El; [|injection E as -> ->|discriminate].
    + destruct (eval m ns r) as [[q|y|] t2] eqn:Er; [destruct (m_bin m o p q); discriminate|injection E as -> <-|discriminate].
      destruct (IHr t2 Cr eq_refl). cbn. split; [right; apply in_or_app|]; auto.
    + destruct (IHl t Cl eq_refl). cbn. split; [right; apply in_or_app|]; auto.
  - apply un_inv in C. destruct C as (_ & C).
    cbn in E. destruct (eval m ns e) as [[p|y|] t1] eqn:El; [destruct (m_un m o p); discriminate|injection E as -> ->|discriminate].
    destruct (IH t C eq_refl). cbn. auto.
  - discriminate.
  - cbn in E. destruct (lookup y ns) eqn:L; [discriminate|]. injection E as <- <-. cbn. auto.
  - apply call_inv in C. destruct C as (f0 & -> & -> & G & Ca).
    rewrite eval_call in E. cbn [eval] in E. destruct (lookup f0 ns) as [h|] eqn:L.
    + assert (A : forall t, evals a = (inr (NameError x), t) -> In (Name x) (flat_map walk a) /\ lookup x ns = None).
      { clear - IHa Ca. induction a as [|q a IH2]; intros t E; [discriminate|].
        apply Forall_cons_iff in IHa. destruct IHa as [Hq IHa]. apply Forall_cons_iff in Ca. destruct Ca as [Cq Ca]. cbn in E.
        destruct (eval m ns q) as [[v|y|] t1] eqn:Eq; [|injection E as -> ->|discriminate].
        - destruct (evals a) as [[w|e] t2]; [discriminate|]. injection E as -> <-.
          destruct (IH2 IHa Ca t2 eq_refl). cbn. split; [apply in_or_app|]; auto.
        - destruct (Hq t Cq eq_refl). cbn. split; [apply in_or_app|]; auto. }
      destruct (evals a) as [[w|e] t1]; [destruct (m_call m h w); discriminate|]. injection E as -> <-.
      destruct (A t1 eq_refl) as [B D]. split; [|auto]. cbn. right. right. apply in_or_app. auto.
    + injection E as <- <-. cbn. auto.
  - exfalso. revert C. apply other_inv.
Qed.
End Facts.
(** the outcome depends only on the names that occur *)
Lemma eval_ext : forall {V} (m : machine V) ns1 ns2 n,
  (forall x, occurs x n -> lookup x ns1 = lookup x ns2) -> eval m ns1 n = eval m ns2 n.
Proof.
  intros V m ns1 ns2. unfold occurs.
  induction n as [l o r IHl IHr|o e IH|c|y|f a k IHf IHa IHk|c l IH] using node_rec'; intro H; cbn in H.
  - cbn. rewrite IHl, IHr; auto; intros; apply H; right; apply in_or_app; auto.
  - cbn. rewrite IH; auto.
  - reflexivity.
  - cbn. rewrite H; auto.
  - rewrite !eval_call, IHf by (intros; apply H; right; apply in_or_app; auto).
    assert (A : evals m ns1 a = evals m ns2 a).
    { assert (H' : forall x, In (Name x) (flat_map walk a) -> lookup x ns1 = lookup x ns2)
        by (intros; apply H; right; apply in_or_app; right; apply in_or_app; auto).
      clear - IHa H'. induction a as [|q a IH]; [reflexivity|]. inversion IHa; subst. cbn.
      rewrite H1, IH; auto; intros; apply H'; cbn; apply in_or_app; auto. }
    rewrite A. reflexivity.
  - reflexivity.
Qed.
Lemma lookup_app : forall {V} x (a b : list (string * V)),
  lookup x (a ++ b) = match lookup x a with Some v => Some v | None => lookup x b end.
Proof. intros. induction a as [|[k v] a IH]; cbn; auto. destruct (String.eqb x k); auto. Qed.
Lemma lookup_table : forall {V} (f : string -> V) x l,
  lookup x (map (fun y => (y, f y)) l) = if mem x l then Some (f x) else None.
Proof.
  intros. induction l as [|y l IH]; [reflexivity|]. cbn. destruct (String.eqb_spec x y); [subst; reflexivity|]. exact IH.
Qed.
Lemma lookup_namespace : forall {V} (tb : string -> V) b x, lookup x (namespace tb b) =
  match lookup x b with Some v => Some v | None => if mem x table_names then Some (tb x) else None end.
Proof. intros. unfold namespace. rewrite lookup_app, lookup_table. reflexivity. Qed.
Lemma allowed_in_table : forall x, In x allowed_funcs <-> In x table_names.
Proof. intro x. cbn. tauto. Qed.

(** ** the property lemmas *)
Theorem formula_accepted : forall (V : Type) (m : machine V) tb b n, evaluate_formula m tb b n <> None <-> confined n.
Proof.
  intros. unfold evaluate_formula. rewrite <- validate_confined. destruct (validate n); split; congruence.
Qed.
Theorem formula_calls : forall (V : Type) (m : machine V) tb b n o t g vs, evaluate_formula m tb b n = Some (o, t) ->
  In (g, vs) t -> exists f, In f allowed_funcs /\
    (lookup f b = Some g \/ (lookup f b = None /\ g = tb f)).
Proof.
  intros V m tb b n o t g vs H I. unfold evaluate_formula in H. destruct (validate n) eqn:C; [|discriminate].
  apply validate_confined in C. injection H as H.
  destruct (eval_calls m (namespace tb b) n C g vs) as (f & F & L); [rewrite H; auto|].
  exists f. split; auto. rewrite lookup_namespace in L.
  destruct (lookup f b) as [v|]; [left; auto|]. right.
  apply allowed_in_table in F. apply mem_In in F. rewrite F in L. injection L as <-. auto.
Qed.
Theorem formula_reads : forall (V : Type) (m : machine V) tb b1 b2 n,
  (forall x, occurs x n -> lookup x b1 = lookup x b2) ->
  evaluate_formula m tb b1 n = evaluate_formula m tb b2 n.
Proof.
  intros. unfold evaluate_formula. destruct (validate n); [|reflexivity]. f_equal. apply eval_ext.
  intros x O. rewrite !lookup_namespace, H by auto. reflexivity.
Qed.
Theorem formula_unbound : forall (V : Type) (m : machine V) tb b n x t,
  evaluate_formula m tb b n = Some (NameError x, t) ->
  occurs x n /\ lookup x b = None /\ ~ In x table_names.
Proof.
  intros V m tb b n x t H. unfold evaluate_formula in H. destruct (validate n) eqn:C; [|discriminate].
  apply validate_confined in C. injection H as H.
  destruct (eval_name_error m _ n x t C H) as [O L]. rewrite lookup_namespace in L.
  destruct (lookup x b); [discriminate|]. destruct (mem x table_names) eqn:M; [discriminate|].
  split; [auto|]. split; [auto|]. intro I. apply mem_In in I. congruence.
Qed.
(** a binding with the name of a function is what gets called *)
Theorem binding_overrides : forall (V : Type) (m : machine V) tb b f g c, In f allowed_funcs -> lookup f b = Some g ->
  evaluate_formula m tb b (Call (Name f) [Constant c] []) =
  Some (match m_call m g [m_const m c] with Some v => Value v | None => Raised end, [(g, [m_const m c])]).
Proof.
  intros V m tb b f g c F L. unfold evaluate_formula.
  assert (C : validate (Call (Name f) [Constant c] []) = true).
  { apply validate_confined. constructor; auto. repeat constructor. }
  rewrite C. f_equal. rewrite eval_call. cbn [eval]. rewrite lookup_namespace, L. cbn. reflexivity.
Qed.
Definition numeric (c : constant) : Prop := match c with CInt _ | CFloat _ | CComplex _ => True | _ => False end.
Theorem only_numbers_refuted : exists n, confined n /\ exists c, In (Constant c) (walk n) /\ ~ numeric c.
Proof.
  exists (BinOp (Constant (CStr "x")) Mult (Constant (CInt BinNums.Z0))). split.
  - constructor; [|constructor|constructor]. left. unfold binary. tauto.
  - exists (CStr "x"). cbn. tauto.
Qed.
