(** C123: make_diagnostic_data. *)
Require Import Reals ZArith Lra Psatz Lia Bool String List Permutation.
Require Import Verif.Base Verif.NumPy Verif.M_Utils Verif.M_Error Verif.Spec Verif.Spec_Error Verif.M_Weights Verif.Spec_Weights
  Verif.M_Bundle Verif.M_Models Verif.Spec_Models.
Require Import Verif.P_Error Verif.P_Error2 Verif.P_Weights12 Verif.P_Weights13 Verif.P_Models.
Import ListNotations.
Local Open Scope R_scope.

Lemma dict_same_key : forall A k (v : A) d, lookup k (dict_set k v d) = Some v.
Proof.
  intros A k v d. induction d as [|[k' v'] d IH]; cbn; [rewrite String.eqb_refl; reflexivity|].
  destruct (String.eqb k k') eqn:E; cbn; [rewrite String.eqb_refl|rewrite E]; auto.
Qed.
Lemma dict_other_key : forall A k j (v : A) d, j <> k -> lookup j (dict_set k v d) = lookup j d.
Proof.
  intros A k j v d N. induction d as [|[k' v'] d IH]; cbn.
  - apply String.eqb_neq in N. rewrite N. reflexivity.
  - destruct (String.eqb k k') eqn:E; cbn.
    + apply String.eqb_eq in E. subst k'. apply String.eqb_neq in N. rewrite N. reflexivity.
    + rewrite IH. reflexivity.
Qed.
Lemma dict_fold : forall A B (f : string * A -> B) es d, NoDup (map fst es) ->
  forall e, In e es -> lookup (fst e) (fold_left (fun d e => dict_set (fst e) (f e) d) es d) = Some (f e).
Proof.
  intros A B f es. 
  assert (G : forall es d j, ~ In j (map fst es) -> lookup j (fold_left (fun d e => dict_set (fst e) (f e) d) es d) = lookup j d).
  { clear. intros es. induction es as [|a es IH]; intros d j N; cbn [fold_left map] in *; auto.
    rewrite IH; [|intro H; apply N; right; exact H]. apply dict_other_key. intro H. apply N. left. auto. }
  induction es as [|a es IH]; intros d N e I; [destruct I|]. cbn [fold_left map] in *. apply NoDup_cons_iff in N. destruct N as [N1 N2].
  destruct I as [<-|I]; [|apply IH; auto]. rewrite G by exact N1. apply dict_same_key.
Qed.
Lemma depth_same : forall A d (v : A) m, depth_get d (depth_set d v m) = Some v.
Proof.
  intros A d v m. induction m as [|[d' v'] m IH]; cbn; [destruct (Req_EM_T d d); [reflexivity|contradiction]|].
  destruct (Req_EM_T d d') as [E|E]; cbn; destruct (Req_EM_T d d'); auto; contradiction.
Qed.
Lemma depth_other : forall A d e (v : A) m, e <> d -> depth_get e (depth_set d v m) = depth_get e m.
Proof.
  intros A d e v m N. induction m as [|[d' v'] m IH]; cbn.
  - destruct (Req_EM_T e d); [contradiction|reflexivity].
  - destruct (Req_EM_T d d') as [E|E]; cbn; destruct (Req_EM_T e d') as [Q|Q]; auto. congruence.
Qed.
Lemma depth_keys : forall A d (v : A) m, NoDup (map fst m) -> NoDup (map fst (depth_set d v m)) /\
  forall x, In x (map fst (depth_set d v m)) <-> x = d \/ In x (map fst m).
Proof.
  intros A d v m. induction m as [|[d' v'] m IH]; intro N; cbn [depth_set].
  - cbn. split; [repeat constructor; auto|]. intro x. intuition.
  - cbn [map fst] in N. apply NoDup_cons_iff in N. destruct N as [N1 N2]. destruct (IH N2) as [I1 I2].
    destruct (Req_EM_T d d') as [E|E]; cbn [map fst].
    + split; [constructor; auto|]. intro x. cbn. subst. intuition.
    + split; [constructor; auto; rewrite I2; intros [->|H]; [apply E; reflexivity|contradiction]|]. intro x. cbn. rewrite I2. tauto.
Qed.

Lemma add_six : forall a b, add_row (six a) (six b) = six (madd a b).
Proof. intros [[a b c] [d e f] [g h i]] [[a' b' c'] [d' e' f'] [g' h' i']]. reflexivity. Qed.
Lemma sum_six : forall cs, sum_rows (map six cs) = six (msum cs).
Proof.
  intro cs. unfold sum_rows.
  assert (G : forall cs a, fold_left add_row (map six cs) (six a) = six (madd a (msum cs))).
  { clear. induction cs as [|c cs IH]; intro a; cbn [map fold_left].
    - change (msum []) with mzero. rewrite madd_0_r. reflexivity.
    - rewrite add_six, IH. change (msum (c :: cs)) with (madd c (msum cs)). rewrite madd_assoc. reflexivity. }
  change (repeat 0 6) with (six mzero). rewrite G, madd_0_l. reflexivity.
Qed.

Lemma diagnose_row : forall errors i, errors <> [] -> exists row, diagnose errors i = Some row /\
  lookup "TOTAL" row = Some (six (msum (map (fun e => nth i (er_cov_NEV (snd e)) mzero) errors))) /\
  (NoDup (map fst errors) -> forall e, In e errors -> fst e <> "TOTAL"%string ->
     lookup (fst e) row = Some (six (nth i (er_cov_NEV (snd e)) mzero))).
Proof.
  intros errors i N. unfold diagnose. destruct errors as [|a r]; [contradiction|]. cbv zeta.
  eexists. split; [reflexivity|]. split.
  - rewrite dict_same_key. f_equal. rewrite <- sum_six, map_map. reflexivity.
  - intros D e I T. rewrite dict_other_key by exact T. exact (dict_fold _ _ (fun e => six (nth i (er_cov_NEV (snd e)) mzero)) (a :: r) [] D e I).
Qed.
Lemma diagnose_all : forall errors, errors <> [] -> forall mds i acc, NoDup (map fst acc) ->
  exists D, diagnose_from errors i mds acc = Some D /\ NoDup (map fst D) /\
  (forall d, In d (map fst D) <-> In d (map fst acc) \/ In d mds) /\
  (forall d, ~ In d mds -> depth_get d D = depth_get d acc) /\
  (forall j d, nth_error mds j = Some d -> (forall k, (j < k)%nat -> nth_error mds k <> Some d) ->
     depth_get d D = diagnose errors (i + j)).
Proof.
  intros errors N mds. induction mds as [|d mds IH]; intros i acc A; cbn [diagnose_from].
  - exists acc. split; [reflexivity|]. split; [exact A|]. split; [intro d; cbn; tauto|]. split; [auto|]. intros [|j] d H; discriminate.
  - destruct (diagnose_row errors i N) as (row & R & _). rewrite R.
    destruct (depth_keys _ d row acc A) as [K1 K2].
    destruct (IH (S i) (depth_set d row acc) K1) as (D & E & F1 & F2 & F3 & F4).
    exists D. split; [exact E|]. split; [exact F1|]. split; [intro x; rewrite F2, K2; cbn; intuition|]. split.
    + intros x Hx. rewrite F3 by (intro; apply Hx; right; auto). apply depth_other. intro; apply Hx; left; auto.
    + intros [|j] x H L.
      * injection H as <-. rewrite F3.
        -- rewrite depth_same, Nat.add_0_r. symmetry. exact R.
        -- intro I. apply In_nth_error in I. destruct I as [k K]. apply (L (S k)); [lia|exact K].
      * cbn in H. rewrite (F4 j x H).
        -- f_equal. lia.
        -- intros k Hk. apply (L (S k)). lia.
Qed.

Lemma diagnostic_table : forall mds errors, errors <> [] -> exists D, make_diagnostic_data mds errors = Some D /\
  NoDup (map fst D) /\ (forall d, In d (map fst D) <-> In d mds) /\
  forall i d, nth_error mds i = Some d -> (forall j, (i < j)%nat -> nth_error mds j <> Some d) ->
  exists row, depth_get d D = Some row /\
    lookup "TOTAL" row = Some (six (msum (map (fun e => nth i (er_cov_NEV (snd e)) mzero) errors))) /\
    (NoDup (map fst errors) -> forall e, In e errors -> fst e <> "TOTAL"%string ->
       lookup (fst e) row = Some (six (nth i (er_cov_NEV (snd e)) mzero))).
Proof.
  intros mds errors N. destruct (diagnose_all errors N mds 0 [] (NoDup_nil _)) as (D & E & F1 & F2 & _ & F4).
  exists D. split; [exact E|]. split; [exact F1|]. split; [intro d; rewrite F2; cbn; tauto|].
  intros i d H L. rewrite (F4 i d H L). apply diagnose_row. exact N.
Qed.
Lemma diagnostic_total : forall az tort mi rev4 h l codes t, (0 < length l)%nat ->
  yaml_tool_error az tort mi rev4 h l codes = Totals t -> codes <> [] -> NoDup (map c_name codes) ->
  exists errors D, map fst errors = map c_name codes /\
  Forall2 (fun c e => call_func az tort rev4 h l (c_name c) (c_function c) (c_magnitude c) (c_propagation c) = Made (snd e)) codes errors /\
  make_diagnostic_data (map w_md l) errors = Some D /\
  forall i s, nth_error l i = Some s -> (forall j s', (i < j)%nat -> nth_error l j = Some s' -> w_md s' <> w_md s) ->
  exists row T, depth_get (w_md s) D = Some row /\ nth_error (t_all t) i = Some T /\ lookup "TOTAL" row = Some (six T) /\
    forall e, In e errors -> fst e <> "TOTAL"%string -> lookup (fst e) row = Some (six (nth i (er_cov_NEV (snd e)) mzero)).
Proof.
  intros az tort mi rev4 h l codes t L0 H N ND.
  destruct (yaml_totals _ _ _ _ _ _ _ _ L0 H) as (_ & errs & F & K).
  set (errors := combine (map c_name codes) errs).
  assert (LL : length codes = length errs) by (clear - F; induction F; cbn; congruence).
  assert (X : map fst errors = map c_name codes /\ map snd errors = errs /\
    Forall2 (fun c e => call_func az tort rev4 h l (c_name c) (c_function c) (c_magnitude c) (c_propagation c) = Made (snd e)) codes errors).
  { subst errors. clear - F. induction F as [|c e cs es C F (I1 & I2 & I3)]; cbn [map combine fst snd]; [auto|].
    rewrite I1, I2. split; [auto|]. split; [auto|]. constructor; auto. }
  destruct X as (X1 & X2 & X3).
  assert (NE : errors <> []). { intro E. apply N. apply length_zero_iff_nil. rewrite LL, <- X2, E. reflexivity. }
  destruct (diagnostic_table (map w_md l) errors NE) as (D & E & _ & _ & G).
  exists errors, D. split; [exact X1|]. split; [exact X3|]. split; [exact E|].
  intros i s Hs LS. destruct (G i (w_md s)) as (row & R1 & R2 & R3).
  - rewrite nth_error_map, Hs. reflexivity.
  - intros j Hj Q. rewrite nth_error_map in Q. destruct (nth_error l j) as [s'|] eqn:J; [|discriminate]. injection Q as Q. exact (LS j s' Hj J Q).
  - assert (Hi : (i < length l)%nat) by (apply nth_error_Some; congruence).
    destruct (K i Hi) as (a & r & sy & g & w & A1 & _ & _ & _ & _ & A2 & _).
    exists row, a. split; [exact R1|]. split; [exact A1|]. split.
    + rewrite R2. f_equal. f_equal. rewrite A2, <- X2, map_map. reflexivity.
    + apply R3. rewrite X1. exact ND.
Qed.
Lemma diagnostic_fails : forall mds errors, make_diagnostic_data mds errors = None <-> errors = [] /\ mds <> [].
Proof.
  intros mds errors. split.
  - intro H. destruct errors as [|e r].
    + split; auto. intros ->. discriminate.
    + destruct (diagnostic_table mds (e :: r)) as (D & E & _); [discriminate|congruence].
  - intros [-> N]. destruct mds as [|d mds]; [contradiction|reflexivity].
Qed.
(** the model without sources *)
Lemma zero_error_diagnostic : forall tree rates az h l, regular_survey h l -> (forall s, In s l -> w_inc s < PI) ->
  exists m, open_model tree "ZERO-ERROR" = Yaml m /\ tf_codes m = [] /\
  (exists t, error_model tree rates az h l "ZERO-ERROR" = Totals t) /\ make_diagnostic_data (map w_md l) [] = None.
Proof.
  intros tree rates az h l S I. exists tool_A030Ua. split; [reflexivity|]. split; [reflexivity|]. split.
  - apply usable_iff.
    + split; [left; apply mem_iff; vm_compute; reflexivity|]. split; [|split]; cbn; intuition discriminate.
    + exact S.
    + split; [exact I|]. split; [intro A; exfalso; apply A; reflexivity|]. split; [intros [A|[A|[A|[A|[]]]]]; discriminate|].
      cbn. intuition discriminate.
  - apply diagnostic_fails. split; auto. destruct S as (_ & _ & L & _). destruct l; [cbn in L; lia|discriminate].
Qed.
