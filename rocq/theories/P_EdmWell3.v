(** C127, C128: profiles and cases. *)
Require Import Reals Bool String List Sorted Lra Lia.
Require Import Verif.M_Edm Verif.Spec_Edm Verif.M_EdmWell Verif.Spec_EdmWell Verif.P_EdmWell Verif.P_EdmWell2.
Import ListNotations.
Open Scope string_scope.
Open Scope list_scope.
Local Open Scope R_scope.

Definition all {A} (k : string) (d : list (string * list A)) : list A := match get k d with Some l => l | None => [] end.
Lemma get_push : forall A k k' (x : A) d, get k (push k' x d) = if String.eqb k k' then Some (all k d ++ [x]) else get k d.
Proof.
  intros A k k' x d. unfold all. induction d as [|[j l] d IH]; cbn; [reflexivity|].
  destruct (String.eqb_spec k' j) as [->|N]; cbn.
  - destruct (String.eqb k j); reflexivity.
  - rewrite IH. destruct (String.eqb_spec k j) as [->|M]; [|reflexivity]. destruct (String.eqb_spec j k') as [->|_]; [contradiction|reflexivity].
Qed.
Lemma in_push : forall A k (x : A) d y, In y (map fst (push k x d)) <-> y = k \/ In y (map fst d).
Proof.
  intros A k x d y. induction d as [|[j w] d IH]; cbn; [split; intros [H|H]; auto|].
  destruct (String.eqb_spec k j) as [->|N]; cbn; [|rewrite IH]; intuition congruence.
Qed.
Lemma dict_push : forall A k (x : A) d, a_dict d -> a_dict (push k x d).
Proof.
  unfold a_dict. intros A k x d. induction d as [|[j w] d IH]; cbn; intro H; [repeat constructor; auto|].
  destruct (String.eqb_spec k j) as [->|N]; cbn; [exact H|]. inversion H as [|? ? H1 H2]; subst. constructor; [|auto].
  rewrite in_push. intros [E|E]; [congruence|contradiction].
Qed.
Lemma get_none : forall V k (d : list (string * V)), get k d = None <-> ~ In k (map fst d).
Proof.
  intros V k d. induction d as [|[j w] d IH]; cbn; [tauto|]. destruct (String.eqb_spec k j) as [->|N]; [split; [discriminate|tauto]|].
  rewrite IH. intuition congruence.
Qed.
Lemma get_map : forall A B (f : A -> B) k (d : list (string * A)), get k (map (fun kl => (fst kl, f (snd kl))) d) = option_map f (get k d).
Proof. intros A B f k d. induction d as [|[j w] d IH]; cbn; [reflexivity|]. destruct (String.eqb k j); [reflexivity|exact IH]. Qed.

(** ** reading rows *)
Lemma read_ok : forall num gk vk p g x, read_level num gk vk p = Ok (g, x) <-> get gk p = Some g /\ level num vk p x.
Proof.
  intros num gk vk p g [t v]. unfold read_level, level. cbn [fst snd].
  destruct (get gk p) as [h|]; [|split; [discriminate|intros [H _]; discriminate]].
  destruct (get "tvd" p) as [s|]; [|split; [discriminate|intros (_ & (s & H & _) & _); discriminate]].
  destruct (num s) as [t'|] eqn:T; [|split; [discriminate|intros (_ & (s' & H & H') & _); congruence]].
  destruct (get vk p) as [u|]; [|split; [discriminate|intros (_ & _ & (s' & H & _)); discriminate]].
  destruct (num u) as [v'|] eqn:W; [|split; [discriminate|intros (_ & _ & (s' & H & H')); congruence]].
  split; [intro H; injection H as -> -> ->; split; [reflexivity|split; eexists; split; eauto]|]. intros (H & (s1 & E1 & F1) & (s2 & E2 & F2)). repeat f_equal; congruence.
Qed.
Lemma read_key : forall num gk vk p, read_level num gk vk p = KeyErr <-> lacks_field num gk vk p.
Proof.
  intros num gk vk p. unfold read_level, lacks_field.
  destruct (get gk p) as [h|]; [|split; auto].
  destruct (get "tvd" p) as [s|]; [|split; auto].
  destruct (num s) as [t'|] eqn:T.
  - destruct (get vk p) as [u|]; [|split; [right; right; eauto|auto]]. destruct (num u) as [v'|]; (split; [discriminate|intros [H|[H|[H _]]]; discriminate]).
  - split; [discriminate|]. intros [H|[H|(_ & s' & t & E & F)]]; congruence.
Qed.
Lemma readable_iff : forall num gk vk p, readable num gk vk p <-> exists g x, read_level num gk vk p = Ok (g, x).
Proof.
  intros num gk vk p. unfold readable. split.
  - intros [H [x L]]. destruct (get gk p) as [g|] eqn:G; [|contradiction]. exists g, x. apply read_ok. auto.
  - intros (g & x & E). apply read_ok in E. destruct E as [G L]. split; [congruence|eauto].
Qed.
Lemma read_all : forall num gk vk rows acc, a_dict acc -> Forall (readable num gk vk) rows ->
  exists d, read_levels num gk vk rows acc = Ok d /\ a_dict d /\
    forall g, exists l, Forall2 (level num vk) (filter (in_group gk g) rows) l /\ all g d = all g acc ++ l /\
      (get g d = None <-> get g acc = None /\ l = []).
Proof.
  intros num gk vk rows. induction rows as [|p rows IH]; intros acc D F.
  { exists acc. split; [reflexivity|]. split; [exact D|]. intro g. exists []. split; [constructor|]. rewrite app_nil_r. split; [reflexivity|tauto]. }
  inversion F as [|? ? F1 F2]; subst. apply readable_iff in F1. destruct F1 as (g0 & x & E). cbn [read_levels]. rewrite E.
  destruct (IH (push g0 x acc) (dict_push _ _ _ _ D) F2) as (d & E' & D' & C). exists d. split; [exact E'|]. split; [exact D'|].
  intro g. destruct (C g) as (l & L1 & L2 & L3). apply read_ok in E. destruct E as [G L]. cbn [filter]. unfold in_group at 1. rewrite G.
  unfold all at 2 in L2. rewrite get_push in L2, L3. destruct (String.eqb_spec g g0) as [->|N].
  - rewrite String.eqb_refl. exists (x :: l). split; [constructor; assumption|]. split; [rewrite L2, <- app_assoc; reflexivity|].
    rewrite L3. split; [intros [H _]; discriminate|intros [_ H]; discriminate].
  - replace (String.eqb g0 g) with false by (symmetry; apply String.eqb_neq; congruence). exists l. auto.
Qed.
Lemma read_fails : forall num gk vk before row after acc, Forall (readable num gk vk) before -> ~ readable num gk vk row ->
  read_levels num gk vk (before ++ row :: after) acc = (match read_level num gk vk row with KeyErr => KeyErr | _ => ValueErr end).
Proof.
  intros num gk vk before row after. induction before as [|p before IH]; intros acc F N.
  - cbn. destruct (read_level num gk vk row) as [[g x]| |] eqn:E; auto. destruct N. apply readable_iff. eauto.
  - inversion F as [|? ? F1 F2]; subst. apply readable_iff in F1. destruct F1 as (g0 & x & E). cbn. rewrite E. apply IH; auto.
Qed.
Lemma readable_dec : forall num gk vk rows, Forall (readable num gk vk) rows \/
  exists before row after, rows = before ++ row :: after /\ Forall (readable num gk vk) before /\ ~ readable num gk vk row.
Proof.
  intros num gk vk rows. induction rows as [|p rows IH]; [left; constructor|].
  destruct (read_level num gk vk p) as [[g x]| |] eqn:E.
  - assert (P : readable num gk vk p) by (apply readable_iff; eauto). destruct IH as [IH|(b & r & a & -> & B & N)]; [left; constructor; auto|]. right. exists (p :: b), r, a. split; [reflexivity|]. split; [constructor; auto|exact N].
  - right. exists [], p, rows. split; [reflexivity|]. split; [constructor|]. intro H. apply readable_iff in H. destruct H as (g & x & Q). congruence.
  - right. exists [], p, rows. split; [reflexivity|]. split; [constructor|]. intro H. apply readable_iff in H. destruct H as (g & x & Q). congruence.
Qed.
(** ** profiles *)
Lemma profiles_given : forall num d tag gk vk rows, get tag d = Some rows -> Forall (readable num gk vk) rows ->
  exists ps, profile_table num d tag gk vk = Some (Some ps) /\ a_dict ps /\
    (forall g, get g ps = None <-> (forall row, In row rows -> get gk row <> Some g)) /\
    (forall g profile, get g ps = Some profile -> exists l, Forall2 (level num vk) (filter (in_group gk g) rows) l /\ sorted_from fst l profile).
Proof.
  intros num d tag gk vk rows T F. unfold profile_table. rewrite T. unfold profiles.
  destruct (read_all num gk vk rows [] (NoDup_nil _) F) as (r & E & D & C). rewrite E. eexists. split; [reflexivity|]. split.
  { unfold a_dict in *. rewrite map_map. cbn [fst]. exact D. }
  split.
  - intro g. rewrite (get_map _ _ (sort_by fst)). destruct (C g) as (l & L1 & L2 & L3).
    assert (Q : (get g r = None <-> l = [])) by (rewrite L3; cbn; tauto).
    transitivity (l = []). { rewrite <- Q. destruct (get g r); cbn; split; congruence. }
    split.
    + intros -> row I G. inversion L1 as [X|]. assert (In row (filter (in_group gk g) rows)) by (apply filter_In; split; [exact I|unfold in_group; rewrite G; apply String.eqb_refl]).
      rewrite <- X in H. destruct H.
    + intro H. assert (X : filter (in_group gk g) rows = []).
      { destruct (filter (in_group gk g) rows) as [|y ys] eqn:Y; [reflexivity|]. assert (I : In y (filter (in_group gk g) rows)) by (rewrite Y; left; reflexivity).
        apply filter_In in I. destruct I as [I1 I2]. unfold in_group in I2. destruct (get gk y) as [h|] eqn:G; [|discriminate]. apply String.eqb_eq in I2. subst h. destruct (H y I1 G). }
      rewrite X in L1. inversion L1. reflexivity.
  - intros g profile P. rewrite (get_map _ _ (sort_by fst)) in P. destruct (C g) as (l & L1 & L2 & L3). exists l. split; [exact L1|].
    unfold all in L2. cbn in L2. destruct (get g r) as [m|]; [|discriminate]. cbn in P. injection P as <-. subst m. apply sort_by_spec.
Qed.
Lemma profiles_absent : forall num d tag gk vk,
  profile_table num d tag gk vk = Some None <->
  get tag d = None \/ exists before row after, get tag d = Some (before ++ row :: after) /\ Forall (readable num gk vk) before /\ lacks_field num gk vk row.
Proof.
  intros num d tag gk vk. unfold profile_table. destruct (get tag d) as [rows|]; [|split; auto]. unfold profiles.
  destruct (readable_dec num gk vk rows) as [F|(b & r & a & -> & B & N)].
  - destruct (read_all num gk vk rows [] (NoDup_nil _) F) as (x & E & _). rewrite E. split; [discriminate|].
    intros [H|(b & r & a & E' & B & L)]; [discriminate|]. injection E' as ->. apply Forall_app in F. destruct F as [_ F]. inversion F as [|? ? F1 _]; subst.
    apply readable_iff in F1. destruct F1 as (g & y & Q). apply read_key in L. congruence.
  - rewrite read_fails by assumption. destruct (read_level num gk vk r) as [[g x]| |] eqn:E.
    + destruct N. apply readable_iff. eauto.
    + split; [intros _; right; exists b, r, a; split; [reflexivity|]; split; [exact B|apply read_key; exact E]|reflexivity].
    + split; [discriminate|]. intros [H|(b' & r' & a' & E' & B' & L)]; [discriminate|]. injection E' as E'.
      assert (X : r' = r).
      { apply read_key in L. clear - E' B B' E L N. revert b' E' B'. induction b as [|y b IH]; intros [|y' b'] E' B'; cbn in E'; injection E' as -> E'; try congruence.
        - inversion B' as [|? ? Y _]; subst. contradiction.
        - inversion B as [|? ? Y _]; subst. apply readable_iff in Y. destruct Y as (g & z & Q). congruence.
        - inversion B; inversion B'; subst. apply (IH ltac:(assumption) b'); auto. }
      subst r'. apply read_key in L. congruence.
Qed.
Lemma ppfpt_tables : forall num d pp fp tp, ppfpt_data num d = Some (pp, fp, tp) <->
  profile_table num d "CD_PORE_PRESSURE" "pore_pressure_group_id" "pore_pressure" = Some pp /\
  profile_table num d "CD_FRAC_GRADIENT" "frac_gradient_group_id" "frac_gradient_pressure" = Some fp /\
  profile_table num d "CD_TEMP_GRADIENT" "temp_gradient_group_id" "temperature" = Some tp.
Proof.
  intros num d pp fp tp. unfold ppfpt_data. destruct (profile_table num d "CD_PORE_PRESSURE" _ _); [|split; [discriminate|intros [H _]; discriminate]].
  destruct (profile_table num d "CD_FRAC_GRADIENT" _ _); [|split; [discriminate|intros [_ [H _]]; discriminate]].
  destruct (profile_table num d "CD_TEMP_GRADIENT" _ _); [|split; [discriminate|intros [_ [_ H]]; discriminate]].
  split; [intro H; injection H as -> -> ->; auto|intros (A & B & C); congruence].
Qed.
