(** C122: what the names of the bundled error models select and when they work. *)
Require Import Reals ZArith Lra Psatz Lia Bool String List Permutation.
Require Import Verif.Base Verif.NumPy Verif.M_Utils Verif.M_Error Verif.Spec Verif.Spec_Error Verif.M_Weights Verif.Spec_Weights
  Verif.M_Bundle Verif.M_Models Verif.Spec_Models.
Require Import Verif.P_Error Verif.P_Error2 Verif.P_Weights Verif.P_Weights6 Verif.P_Weights12 Verif.P_Weights13 Verif.P_Weights14 Verif.P_Weights15.
Import ListNotations.
Local Open Scope R_scope.

(** ** one model *)
Lemma call_az : forall az az' t rev4 h l code func mag p,
  (func <> "CNA"%string \/ forall s, In s l -> ~ vertical h s) ->
  call_func az t rev4 h l code func mag p = call_func az' t rev4 h l code func mag p.
Proof.
  intros az az' t rev4 h l code func mag p H. unfold call_func. cbv zeta.
  destruct (lookup func simple_weights); auto.
  repeat match goal with |- (if ?b then ?x else _) = (if ?b then ?x else _) => destruct b; [reflexivity|] end.
  destruct (String.eqb func "CNA") eqn:E; auto. apply String.eqb_eq in E. destruct H as [H|H]; [contradiction|].
  unfold CNA. destruct (existsb (is_sing h) l) eqn:X; auto.
  apply existsb_exists in X. destruct X as (s & I & V). apply is_sing_iff in V. destruct (H s I V).
Qed.
Lemma plain_any : forall az t rev4 h l code func mag p, sensible h -> In p propagation_modes -> In func plain_functions ->
  (3 <= length l)%nat -> (forall s, In s l -> 0 <= sin (w_inc s)) ->
  ((exists e, call_func az t rev4 h l code func mag p = Made e) <->
   (func = "CNA"%string -> az = "true"%string \/ az = "grid"%string \/ forall s, In s l -> ~ vertical h s)).
Proof.
  intros az t rev4 h l code func mag p S P F L N. split.
  - intros [e E] ->. destruct (string_dec az "true") as [|A]; auto. destruct (string_dec az "grid") as [|B]; auto.
    right. right. intros s I V. rewrite (cna_raises az t rev4 h l code mag p A B) in E; [discriminate|eauto].
  - intro H. destruct (string_dec func "CNA") as [->|D].
    + destruct (H eq_refl) as [->|[->|V]]; [apply plain_ok; auto..|].
      rewrite (call_az az "true"); auto. apply plain_ok; auto.
    + rewrite (call_az az "true"); auto. apply plain_ok; auto.
Qed.

Definition mem (s : string) (l : list string) : bool := existsb (String.eqb s) l.
Lemma mem_iff : forall s l, mem s l = true <-> In s l.
Proof.
  intros s l. unfold mem. rewrite existsb_exists. split.
  - intros (x & I & E). apply String.eqb_eq in E. subst. exact I.
  - intro I. exists s. split; auto. apply String.eqb_refl.
Qed.
Definition known (c : code_entry) : bool := (mem (c_propagation c) propagation_modes && mem (c_function c) functions)%bool.
Definition has (fs : list string) (codes : list code_entry) : bool := existsb (fun c => mem (c_function c) fs) codes.

Lemma codes_iff : forall az tort m rev4 h l codes, regular_survey h l -> m <= PI -> forallb known codes = true ->
  ((exists t, yaml_tool_error az tort (Some m) rev4 h l codes = Totals t) <->
   (forall s, In s l -> w_inc s < m) /\
   (has axial_functions codes = true -> forall s, In s l -> ~ level_east_west s) /\
   (has interval_functions codes = true -> advancing l) /\
   (has ["CNA"%string] codes = true -> az = "true"%string \/ az = "grid"%string \/ forall s, In s l -> ~ vertical h s)).
Proof.
  intros az tort m rev4 h l codes (S & LP & L3 & I) M K. rewrite yaml_iff. rewrite forallb_forall in K.
  assert (KK : forall c, In c codes -> In (c_propagation c) propagation_modes /\ In (c_function c) functions).
  { intros c Hc. specialize (K c Hc). unfold known in K. apply andb_true_iff in K. rewrite !mem_iff in K. exact K. }
  assert (SN : forall s, In s l -> 0 <= sin (w_inc s)) by (intros s Hs; destruct (I s Hs); apply sin_ge_0; auto).
  assert (HAS : forall fs, has fs codes = true <-> exists c, In c codes /\ In (c_function c) fs).
  { intro fs. unfold has. rewrite existsb_exists. split; intros (c & A & B); exists c; rewrite mem_iff in *; auto. }
  assert (IV : (forall s, In s l -> w_inc s < m) -> forall s, In s l -> ~ vertical h s -> sin (w_inc s) <> 0).
  { intros MM s Hs V. unfold vertical in V. specialize (MM s Hs). assert (0 < sin (w_inc s)); [|lra]. apply sin_gt_0; lra. }
  split.
  - intros [A B]. assert (A' : forall s, In s l -> w_inc s < m) by (apply A; auto). split; [exact A'|].
    split; [|split]; intro H; apply HAS in H; destruct H as (c & C & F); destruct (B c C) as [e E]; destruct (KK c C) as [P _].
    + apply (proj1 (axial_iff az tort rev4 h l (c_name c) (c_function c) (c_magnitude c) (c_propagation c) S P F)). eauto.
    + apply (proj1 (interval_ok az tort rev4 h l (c_name c) (c_function c) (c_magnitude c) (c_propagation c) P F L3 (IV A'))). eauto.
    + destruct F as [F|[]]. rewrite <- F in E.
      apply (proj1 (plain_any az tort rev4 h l (c_name c) "CNA" (c_magnitude c) (c_propagation c) S P ltac:(cbn; tauto) L3 SN)); eauto.
  - intros (A & B & C & D). split; [intros q [= <-]; exact A|]. intros c Hc. destruct (KK c Hc) as [P F].
    unfold functions in F. apply in_app_or in F. destruct F as [F|F]; [|apply in_app_or in F; destruct F as [F|F]].
    + apply plain_any; auto. intro E. apply D. apply HAS. exists c. split; auto. rewrite E. left. reflexivity.
    + apply (proj1 (axial_iff az tort rev4 h l (c_name c) (c_function c) (c_magnitude c) (c_propagation c) S P F)). apply B. apply HAS. eauto.
    + apply (proj1 (interval_ok az tort rev4 h l (c_name c) (c_function c) (c_magnitude c) (c_propagation c) P F L3 (IV A))). apply C. apply HAS. eauto.
Qed.

(** ** the data *)
Definition is_axial (name : string) : bool := match index 0 "+AX" name with Some _ => true | None => false end.
Definition is_interval (name : string) : bool :=
  (prefix "MWD+" name || prefix "EMS+" name || mem name ["ISCWSA MWD Rev5"; "ISCWSA MWD Rev5.11"]%string)%bool.
Definition blind_models : list string := ["BLIND"; "BLIND_Fl"; "UNKNOWN"; "UNKNOWN_Fl"]%string.
Definition tort_missing (m : tool_file) : bool :=
  match tf_tort m with NoTortuosity => existsb (fun c => uses_tortuosity (c_function c)) (tf_codes m) | _ => false end.
Definition entry_ok (e : string * string) : bool :=
  let (key, name) := e in
  match lookup key tool_codes with
  | Some m =>
      forallb known (tf_codes m) && Bool.eqb (has axial_functions (tf_codes m)) (is_axial name) &&
      Bool.eqb (has interval_functions (tf_codes m)) (is_interval name) &&
      Bool.eqb (has ["CNA"%string] (tf_codes m)) (mem name blind_models) &&
      Bool.eqb (tort_missing m) (mem name inc_only_models) &&
      Bool.eqb (mem (tf_short m) inc_only_models) (mem name inc_only_models) &&
      (String.eqb (tf_short m) name || (String.eqb name "ISCWSA MWD Rev5.11" && String.eqb (tf_short m) "ISCWSA MWD Rev5"))
      && negb (mem name missing_models) && negb (mem name (map fst gyro_models))
  | None => (mem name missing_models || mem name (map fst gyro_models))
  end%bool.
Lemma index_ok : forallb entry_ok tool_index = true.
Proof. vm_compute. reflexivity. Qed.
Lemma limits_ok : Forall (fun e => tf_max_inc (snd e) = 180 \/ In (tf_short (snd e)) inc_only_models) tool_codes.
Proof.
  unfold tool_codes. repeat (apply Forall_cons; [first [left; reflexivity|right; cbn; tauto]|]). apply Forall_nil.
Qed.
Lemma lookup_in : forall A k (d : list (string * A)) v, lookup k d = Some v -> In (k, v) d.
Proof.
  intros A k d v. induction d as [|[k' v'] d IH]; cbn; [discriminate|].
  destruct (String.eqb k k') eqn:E; [|auto]. apply String.eqb_eq in E. subst. intros [= ->]. auto.
Qed.

Lemma selected : forall name, accepted_name name -> exists key, 
  find (fun e => String.eqb (snd e) (unalias name)) tool_index = Some (key, unalias name) /\ entry_ok (key, unalias name) = true.
Proof.
  intros name A.
  assert (I : In (unalias name) (map snd tool_index)).
  { destruct A as [A| ->]; [|apply mem_iff; vm_compute; reflexivity].
    unfold unalias. destruct (String.eqb name "ISCWSA MWD Rev5"); [apply mem_iff; vm_compute; reflexivity|exact A]. }
  destruct (find _ tool_index) as [[key n]|] eqn:F.
  - exists key. apply find_some in F. destruct F as [F E]. cbn in E. apply String.eqb_eq in E. subst n. split; auto.
    pose proof index_ok as X. rewrite forallb_forall in X. apply X. exact F.
  - exfalso. apply in_map_iff in I. destruct I as ([k n] & E & I). cbn in E. subst n.
    apply (find_none _ _ F) in I. cbn in I. rewrite String.eqb_refl in I. discriminate.
Qed.
Lemma unrecognised_iff : forall tree name, open_model tree name = Unrecognised <-> ~ accepted_name name.
Proof.
  intros tree name. split.
  - intros H A. destruct (selected name A) as (key & F & _). unfold open_model in H. rewrite F in H.
    destruct (lookup key tool_codes); [discriminate|]. destruct (resolve_json_model key tree); discriminate.
  - intro N. unfold open_model. destruct (find _ tool_index) as [[key n]|] eqn:F; auto. exfalso. apply N.
    apply find_some in F. destruct F as [F E]. cbn in E. apply String.eqb_eq in E. subst n.
    unfold unalias in F. destruct (String.eqb name "ISCWSA MWD Rev5") eqn:Q.
    + right. apply String.eqb_eq. exact Q.
    + left. apply in_map_iff. exists (key, name). auto.
Qed.
Lemma unalias_eq : forall name, name <> "ISCWSA MWD Rev5"%string -> unalias name = name.
Proof. intros name N. unfold unalias. apply String.eqb_neq in N. rewrite N. reflexivity. Qed.
Ltac by_alias name :=
  destruct (string_dec name "ISCWSA MWD Rev5") as [->|?N]; [|rewrite (unalias_eq name) in * by assumption].

(** names with a yaml file *)
Lemma opened_yaml : forall tree name, accepted_name name -> ~ In name missing_models -> ~ In name (map fst gyro_models) ->
  exists m, open_model tree name = Yaml m /\
    forallb known (tf_codes m) = true /\
    (has axial_functions (tf_codes m) = true <-> axial_model name) /\
    (has interval_functions (tf_codes m) = true <-> interval_model name) /\
    (has ["CNA"%string] (tf_codes m) = true <-> In name blind_models) /\
    (tort_missing m = true <-> In name inc_only_models) /\
    (~ In name inc_only_models -> tf_max_inc m = 180) /\
    (name <> "ISCWSA MWD Rev5.11"%string -> tf_short m = name) /\
    (name = "ISCWSA MWD Rev5.11"%string -> tf_short m = "ISCWSA MWD Rev5"%string).
Proof.
  intros tree name A NM NG. destruct (selected name A) as (key & F & E). unfold open_model. rewrite F. clear F. unfold entry_ok in E.
  assert (X : mem (unalias name) missing_models = false /\ mem (unalias name) (map fst gyro_models) = false).
  { by_alias name; [split; reflexivity|]. split; apply not_true_is_false; rewrite mem_iff; auto. }
  destruct X as [X1 X2].
  destruct (lookup key tool_codes) as [m|] eqn:Q; [|rewrite X1, X2 in E; discriminate].
  exists m. split; [reflexivity|].
  rewrite !andb_true_iff in E. destruct E as ((((((((E1 & E2) & E3) & E4) & E5) & E6) & E7) & _) & _).
  apply eqb_prop in E2, E3, E4, E5, E6. rewrite E2, E3, E4, E5. split; [exact E1|].
  split. { by_alias name; [split; [discriminate|intro Z; exfalso; apply Z; reflexivity]|].
    unfold is_axial, axial_model. destruct (index 0 "+AX" name); split; congruence. }
  split. { by_alias name; [split; [intros _; right; right; left; reflexivity|reflexivity]|].
    unfold is_interval, interval_model. rewrite !orb_true_iff, mem_iff. tauto. }
  split. { by_alias name; [split; [discriminate|cbn; intuition discriminate]|]. apply mem_iff. }
  split. { by_alias name; [split; [discriminate|cbn; intuition discriminate]|]. apply mem_iff. }
  split. { intro NI. apply lookup_in in Q. pose proof limits_ok as LO. rewrite Forall_forall in LO. destruct (LO _ Q) as [LI|LI]; auto.
    cbn [snd] in LI. apply mem_iff in LI. rewrite LI in E6. symmetry in E6. apply mem_iff in E6. by_alias name.
    - cbn in E6. intuition discriminate.
    - contradiction. }
  apply orb_true_iff in E7. by_alias name.
  - split; [|discriminate]. intros _. destruct E7 as [E7|E7].
    + exfalso. apply lookup_in in Q. change (unalias "ISCWSA MWD Rev5") with "ISCWSA MWD Rev5.11"%string in E7.
      assert (Y : forallb (fun e : string * tool_file => negb (String.eqb (tf_short (snd e)) "ISCWSA MWD Rev5.11")) tool_codes = true) by (vm_compute; reflexivity).
      rewrite forallb_forall in Y. specialize (Y _ Q). cbn [snd] in Y. rewrite E7 in Y. discriminate.
    + apply andb_true_iff in E7. apply String.eqb_eq. apply E7.
  - split; intro Z.
    + destruct E7 as [E7|E7]; [apply String.eqb_eq; exact E7|]. apply andb_true_iff in E7. destruct E7 as [E7 _]. apply String.eqb_eq in E7. congruence.
    + destruct E7 as [E7|E7]; [|apply andb_true_iff in E7; apply String.eqb_eq; apply E7].
      exfalso. apply lookup_in in Q. rewrite Z in E7.
      assert (Y : forallb (fun e : string * tool_file => negb (String.eqb (tf_short (snd e)) "ISCWSA MWD Rev5.11")) tool_codes = true) by (vm_compute; reflexivity).
      rewrite forallb_forall in Y. specialize (Y _ Q). cbn [snd] in Y. rewrite E7 in Y. discriminate.
Qed.

Lemma usable_iff : forall tree rates az h l name, regular_model name -> regular_survey h l ->
  ((exists t, error_model tree rates az h l name = Totals t) <->
   (forall s, In s l -> w_inc s < PI) /\
   (axial_model name -> forall s, In s l -> ~ level_east_west s) /\
   (interval_model name -> advancing l) /\
   (In name ["BLIND"; "BLIND_Fl"; "UNKNOWN"; "UNKNOWN_Fl"]%string ->
      az = "true"%string \/ az = "grid"%string \/ forall s, In s l -> ~ vertical h s)).
Proof.
  intros tree rates az h l name (A & NM & NI & NG) S.
  destruct (opened_yaml tree name A NM NG) as (m & O & K & E1 & E2 & E3 & E4 & E5 & _).
  unfold error_model. rewrite O. unfold yaml_model_error. cbv zeta. rewrite (E5 NI).
  replace (180 * (PI / 180)) with PI by field.
  fold blind_models. rewrite <- E1, <- E2, <- E3.
  assert (T : tort_missing m = false). { apply not_true_is_false. rewrite E4. exact NI. }
  unfold tort_missing in T. destruct (tf_tort m); cbn [tortuosity_of].
  - apply codes_iff; auto; lra.
  - apply codes_iff; auto; lra.
  - rewrite T. apply codes_iff; auto; lra.
Qed.
Lemma inc_only_unusable : forall tree rates az h l name, In name inc_only_models ->
  error_model tree rates az h l name = TotalsRaise.
Proof.
  intros tree rates az h l name I.
  destruct (opened_yaml tree name) as (m & O & _ & _ & _ & _ & E & _).
  - left. destruct I as [<-|[<-|[<-|[<-|[]]]]]; apply mem_iff; vm_compute; reflexivity.
  - destruct I as [<-|[<-|[<-|[<-|[]]]]]; cbn; intuition discriminate.
  - destruct I as [<-|[<-|[<-|[<-|[]]]]]; cbn; intuition discriminate.
  - unfold error_model. rewrite O. unfold yaml_model_error. cbv zeta. apply E in I. unfold tort_missing in I.
    destruct (tf_tort m); try discriminate I. cbn [tortuosity_of]. rewrite I. reflexivity.
Qed.
Lemma regular_opens : forall name, regular_model name -> exists m, (forall tree, open_model tree name = Yaml m) /\
  tf_short m = if string_dec name "ISCWSA MWD Rev5.11" then "ISCWSA MWD Rev5"%string else name.
Proof.
  intros name (A & NM & NI & NG). destruct (opened_yaml [] name A NM NG) as (m & O & _ & _ & _ & _ & _ & _ & S1 & S2).
  exists m. split.
  - intro tree. destruct (opened_yaml tree name A NM NG) as (m' & O' & _). unfold open_model in *.
    destruct (find _ tool_index) as [[key n]|]; [|discriminate]. destruct (lookup key tool_codes); [exact O|].
    destruct (resolve_json_model key tree); discriminate.
  - destruct (string_dec name "ISCWSA MWD Rev5.11"); auto.
Qed.
Lemma rev4_iff : forall name, accepted_name name -> (is_rev4 name = true <-> name = "ISCWSA MWD Rev4"%string).
Proof.
  intros name A. split.
  - intro H. destruct A as [A| ->]; [|discriminate].
    assert (X : forallb (fun e : string * string => implb (is_rev4 (snd e)) (String.eqb (snd e) "ISCWSA MWD Rev4")) tool_index = true) by (vm_compute; reflexivity).
    rewrite forallb_forall in X. apply in_map_iff in A. destruct A as (e & <- & I). specialize (X e I). rewrite H in X. apply String.eqb_eq. exact X.
  - intros ->. reflexivity.
Qed.
