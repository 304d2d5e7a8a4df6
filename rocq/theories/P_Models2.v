(** C122: the models read from json files. *)
Require Import Reals ZArith Lra Psatz Lia Bool String List Permutation.
Require Import Verif.Base Verif.NumPy Verif.M_Utils Verif.M_Error Verif.Spec Verif.Spec_Error Verif.M_Weights Verif.Spec_Weights
  Verif.M_Bundle Verif.M_Models Verif.Spec_Models.
Require Import Verif.P_Error Verif.P_Error2 Verif.P_Models.
Import ListNotations.
Local Open Scope R_scope.

Definition described (name : string) (f : json_file) : bool := (String.eqb (jf_id f) name || String.eqb (jf_short f) name)%bool.
Definition named (name : string) (f : json_file) : bool := String.eqb (jf_file f) (name ++ ".json").
Lemma order_files : forall tree f, some_order tree -> In f (concat (map snd tree)) <-> In f (concat (map snd iscwsa_json)).
Proof.
  intros tree f (t & P & F).
  transitivity (In f (concat (map snd t))).
  - clear P. induction F as [|[a x] [b y] l m [_ Q] F IH]; cbn [map concat snd]; [tauto|]. cbn [snd] in Q.
    rewrite !in_app_iff, IH. split; intros [A|A]; auto; left; [eapply Permutation_in; eauto|eapply Permutation_in; [apply Permutation_sym|]; eauto].
  - rewrite !in_concat. split; intros (x & I & J); exists x; split; auto; apply in_map_iff in I; destruct I as (e & <- & I);
      apply in_map; [eapply Permutation_in; eauto|eapply Permutation_in; [apply Permutation_sym|]; eauto].
Qed.
Lemma find_app : forall A (p : A -> bool) l m, find p (l ++ m) = match find p l with Some x => Some x | None => find p m end.
Proof. intros A p l m. induction l as [|a l IH]; cbn; auto. destruct (p a); auto. Qed.
Lemma find_described_flat : forall name tree, find_described name tree = find (described name) (concat (map snd tree)).
Proof.
  intros name tree. induction tree as [|[d fs] tree IH]; cbn [find_described map concat snd]; auto.
  rewrite find_app, IH. reflexivity.
Qed.
Lemma find_named_flat : forall name tree, find_named name tree = find (named name) (concat (map snd tree)).
Proof.
  intros name tree. induction tree as [|[d fs] tree IH]; cbn [find_named map concat snd]; auto.
  rewrite find_app, IH. reflexivity.
Qed.
Lemma order_none : forall (p : json_file -> bool) tree, some_order tree -> existsb p (concat (map snd iscwsa_json)) = false ->
  find p (concat (map snd tree)) = None.
Proof.
  intros p tree O E. destruct (find p _) as [f|] eqn:F; auto. apply find_some in F. destruct F as [I Q].
  apply order_files in I; auto. assert (X : existsb p (concat (map snd iscwsa_json)) = true) by (apply existsb_exists; eauto). congruence.
Qed.

(** no json file carries the key of a missing model; two carry that of a gyro model *)
Definition keys_ok (e : string * string) : bool :=
  let (key, name) := e in
  match lookup key tool_codes with
  | Some _ => true
  | None =>
      let all := concat (map snd iscwsa_json) in
      negb (existsb (named key) all) &&
      match lookup name gyro_models with
      | None => mem name missing_models && negb (existsb (described key) all)
      | Some (a, b) =>
          negb (mem name missing_models) && existsb (described key) all &&
          forallb (fun f => implb (described key f) (String.eqb (jf_file f) a || String.eqb (jf_file f) b)) all
      end
  end%bool.
Lemma keys_checked : forallb keys_ok tool_index = true.
Proof. vm_compute. reflexivity. Qed.

Lemma missing_iff : forall tree name, some_order tree -> (open_model tree name = NotFound <-> In name missing_models).
Proof.
  intros tree name O. split.
  - intro H. assert (A : accepted_name name).
    { destruct (mem name ("ISCWSA MWD Rev5"%string :: map snd tool_index)) eqn:E.
      - apply mem_iff in E. destruct E as [<-|E]; [right; reflexivity|left; exact E].
      - exfalso. assert (U : open_model tree name = Unrecognised); [|congruence]. apply unrecognised_iff.
        intros [Q|Q]; [|subst; discriminate]. assert (X : mem name ("ISCWSA MWD Rev5"%string :: map snd tool_index) = true) by (apply mem_iff; right; exact Q). congruence. }
    destruct (selected name A) as (key & F & _). unfold open_model in H. rewrite F in H.
    apply find_some in F. destruct F as [F _]. pose proof keys_checked as K. rewrite forallb_forall in K. specialize (K _ F).
    unfold keys_ok in K. destruct (lookup key tool_codes); [discriminate|]. cbv zeta in K. apply andb_true_iff in K. destruct K as [K1 K].
    unfold resolve_json_model in H. rewrite find_named_flat, find_described_flat in H.
    apply negb_true_iff in K1. rewrite (order_none _ tree O K1) in H.
    destruct (lookup (unalias name) gyro_models) as [[a b]|].
    + exfalso. rewrite !andb_true_iff in K. destruct K as [[_ K] _]. apply existsb_exists in K. destruct K as (f & I & Q).
      apply (order_files tree f O) in I. destruct (find _ _) eqn:Z; [discriminate|]. rewrite (find_none _ _ Z _ I) in Q. discriminate.
    + apply andb_true_iff in K. destruct K as [K _]. apply mem_iff in K.
      destruct (string_dec name "ISCWSA MWD Rev5") as [->|N]; [exfalso; cbn in K; intuition discriminate|]. rewrite unalias_eq in K; auto.
  - intro I. assert (A : accepted_name name /\ unalias name = name).
    { destruct I as [<-|[<-|[<-|[<-|[<-|[<-|[]]]]]]]; (split; [left; apply mem_iff; vm_compute; reflexivity|reflexivity]). }
    destruct A as [A U]. destruct (selected name A) as (key & F & E). rewrite U in F, E. unfold open_model. rewrite U, F.
    apply find_some in F. destruct F as [F _]. pose proof keys_checked as K. rewrite forallb_forall in K. specialize (K _ F).
    apply mem_iff in I. unfold keys_ok in K. unfold entry_ok in E. destruct (lookup key tool_codes) as [m|].
    { exfalso. rewrite !andb_true_iff, I in E. destruct E as [[_ E] _]. discriminate. }
    cbv zeta in K. apply andb_true_iff in K. destruct K as [K1 K]. apply negb_true_iff in K1.
    unfold resolve_json_model. rewrite find_named_flat, find_described_flat, (order_none _ tree O K1).
    destruct (lookup name gyro_models) as [[a b]|].
    + exfalso. rewrite I in K. discriminate.
    + apply andb_true_iff in K. destruct K as [_ K]. apply negb_true_iff in K. rewrite (order_none _ tree O K). reflexivity.
Qed.

Lemma gyro_opens : forall tree name a b, some_order tree -> In (name, (a, b)) gyro_models ->
  exists f, open_model tree name = Json f /\ (jf_file f = a \/ jf_file f = b).
Proof.
  intros tree name a b O I.
  assert (A : accepted_name name /\ unalias name = name /\ lookup name gyro_models = Some (a, b)).
  { destruct I as [I|[I|[I|[I|[I|[]]]]]]; injection I as <- <- <-; (split; [left; apply mem_iff; vm_compute; reflexivity|split; reflexivity]). }
  destruct A as (A & U & G). destruct (selected name A) as (key & F & E). rewrite U in F, E. unfold open_model. rewrite U, F.
  apply find_some in F. destruct F as [F _]. pose proof keys_checked as K. rewrite forallb_forall in K. specialize (K _ F).
  unfold keys_ok in K. unfold entry_ok in E. destruct (lookup key tool_codes) as [m|].
  { exfalso. rewrite !andb_true_iff in E. destruct E as [_ E]. apply negb_true_iff in E.
    assert (X : mem name (map fst gyro_models) = true) by (apply mem_iff; apply (in_map fst) in I; exact I). congruence. }
  cbv zeta in K. rewrite G, !andb_true_iff in K. destruct K as [K1 [[_ K2] K3]]. apply negb_true_iff in K1.
  unfold resolve_json_model. rewrite find_named_flat, find_described_flat, (order_none _ tree O K1).
  apply existsb_exists in K2. destruct K2 as (f & J & Q). apply (order_files tree f O) in J.
  destruct (find _ _) as [g|] eqn:Z; [|rewrite (find_none _ _ Z _ J) in Q; discriminate].
  exists g. split; [reflexivity|]. apply find_some in Z. destruct Z as [Z1 Z2]. apply (order_files tree g O) in Z1.
  rewrite forallb_forall in K3. specialize (K3 g Z1). rewrite Z2 in K3. cbn in K3. apply orb_true_iff in K3. rewrite !String.eqb_eq in K3. exact K3.
Qed.
(** both occur *)
Definition backwards : list (string * list json_file) := map (fun e => (fst e, rev (snd e))) iscwsa_json.
Lemma forwards_order : some_order iscwsa_json.
Proof.
  exists iscwsa_json. split; [apply Permutation_refl|]. induction iscwsa_json; constructor; auto.
Qed.
Lemma backwards_order : some_order backwards.
Proof.
  exists iscwsa_json. split; [apply Permutation_refl|]. unfold backwards.
  induction iscwsa_json; cbn [map]; constructor; auto. cbn. split; auto. apply Permutation_sym, Permutation_rev.
Qed.
Lemma gyro_either : forall name a b, In (name, (a, b)) gyro_models ->
  (exists tree f, some_order tree /\ open_model tree name = Json f /\ jf_file f = a) /\
  (exists tree f, some_order tree /\ open_model tree name = Json f /\ jf_file f = b).
Proof.
  assert (X : forallb (fun e : string * (string * string) => let '(n, (a, b)) := e in
     match open_model iscwsa_json n, open_model backwards n with
     | Json f, Json g => String.eqb (jf_file f) a && String.eqb (jf_file g) b | _, _ => false end)%bool gyro_models = true) by (vm_compute; reflexivity).
  rewrite forallb_forall in X. intros name a b I. specialize (X _ I). cbv beta iota in X.
  destruct (open_model iscwsa_json name) eqn:E1; try discriminate. destruct (open_model backwards name) eqn:E2; try discriminate.
  apply andb_true_iff in X. rewrite !String.eqb_eq in X. destruct X. split.
  - exists iscwsa_json, f. auto using forwards_order.
  - exists backwards, f0. auto using backwards_order.
Qed.

(** their terms *)
Definition no_well (m : json_model) : bool := forallb (fun t => negb (String.eqb (jt_mode t) "Well")) (jm_terms m).
Definition one_well (m : json_model) : bool :=
  match find (fun t => String.eqb (jt_mode t) "Well") (jm_terms m) with
  | Some t => Nat.eqb (length (filter (fun u => String.eqb (jt_name u) (jt_name t)) (jm_terms m))) 1
  | None => false
  end.
Definition film_files : list string := ["CB_Film_GMS.json"; "CB_Film_GMS_Fl.json"]%string.
Lemma wells_checked : forallb (fun m => if mem (jm_file m) film_files then one_well m else no_well m) json_models = true.
Proof. vm_compute. reflexivity. Qed.
Lemma inc_limits : Forall (fun m => jm_inc_max m = if mem (jm_file m) ["GYRO-NS-CT.json"; "GYRO-NS-CT_Fl.json"]%string then 150 else 89) json_models.
Proof. unfold json_models. repeat (apply Forall_cons; [reflexivity|]). apply Forall_nil. Qed.
Lemma models_found : forall name a b, In (name, (a, b)) gyro_models -> forall f, f = a \/ f = b ->
  exists m, find (fun m => String.eqb (jm_file m) f) json_models = Some m /\ jm_file m = f /\ In m json_models.
Proof.
  assert (X : forallb (fun e : string * (string * string) => let '(n, (a, b)) := e in
     existsb (fun m => String.eqb (jm_file m) a) json_models && existsb (fun m => String.eqb (jm_file m) b) json_models)%bool gyro_models = true)
    by (vm_compute; reflexivity).
  rewrite forallb_forall in X. intros name a b I f Hf. specialize (X _ I). cbv beta iota in X. apply andb_true_iff in X.
  assert (E : existsb (fun m => String.eqb (jm_file m) f) json_models = true) by (destruct Hf as [->| ->]; tauto).
  apply existsb_exists in E. destruct E as (m & J & Q). destruct (find _ json_models) as [m'|] eqn:Z.
  - exists m'. apply find_some in Z. destruct Z as [Z1 Z2]. apply String.eqb_eq in Z2. auto.
  - rewrite (find_none _ _ Z _ J) in Q. discriminate.
Qed.
Lemma wells_exist : forall A (nm md : A -> string) l, (match find (fun t => String.eqb (md t) "Well") l with
    | Some t => Nat.eqb (length (filter (fun u => String.eqb (nm u) (nm t)) l)) 1 | None => false end) = true ->
  exists a t b, l = a ++ t :: b /\ md t = "Well"%string /\ forall u, In u b -> nm u <> nm t.
Proof.
  intros A nm md l H. destruct (find _ l) as [t|] eqn:F; [|discriminate]. apply find_some in F. destruct F as [I M].
  apply String.eqb_eq in M. apply in_split in I. destruct I as (a & b & ->). exists a, t, b. split; auto. split; auto.
  intros u Hu E. apply Nat.eqb_eq in H. rewrite filter_app, app_length in H. cbn [filter] in H. rewrite String.eqb_refl in H. cbn [length] in H.
  assert (In u (filter (fun u => String.eqb (nm u) (nm t)) b)) by (apply filter_In; rewrite E, String.eqb_refl; auto).
  destruct (filter _ b); [contradiction|cbn in H; lia].
Qed.
Lemma json_raises : forall rates rev4 l m, one_well m = true -> 
  json_tool_error rev4 (jm_inc_max m * (PI / 180)) (map survey_rad l) (json_terms rates m) = None.
Proof.
  intros rates rev4 l m W. apply json_fails. right. unfold one_well in W. apply wells_exist in W. destruct W as (a & t & b & E & M & U).
  unfold json_terms. rewrite E, map_app. cbn [map]. eexists _, _, _. split; [reflexivity|]. split; [exact M|].
  intros u Hu. apply in_map_iff in Hu. destruct Hu as (x & <- & Hx). cbn. auto.
Qed.
Lemma json_works : forall rates rev4 l m, no_well m = true ->
  ((exists t, json_tool_error rev4 (jm_inc_max m * (PI / 180)) (map survey_rad l) (json_terms rates m) = Some t) <->
   forall s, In s l -> w_inc s < jm_inc_max m * (PI / 180)).
Proof.
  intros rates rev4 l m W. unfold no_well in W. rewrite forallb_forall in W.
  pose proof (json_fails rev4 (jm_inc_max m * (PI / 180)) (map survey_rad l) (json_terms rates m)) as J. split.
  - intros [t T] s Hs. destruct (Rlt_dec (w_inc s) (jm_inc_max m * (PI / 180))) as [|N]; auto. exfalso.
    assert (X : json_tool_error rev4 (jm_inc_max m * (PI / 180)) (map survey_rad l) (json_terms rates m) = None); [|congruence].
    apply J. left. exists (survey_rad s). split; [apply in_map; exact Hs|]. cbn. lra.
  - intro H. destruct (json_tool_error _ _ _ _) as [t|]; [eauto|]. exfalso. destruct (proj1 J eq_refl) as [(s & I & Q)|(a & t & b & E & M & _)].
    + apply in_map_iff in I. destruct I as (w & <- & I). cbn in Q. specialize (H w I). lra.
    + assert (I : In t (json_terms rates m)) by (rewrite E; apply in_or_app; right; left; reflexivity).
      unfold json_terms in I. apply in_map_iff in I. destruct I as (x & <- & I). cbn in M. specialize (W x I). rewrite M in W. discriminate.
Qed.
Lemma gyro_usable_iff : forall tree rates az h l name, some_order tree -> In name (map fst gyro_models) ->
  ((exists t, error_model tree rates az h l name = Totals t) <->
   name <> "CB_Film_GMS"%string /\ forall s, In s l -> w_inc s < gyro_limit name * (PI / 180)).
Proof.
  intros tree rates az h l name O I. apply in_map_iff in I. destruct I as ([n [a b]] & <- & I). cbn [fst].
  destruct (gyro_opens tree n a b O I) as (f & F & Q). unfold error_model. rewrite F. unfold json_model_error.
  destruct (models_found n a b I _ Q) as (m & -> & E & J).
  pose proof wells_checked as W. rewrite forallb_forall in W. specialize (W m J). rewrite E in W.
  pose proof inc_limits as LM. rewrite Forall_forall in LM. specialize (LM m J). rewrite E in LM.
  assert (D : (mem (jf_file f) film_files = true <-> n = "CB_Film_GMS"%string) /\
     (mem (jf_file f) ["GYRO-NS-CT.json"; "GYRO-NS-CT_Fl.json"]%string = true <-> n = "GYRO-NS-CT"%string)).
  { destruct I as [I|[I|[I|[I|[I|[]]]]]]; injection I as <- <- <-; destruct Q as [-> | ->]; vm_compute; split; split; congruence. }
  destruct D as [D1 D2].
  assert (G : jm_inc_max m = gyro_limit n).
  { rewrite LM. unfold gyro_limit. destruct (string_dec n "GYRO-NS-CT") as [H|H].
    - apply D2 in H. rewrite H. reflexivity.
    - destruct (mem (jf_file f) ["GYRO-NS-CT.json"; "GYRO-NS-CT_Fl.json"]%string); [exfalso; apply H, D2; reflexivity|reflexivity]. }
  destruct (mem (jf_file f) film_files) eqn:FF.
  - rewrite json_raises by exact W. split; [intros [t T]; discriminate|]. intros [N _]. exfalso. apply N, D1. reflexivity.
  - rewrite <- G, <- (json_works rates (is_rev4 n) l m W). split.
    + intros [t T]. split; [intro H; apply D1 in H; discriminate|]. destruct (json_tool_error _ _ _ _) as [x|]; [eauto|discriminate].
    + intros [_ [t T]]. rewrite T. eauto.
Qed.
