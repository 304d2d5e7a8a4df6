(** Proofs about splice_surveys (M_Splice.v). *)
Require Import Reals ZArith Bool String List Lra Lia Psatz.
Require Import Verif.Base Verif.NumPy Verif.Spec Verif.M_Utils Verif.M_Survey Verif.P_Survey Verif.P_Survey2 Verif.P_Survey3 Verif.P_Survey4 Verif.P_Survey5
  Verif.M_Splice Verif.Spec_Splice.
Import ListNotations.
Open Scope R_scope.

Lemma length_tl : forall (A : Type) (l : list A), length (tl l) = pred (length l).
Proof. destruct l; auto. Qed.
Lemma map_tl : forall (A B : Type) (f : A -> B) l, map f (tl l) = tl (map f l).
Proof. destruct l; auto. Qed.

(** ** survey_data and append_all *)
Definition named (ref : azi_ref) (s : survey) : list R :=
  match named_azimuths ref s with Some l => l | None => [] end.

Lemma append_all_spec : forall l j j', append_all j l = inl j' ->
  jn_header j' = jn_header j /\
  jn_md j' = jn_md j ++ flat_map (fun d => tl (map st_md (rows_of d))) l /\
  jn_inc j' = jn_inc j ++ flat_map (fun d => tl (map st_inc (rows_of d))) l /\
  jn_azi j' = jn_azi j ++ flat_map (fun d => tl (named (h_ref (jn_header j)) (sd_survey d))) l /\
  jn_start_nev j' = jn_start_nev j /\ jn_start_xyz j' = jn_start_xyz j /\
  jn_radius j' = jn_radius j ++ flat_map (fun d => tl (sd_radius d)) l /\
  (l = [] -> jn_cov_nev j' = jn_cov_nev j /\ jn_cov_hla j' = jn_cov_hla j) /\
  (l <> [] -> exists c h, jn_cov_nev j = Some c /\ jn_cov_hla j = Some h /\
     jn_cov_nev j' = Some (c ++ flat_map (fun d => tl (covs d)) l) /\
     jn_cov_hla j' = Some (h ++ flat_map (fun d => tl (covs_hla d)) l) /\
     forall d, In d l -> sd_cov_nev d <> None /\ sd_cov_hla d <> None).
Proof.
  induction l as [|d l IH]; intros j j' H.
  - injection H as <-. simpl. rewrite !app_nil_r. repeat (split; [solve [auto]|]). intro K; congruence.
  - simpl in H. destruct (append_survey j d) as [j1|e] eqn:E; [|discriminate].
    unfold append_survey in E. destruct (named_azimuths (h_ref (jn_header j)) (sd_survey d)) as [az|] eqn:EN; [|discriminate].
    destruct (join_cov (jn_cov_nev j) (sd_cov_nev d)) as [nev|e] eqn:J1; [|discriminate].
    destruct (join_cov (jn_cov_hla j) (sd_cov_hla d)) as [hla|e] eqn:J2; [|discriminate].
    injection E as <-. specialize (IH _ _ H). cbn [jn_header jn_md jn_inc jn_azi jn_start_nev jn_start_xyz jn_cov_nev jn_cov_hla jn_radius] in IH.
    destruct IH as (I1 & I2 & I3 & I4 & I5 & I6 & I7 & I8 & I9).
    assert (ENm : named (h_ref (jn_header j)) (sd_survey d) = az) by (unfold named; rewrite EN; auto).
    simpl flat_map. rewrite ENm. rewrite <- !app_assoc in *.
    repeat (split; [assumption|]). split; [discriminate|]. intros _.
    unfold join_cov in J1, J2.
    destruct (jn_cov_nev j) as [c|]; [|discriminate]. destruct (sd_cov_nev d) as [cd|] eqn:C1; [|discriminate]. injection J1 as <-.
    destruct (jn_cov_hla j) as [h|]; [|discriminate]. destruct (sd_cov_hla d) as [hd'|] eqn:C2; [|discriminate]. injection J2 as <-.
    exists c, h. split; auto. split; auto.
    assert (K1 : covs d = cd) by (unfold covs; rewrite C1; auto).
    assert (K2 : covs_hla d = hd') by (unfold covs_hla; rewrite C2; auto).
    rewrite K1, K2. destruct l as [|d2 l].
    + destruct I8 as [I8 I8']; auto. simpl. rewrite !app_nil_r. split; auto. split; auto.
      intros x [<-|[]]. rewrite C1, C2. split; discriminate.
    + destruct I9 as (c0 & h0 & A1 & A2 & A3 & A4 & A5); [discriminate|].
      injection A1 as <-. injection A2 as <-. rewrite <- !app_assoc in *. split; auto. split; auto.
      intros x [<-|Hx]; [rewrite C1, C2; split; discriminate|]. apply A5; auto.
Qed.

Lemma append_all_ok : forall l j c h, jn_cov_nev j = Some c -> jn_cov_hla j = Some h -> h_ref (jn_header j) <> RefMagnetic ->
  (forall d, In d l -> sd_cov_nev d <> None /\ sd_cov_hla d <> None) -> exists j', append_all j l = inl j'.
Proof.
  induction l as [|d l IH]; intros j c h A B R H; [eexists; reflexivity|].
  simpl. unfold append_survey. rewrite A, B.
  destruct (H d (or_introl eq_refl)) as [H1 H2].
  destruct (sd_cov_nev d) as [cd|]; [|congruence]. destruct (sd_cov_hla d) as [hd'|]; [|congruence].
  destruct (named_azimuths (h_ref (jn_header j)) (sd_survey d)) as [az|] eqn:N.
  2:{ exfalso. destruct (h_ref (jn_header j)); simpl in N; congruence. }
  simpl. eapply IH; cbn [jn_cov_nev jn_cov_hla jn_header]; eauto. intros x Hx. apply H. right; auto.
Qed.

(** combining and mapping *)
Lemma map_combine3 : forall (A : Type) (l : list A) (f g h : A -> R),
  combine (combine (map f l) (map g l)) (map h l) = map (fun a => (f a, g a, h a)) l.
Proof. induction l; intros; simpl; f_equal; auto. Qed.

(** rows handed to the constructor, as one map over the spliced rows, given a
    piece-wise azimuth function *)
Definition tagged (d : sdata) : list (sdata * station) := map (fun a => (d, a)) (rows_of d).
Definition ref_azi (ref : azi_ref) (d : sdata) (a : station) : R :=
  match ref with RefGrid => st_azi a | _ => st_azi a + h_convergence (header_of d) end.

Lemma flat_map_map : forall (A B C : Type) (f : A -> list B) (g : B -> C) l,
  map g (flat_map f l) = flat_map (fun x => map g (f x)) l.
Proof. induction l; simpl; auto. rewrite map_app. f_equal; auto. Qed.
Lemma flat_map_ext_in : forall (A B : Type) (f g : A -> list B) l, (forall x, In x l -> f x = g x) ->
  flat_map f l = flat_map g l.
Proof. induction l; simpl; intros; auto. f_equal; auto. Qed.
Lemma map_spliced : forall (A B C : Type) (f : A -> list B) (g : B -> C) l,
  map g (spliced f l) = spliced (fun x => map g (f x)) l.
Proof.
  intros. destruct l as [|d l]; auto. simpl. rewrite map_app, flat_map_map. f_equal.
  apply flat_map_ext_in. intros; apply map_tl.
Qed.
Lemma spliced_ext : forall (A B : Type) (f g : A -> list B) l, (forall x, In x l -> f x = g x) -> spliced f l = spliced g l.
Proof.
  intros A B f g [|d l] H; auto. simpl. rewrite (H d) by (left; auto). f_equal.
  apply flat_map_ext_in. intros x Hx. rewrite H; auto. right; auto.
Qed.
Lemma named_ref : forall ref d, built d -> ref <> RefMagnetic -> named ref (sd_survey d) = map (ref_azi ref d) (rows_of d).
Proof.
  intros ref d (_ & _ & _ & T & _) N. unfold named, named_azimuths, ref_azi, rows_of, header_of.
  destruct ref; auto. congruence.
Qed.

(** the rows given to the constructor *)
Lemma splice_inv : forall l r, splice_surveys l = SpliceOk r -> Forall built l ->
  exists first rest, l = first :: rest /\ h_ref (header_of first) <> RefMagnetic /\ h_unit (header_of first) = "meters"%string /\
    (rest <> [] -> forall d, In d l -> sd_cov_nev d <> None /\ sd_cov_hla d <> None) /\
    Survey (header_of first)
      (map (fun p => (st_md (snd p), st_inc (snd p), ref_azi (h_ref (header_of first)) (fst p) (snd p))) (spliced tagged l))
      false (hd vzero (sv_xyz (sd_survey first))) (hd vzero (positions_of first)) "meters" = Some (sd_survey r) /\
    sd_radius r = spliced sd_radius l /\
    (sd_cov_nev first <> None -> sd_cov_nev r = Some (spliced covs l) /\ sd_cov_hla r = Some (spliced covs_hla l)) /\
    (sd_cov_nev first = None -> sd_cov_nev r = None /\ sd_cov_hla r = None).
Proof.
  intros l r H B. destruct l as [|d l]; [discriminate|]. simpl in H.
  destruct (survey_data d) as [j|] eqn:E; [|discriminate].
  assert (Bd : built d) by (inversion B; auto).
  unfold survey_data in E. destruct (named_azimuths (h_ref (sv_header (sd_survey d))) (sd_survey d)) as [az|] eqn:N; [|discriminate].
  assert (RM : h_ref (header_of d) <> RefMagnetic).
  { intro K. unfold header_of in K. rewrite K in N. discriminate. }
  injection E as <-. destruct (append_all _ l) as [j'|e] eqn:A; [|subst e].
  2:{ exfalso. clear -A. revert A. generalize (mkJoined (sv_header (sd_survey d)) (map st_md (sv_rows (sd_survey d))) (map st_inc (sv_rows (sd_survey d))) az
       (hd vzero (sv_nev (sd_survey d))) (hd vzero (sv_xyz (sd_survey d))) (sd_cov_nev d) (sd_cov_hla d) (sd_radius d)).
     induction l as [|x l IH]; intros j A; [discriminate|]. simpl in A.
     destruct (append_survey j x) as [j1|e] eqn:E; [eapply IH; eauto|]. injection A as ->.
     unfold append_survey in E. destruct (named_azimuths _ _); [|discriminate].
     unfold join_cov in E. destruct (jn_cov_nev j), (sd_cov_nev x), (jn_cov_hla j), (sd_cov_hla x); discriminate. }
  destruct (append_all_spec _ _ _ A) as (I1 & I2 & I3 & I4 & I5 & I6 & I7 & I8 & I9).
  cbn [jn_header jn_md jn_inc jn_azi jn_start_nev jn_start_xyz jn_cov_nev jn_cov_hla jn_radius] in *.
  assert (Az : az = named (h_ref (header_of d)) (sd_survey d)) by (unfold named, header_of; rewrite N; auto).
  unfold get_survey in H. rewrite I1, I2, I3, I4, I5, I6, I7 in H.
  assert (EQ : combine (combine (map st_md (sv_rows (sd_survey d)) ++ flat_map (fun d0 => tl (map st_md (rows_of d0))) l)
       (map st_inc (sv_rows (sd_survey d)) ++ flat_map (fun d0 => tl (map st_inc (rows_of d0))) l))
       (az ++ flat_map (fun d0 => tl (named (h_ref (sv_header (sd_survey d))) (sd_survey d0))) l)
     = map (fun p => (st_md (snd p), st_inc (snd p), ref_azi (h_ref (header_of d)) (fst p) (snd p))) (spliced tagged (d :: l))).
  { rewrite <- map_combine3. f_equal; [f_equal|].
    - rewrite map_spliced. simpl. unfold tagged. rewrite map_map. f_equal.
      apply flat_map_ext_in. intros x _. rewrite map_map. auto.
    - rewrite map_spliced. simpl. unfold tagged. rewrite map_map. f_equal.
      apply flat_map_ext_in. intros x _. rewrite map_map. auto.
    - rewrite map_spliced. simpl. unfold tagged. rewrite map_map. rewrite Az, named_ref by auto. f_equal.
      apply flat_map_ext_in. intros x Hx. rewrite map_map.
      fold (header_of d). rewrite named_ref; auto.
      rewrite Forall_forall in B. apply B. right; auto. }
  rewrite EQ in H. unfold header_of, positions_of in *.
  destruct (Survey (sv_header (sd_survey d)) _ false _ _ "meters") as [s|] eqn:S; [|discriminate].
  destruct (get_radius _ (Some (sd_radius d ++ flat_map (fun d0 => tl (sd_radius d0)) l))) as [rr|] eqn:GR; [|discriminate].
  assert (RR : rr = sd_radius d ++ flat_map (fun d0 => tl (sd_radius d0)) l).
  { unfold get_radius in GR. destruct (sd_radius d ++ flat_map (fun d0 => tl (sd_radius d0)) l) as [|r1 [|r2 rl]] eqn:L.
    - destruct (Nat.eqb _ _); [congruence|discriminate].
    - exfalso. destruct Bd as (L2 & L3 & _). assert (length (sd_radius d ++ flat_map (fun d0 => tl (sd_radius d0)) l) = 1%nat) by (rewrite L; auto).
      rewrite app_length in H0. lia.
    - destruct (Nat.eqb _ _); [congruence|discriminate]. }
  exists d, l. split; auto. split; auto.
  split. { unfold Survey in S. destruct (String.eqb_spec "meters" (h_unit (sv_header (sd_survey d)))); [auto|discriminate]. }
  destruct (given_covariances (sv_rows s) (jn_cov_nev j') (jn_cov_hla j') None) as [nv hl] eqn:GC.
  injection H as <-. cbn [sd_survey sd_radius sd_cov_nev sd_cov_hla].
  destruct Bd as (_ & _ & _ & _ & _ & CC).
  destruct l as [|e l'].
  - destruct I8 as [I8 I8']; auto. rewrite I8, I8' in GC. split; [congruence|]. split; [auto|].
    split; [rewrite RR; reflexivity|]. simpl. rewrite !app_nil_r. unfold given_covariances in GC.
    split.
    + intro NN. unfold covs, covs_hla. destruct (sd_cov_nev d); [|congruence]. destruct (sd_cov_hla d).
      * injection GC as <- <-. auto.
      * exfalso. destruct CC as [_ CC]. discriminate CC; auto.
    + intro NN. assert (sd_cov_hla d = None) by (apply CC; auto). rewrite NN, H in GC. injection GC as <- <-. auto.
  - destruct I9 as (c & h & A1 & A2 & A3 & A4 & A5); [discriminate|].
    rewrite A3, A4 in GC. unfold given_covariances in GC. injection GC as <- <-.
    split. { intros _ x [<-|Hx]; [rewrite A1, A2; split; discriminate|]. apply A5; auto. }
    split; [auto|]. split; [rewrite RR; reflexivity|].
    split; [|rewrite A1; discriminate]. intros _. assert (K1 : covs d = c) by (unfold covs; rewrite A1; auto).
    assert (K2 : covs_hla d = h) by (unfold covs_hla; rewrite A2; auto).
    unfold spliced. rewrite K1, K2. auto.
Qed.

Lemma built_radius_len : forall l, Forall built l ->
  length (spliced sd_radius l) = length (spliced tagged l).
Proof.
  intros [|d l] B; auto. simpl. rewrite !app_length. unfold tagged at 1. rewrite map_length.
  inversion B as [|? ? Bd Bl]; subst. destruct Bd as (_ & L & _). unfold rows_of. rewrite L. f_equal.
  clear -Bl. induction Bl as [|x l Bx Bl IH]; auto. simpl. rewrite !app_length, !length_tl, IH. f_equal.
  destruct Bx as (_ & L & _). unfold tagged, rows_of. rewrite map_length, L. auto.
Qed.
Lemma tagged_len : forall l, Forall built l -> l <> [] -> (2 <= length (spliced tagged l))%nat.
Proof.
  intros [|d l] B N; [congruence|]. simpl. rewrite app_length. unfold tagged at 1. rewrite map_length.
  inversion B as [|? ? Bd Bl]; subst. destruct Bd as (L & _). unfold rows_of. lia.
Qed.

(** ** when splicing succeeds *)
Lemma splice_iff : forall l, Forall built l ->
  ((exists r, splice_surveys l = SpliceOk r) <->
   exists first rest, l = first :: rest /\ h_ref (header_of first) <> RefMagnetic /\
     h_unit (header_of first) = "meters"%string /\
     (rest = [] \/ forall d, In d l -> sd_cov_nev d <> None)).
Proof.
  intros l B. split.
  - intros [r H]. destruct (splice_inv _ _ H B) as (d & rest & E & M & U & C & _).
    exists d, rest. split; auto. split; auto. split; auto.
    destruct rest as [|e rest]; [left; auto|right]. intros x Hx. apply C; auto. discriminate.
  - intros (d & rest & E & M & U & C). subst l. pose proof B as B0. inversion B as [|? ? Bd Bl]; subst.
    simpl. unfold survey_data.
    destruct (named_azimuths (h_ref (sv_header (sd_survey d))) (sd_survey d)) as [az|] eqn:N.
    2:{ exfalso. unfold header_of in M. destruct (h_ref (sv_header (sd_survey d))); simpl in N; congruence. }
    match goal with |- context [append_all ?j0 rest] => set (j := j0) end.
    assert (A : exists j', append_all j rest = inl j').
    { destruct C as [->|C]; [eexists; reflexivity|].
      assert (C' : forall x, In x (d :: rest) -> sd_cov_nev x <> None /\ sd_cov_hla x <> None).
      { intros x Hx. split; [apply C; auto|]. rewrite Forall_forall in B0. destruct (B0 x Hx) as (_ & _ & _ & _ & _ & K).
        intro Z. apply K in Z. exact (C x Hx Z). }
      destruct (C' d (or_introl eq_refl)) as [K1 K2].
      destruct (sd_cov_nev d) as [c|] eqn:E1; [|congruence]. destruct (sd_cov_hla d) as [h|] eqn:E2; [|congruence].
      eapply (append_all_ok rest j c h); unfold j; cbn [jn_cov_nev jn_cov_hla jn_header]; auto.
      intros x Hx. apply C'. right; auto. }
    destruct A as [j' A]. rewrite A.
    destruct (append_all_spec _ _ _ A) as (I1 & I2 & I3 & I4 & I5 & I6 & I7 & I8 & I9).
    unfold j in *. cbn [jn_header jn_md jn_inc jn_azi jn_start_nev jn_start_xyz jn_cov_nev jn_cov_hla jn_radius] in *.
    unfold get_survey. rewrite I1.
    assert (L : length (combine (combine (jn_md j') (jn_inc j')) (jn_azi j')) = length (spliced tagged (d :: rest))).
    { rewrite !combine_length, I2, I3, I4.
      assert (Az : az = named (h_ref (header_of d)) (sd_survey d)) by (unfold named, header_of; rewrite N; auto).
      assert (K : forall f : station -> R, length (map f (sv_rows (sd_survey d)) ++ flat_map (fun d0 => tl (map f (rows_of d0))) rest)
         = length (spliced tagged (d :: rest))).
      { intro f. simpl. rewrite !app_length. unfold tagged at 1. rewrite !map_length. f_equal.
        clear. induction rest; auto. simpl. rewrite !app_length, !length_tl, IHrest. unfold tagged. rewrite !map_length. auto. }
      assert (KA : length (az ++ flat_map (fun d0 => tl (named (h_ref (sv_header (sd_survey d))) (sd_survey d0))) rest)
         = length (spliced tagged (d :: rest))).
      { rewrite Az, named_ref by auto. simpl. rewrite !app_length. unfold tagged at 1. rewrite !map_length. f_equal.
        fold (header_of d). clear -Bl M. induction Bl as [|x rest Bx Bl IH]; auto. simpl. rewrite !app_length, !length_tl, IH.
        rewrite named_ref by auto. unfold tagged. rewrite !map_length. auto. }
      rewrite !K, KA. lia. }
    assert (T2 : (2 <= length (spliced tagged (d :: rest)))%nat) by (apply tagged_len; auto; discriminate).
    destruct (Survey_accepts (sv_header (sd_survey d)) (combine (combine (jn_md j') (jn_inc j')) (jn_azi j')) false (jn_start_xyz j') (jn_start_nev j') "meters") as [_ SA].
    destruct SA as [s S]. { split; [symmetry; exact U|]. split; [auto|]. pose proof T2 as T3. rewrite <- L in T3. exact T3. }
    rewrite S. rewrite I7. 
    assert (RL : length (sd_radius d ++ flat_map (fun d0 => tl (sd_radius d0)) rest) = length (spliced tagged (d :: rest))).
    { apply (built_radius_len (d :: rest)). auto. }
    assert (GR : get_radius (length (combine (combine (jn_md j') (jn_inc j')) (jn_azi j')))
       (Some (sd_radius d ++ flat_map (fun d0 => tl (sd_radius d0)) rest)) = Some (sd_radius d ++ flat_map (fun d0 => tl (sd_radius d0)) rest)).
    { unfold get_radius. rewrite L. destruct (sd_radius d ++ flat_map (fun d0 => tl (sd_radius d0)) rest) as [|r1 [|r2 rl]] eqn:Q.
      - exfalso. cbn [length] in RL. lia.
      - exfalso. cbn [length] in RL. lia.
      - rewrite RL, Nat.eqb_refl. auto. }
    rewrite GR. destruct (given_covariances _ _ _ _) as [nv hl]. eauto.
Qed.

Lemma splice_failures : splice_surveys [] = SpliceIndex /\ forall first rest, Forall built (first :: rest) ->
  (h_ref (header_of first) = RefMagnetic -> splice_surveys (first :: rest) = SpliceAttribute) /\
  (h_ref (header_of first) <> RefMagnetic -> rest <> [] -> sd_cov_nev first = None ->
     splice_surveys (first :: rest) = SpliceAttribute) /\
  (h_ref (header_of first) <> RefMagnetic -> h_unit (header_of first) = "feet"%string ->
     (rest = [] \/ forall d, In d (first :: rest) -> sd_cov_nev d <> None) ->
     splice_surveys (first :: rest) = SpliceAssertion).
Proof.
  split; [reflexivity|]. intros d rest B. split; [|split].
  - intro M. simpl. unfold survey_data. unfold header_of in M. rewrite M. reflexivity.
  - intros M R C. simpl. unfold survey_data.
    destruct (named_azimuths (h_ref (sv_header (sd_survey d))) (sd_survey d)) as [az|] eqn:N.
    2:{ exfalso. unfold header_of in M. destruct (h_ref (sv_header (sd_survey d))); simpl in N; congruence. }
    destruct rest as [|e rest]; [congruence|]. simpl. unfold append_survey.
    cbn [jn_header jn_cov_nev jn_cov_hla].
    destruct (named_azimuths (h_ref (sv_header (sd_survey d))) (sd_survey e)) as [az'|] eqn:N'; [|reflexivity].
    rewrite C. reflexivity.
  - intros M U C. simpl. unfold survey_data.
    destruct (named_azimuths (h_ref (sv_header (sd_survey d))) (sd_survey d)) as [az|] eqn:N.
    2:{ exfalso. unfold header_of in M. destruct (h_ref (sv_header (sd_survey d))); simpl in N; congruence. }
    match goal with |- context [append_all ?j0 rest] => set (j := j0) end.
    assert (A : exists j', append_all j rest = inl j').
    { destruct C as [->|C]; [eexists; reflexivity|].
      assert (C' : forall x, In x (d :: rest) -> sd_cov_nev x <> None /\ sd_cov_hla x <> None).
      { intros x Hx. split; [apply C; auto|]. rewrite Forall_forall in B. destruct (B x Hx) as (_ & _ & _ & _ & _ & K).
        intro Z. apply K in Z. exact (C x Hx Z). }
      destruct (C' d (or_introl eq_refl)) as [K1 K2].
      destruct (sd_cov_nev d) as [c|] eqn:E1; [|congruence]. destruct (sd_cov_hla d) as [h|] eqn:E2; [|congruence].
      eapply (append_all_ok rest j c h); unfold j; cbn [jn_cov_nev jn_cov_hla jn_header]; auto.
      intros x Hx. apply C'. right; auto. }
    destruct A as [j' A]. rewrite A.
    destruct (append_all_spec _ _ _ A) as (I1 & _). unfold j in I1. cbn [jn_header] in I1.
    unfold get_survey. rewrite I1. unfold Survey. unfold header_of in U. rewrite U. reflexivity.
Qed.

Lemma append_all_missing : forall l j c h, jn_cov_nev j = Some c -> jn_cov_hla j = Some h -> h_ref (jn_header j) <> RefMagnetic ->
  (forall d, In d l -> (sd_cov_nev d = None <-> sd_cov_hla d = None)) ->
  (exists d, In d l /\ sd_cov_nev d = None) -> append_all j l = inr SpliceType.
Proof.
  induction l as [|d l IH]; intros j c h A B R K (x & Hx & N); [destruct Hx|].
  simpl. unfold append_survey. rewrite A, B.
  destruct (named_azimuths (h_ref (jn_header j)) (sd_survey d)) as [az|] eqn:NA.
  2:{ exfalso. destruct (h_ref (jn_header j)); simpl in NA; congruence. }
  pose proof (K d (or_introl eq_refl)) as KD.
  destruct (sd_cov_nev d) as [cd|] eqn:E1; [|reflexivity].
  destruct (sd_cov_hla d) as [hd'|] eqn:E2; [|reflexivity]. cbn [join_cov].
  eapply IH; cbn [jn_cov_nev jn_cov_hla jn_header]; eauto.
  - intros y Hy. apply K. right; auto.
  - destruct Hx as [->|Hx]; [congruence|]. exists x; auto.
Qed.
Lemma splice_missing : forall first rest, Forall built (first :: rest) -> h_ref (header_of first) <> RefMagnetic ->
  sd_cov_nev first <> None -> (exists d, In d rest /\ sd_cov_nev d = None) ->
  splice_surveys (first :: rest) = SpliceType.
Proof.
  intros d rest B M C X. simpl. unfold survey_data. unfold header_of in M. rewrite Forall_forall in B.
  destruct (named_azimuths (h_ref (sv_header (sd_survey d))) (sd_survey d)) as [az|] eqn:N.
  2:{ exfalso. destruct (h_ref (sv_header (sd_survey d))); simpl in N; congruence. }
  destruct (B d (or_introl eq_refl)) as (_ & _ & _ & _ & _ & K).
  destruct (sd_cov_nev d) as [c|] eqn:E1; [|congruence]. destruct (sd_cov_hla d) as [h|] eqn:E2; [|destruct K as [_ K]; discriminate (K eq_refl)].
  erewrite append_all_missing; try reflexivity; cbn [jn_header]; auto.
  intros x Hx. destruct (B x (or_intror Hx)) as (_ & _ & _ & _ & _ & K'). exact K'.
Qed.
