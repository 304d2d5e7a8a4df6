(** Proofs about splice_surveys: contents of the joined survey. *)
Require Import Reals ZArith Bool String List Lra Lia Psatz.
Require Import Verif.Base Verif.NumPy Verif.Spec Verif.M_Utils Verif.M_Survey Verif.P_Survey Verif.P_Survey2 Verif.P_Survey3 Verif.P_Survey4 Verif.P_Survey5
  Verif.M_Splice Verif.Spec_Splice Verif.P_Splice.
Import ListNotations.
Open Scope R_scope.

Lemma spliced_tagged : forall l, map snd (spliced tagged l) = spliced rows_of l.
Proof.
  intro l. rewrite map_spliced. apply spliced_ext. intros d _. unfold tagged. rewrite map_map. apply map_id.
Qed.
Lemma in_spliced_tagged : forall l p, In p (spliced tagged l) -> In (fst p) l.
Proof.
  intros [|d l] p H; [destruct H|]. simpl in H. apply in_app_or in H. destruct H as [H|H].
  - unfold tagged in H. apply in_map_iff in H. destruct H as (a & <- & _). left; auto.
  - apply in_flat_map in H. destruct H as (x & Hx & H). right.
    assert (In p (tagged x)) by (destruct (tagged x); [destruct H|right; auto]).
    unfold tagged in H0. apply in_map_iff in H0. destruct H0 as (a & <- & _). auto.
Qed.

(** grid azimuth of a joined station *)
Definition new_azi (h : header) (p : sdata * station) : R :=
  match h_ref h with RefGrid => st_azi (snd p) | _ => st_azi (snd p) + h_convergence (header_of (fst p)) - h_convergence h end.

Lemma joined_rows : forall first rest r, splice_surveys (first :: rest) = SpliceOk r -> Forall built (first :: rest) ->
  sv_rows (sd_survey r) = map (fun p => mkSt (st_md (snd p)) (st_inc (snd p)) (new_azi (header_of first) p)) (spliced tagged (first :: rest)).
Proof.
  intros first rest r H B. destruct (splice_inv _ _ H B) as (d & rs & E & M & U & C & S & _).
  injection E as <- <-. rewrite (Survey_rows _ _ _ _ _ _ _ S), map_map. apply map_ext. intros [d a]. simpl.
  f_equal. unfold new_azi, ref_azi. simpl. destruct (h_ref (header_of first)); simpl; auto. congruence.
Qed.

Lemma splice_values : forall first rest r, splice_surveys (first :: rest) = SpliceOk r -> Forall built (first :: rest) ->
  let l := first :: rest in
  header_of r = header_of first /\
  map st_md (rows_of r) = spliced (fun d => map st_md (rows_of d)) l /\
  map st_inc (rows_of r) = spliced (fun d => map st_inc (rows_of d)) l /\
  (h_ref (header_of first) = RefGrid -> map st_azi (rows_of r) = spliced (fun d => map st_azi (rows_of d)) l) /\
  (h_ref (header_of first) = RefTrue -> sv_azi_true (sd_survey r) = spliced (fun d => sv_azi_true (sd_survey d)) l) /\
  sd_radius r = spliced sd_radius l /\
  (sd_cov_nev first <> None -> sd_cov_nev r = Some (spliced covs l) /\ sd_cov_hla r = Some (spliced covs_hla l)) /\
  (sd_cov_nev first = None -> sd_cov_nev r = None /\ sd_cov_hla r = None) /\
  length (positions_of r) = length (rows_of r) /\ hd_error (positions_of r) = hd_error (positions_of first).
Proof.
  intros first rest r H B l. pose proof (joined_rows _ _ _ H B) as JR.
  destruct (splice_inv _ _ H B) as (d & rs & E & M & U & C & S & R & C1 & C2).
  injection E as <- <-. fold l in JR, S, R, C1, C2. unfold rows_of at 1 3 5.
  destruct (Survey_stations _ _ _ _ _ _ _ S) as (HH & L0 & L1 & _ & _ & _ & _ & L2 & _ & _ & ST).
  split; [exact HH|]. rewrite JR. rewrite !map_map.
  split. { unfold l. rewrite map_spliced. apply spliced_ext. intros x _. unfold tagged. rewrite map_map. auto. }
  split. { unfold l. rewrite map_spliced. apply spliced_ext. intros x _. unfold tagged. rewrite map_map. auto. }
  split. { intro G. unfold l. rewrite map_spliced. apply spliced_ext. intros x _. unfold tagged. rewrite map_map.
    apply map_ext. intro a. simpl. unfold new_azi. rewrite G. auto. }
  split.
  { intro G.
    assert (Q : sv_azi_true (sd_survey r) = map (fun p => ref_azi (h_ref (header_of first)) (fst p) (snd p)) (spliced tagged l)).
    { apply nth_ext with (d := 0) (d' := 0). { rewrite L1, !map_length. auto. }
      intros k Hk. rewrite L1 in Hk. rewrite map_length in Hk.
      destruct (nth_error (spliced tagged l) k) as [p|] eqn:Np. 2:{ apply nth_error_None in Np. unfold l in *. lia. }
      destruct (ST k (st_md (snd p)) (st_inc (snd p)) (ref_azi (h_ref (header_of first)) (fst p) (snd p))) as (g & t & m & _ & T & _ & _ & _ & _ & E).
      { rewrite nth_error_map. rewrite Np. reflexivity. }
      rewrite G in E. simpl in E. rewrite (nth_error_nth _ _ 0 T). rewrite G. 
      assert (N2 : nth_error (map (fun p0 => ref_azi RefTrue (fst p0) (snd p0)) (spliced tagged l)) k = Some (ref_azi RefTrue (fst p) (snd p))).
      { rewrite nth_error_map, Np. reflexivity. }
      rewrite (nth_error_nth _ _ 0 N2). rewrite <- E. reflexivity. }
    rewrite Q, G. unfold l. rewrite map_spliced. apply spliced_ext. intros x Hx. unfold tagged. rewrite map_map. simpl.
    rewrite Forall_forall in B. destruct (B x Hx) as (_ & _ & _ & T & _). rewrite T. reflexivity. }
  split; [exact R|]. split; [exact C1|]. split; [exact C2|].
  split. { unfold positions_of. rewrite L2. rewrite map_length. unfold rows_of. rewrite JR, map_length. auto. }
  destruct (Survey_intervals _ _ _ _ _ _ _ S) as (_ & N0 & _).
  unfold positions_of in *. destruct (sv_nev (sd_survey r)) as [|p pl]; [discriminate|]. simpl in N0. injection N0 as ->.
  inversion B as [|? ? Bd Bl]; subst. destruct Bd as (L & _ & L3 & _).
  destruct (sv_nev (sd_survey first)); [simpl in L3; lia|]. reflexivity.
Qed.

(** ** the rows are those of the pieces exactly when the convergences agree *)
Lemma map_eq_pointwise : forall (A B : Type) (f g : A -> B) l, map f l = map g l <-> forall x, In x l -> f x = g x.
Proof.
  induction l as [|a l IH]; simpl; [tauto|]. split.
  - intro H. injection H as H1 H2. intros x [<-|Hx]; auto. apply IH; auto.
  - intro H. f_equal; [apply H; auto|]. apply IH. intros; apply H; auto.
Qed.
Lemma splice_rows_iff : forall first rest r, splice_surveys (first :: rest) = SpliceOk r -> Forall built (first :: rest) ->
  (rows_of r = spliced rows_of (first :: rest) <->
   h_ref (header_of first) = RefGrid \/ forall d, In d rest -> h_convergence (header_of d) = h_convergence (header_of first)).
Proof.
  intros first rest r H B. pose proof (joined_rows _ _ _ H B) as JR. unfold rows_of at 1. rewrite JR.
  rewrite <- spliced_tagged. rewrite map_eq_pointwise.
  destruct (splice_inv _ _ H B) as (d0 & rs & E & M & _). injection E as <- <-.
  destruct (h_ref (header_of first)) eqn:HR; [|congruence|].
  - split.
    + intro K. right. intros d Hd.
      assert (Bd : built d). { rewrite Forall_forall in B. apply B. right; auto. }
      destruct Bd as (L & _). fold (rows_of d) in L. destruct (rows_of d) as [|a [|b rl]] eqn:RD; [simpl in L; lia|simpl in L; lia|].
      specialize (K (d, b)). unfold new_azi in K. rewrite HR in K. cbn [snd fst] in K.
      assert (I : In (d, b) (spliced tagged (first :: rest))).
      { simpl. apply in_or_app. right. apply in_flat_map. exists d. split; auto. unfold tagged. rewrite RD. simpl. auto. }
      apply K in I. destruct b as [m i z]. simpl in I. injection I as I. lra.
    + intros [K|K]; [discriminate|]. intros [d a] I. pose proof (in_spliced_tagged _ _ I) as J. simpl in J. unfold new_azi.
      rewrite HR. cbn [fst snd]. destruct a as [m i z]. simpl. f_equal.
      destruct J as [<-|J]; [ring|]. rewrite (K d J). ring.
  - split; [auto|]. intros _ [d a] _. unfold new_azi. rewrite HR. destruct a. reflexivity.
Qed.

(** ** positions *)
Lemma traced_cons : forall a b r p q l, traced (a :: b :: r) (p :: q :: l) <->
  q = vadd p (min_curve_step (st_md b - st_md a) (st_inc a) (st_azi a) (st_inc b) (st_azi b)) /\ traced (b :: r) (q :: l).
Proof. intros. simpl. tauto. Qed.

Lemma traced_unique : forall rows n n', traced rows n -> traced rows n' -> hd_error n = hd_error n' -> n = n'.
Proof.
  induction rows as [|a [|b r] IH]; intros n n' T T' Hd.
  - destruct n; destruct T.
  - destruct n as [|p [|q l]]; [destruct T| |destruct T]. destruct n' as [|p' [|q' l']]; [destruct T'| |destruct T'].
    simpl in Hd. congruence.
  - destruct n as [|p [|q l]]; [destruct T|destruct T|]. destruct n' as [|p' [|q' l']]; [destruct T'|destruct T'|].
    apply traced_cons in T. apply traced_cons in T'. destruct T as [Q T], T' as [Q' T'].
    simpl in Hd. injection Hd as <-. f_equal. apply IH; auto. simpl. congruence.
Qed.

Lemma traced_length : forall rows n, traced rows n -> length n = length rows.
Proof.
  induction rows as [|a [|b r] IH]; intros n T.
  - destruct n; destruct T.
  - destruct n as [|p [|q l]]; [destruct T|auto|destruct T].
  - destruct n as [|p [|q l]]; [destruct T|destruct T|]. apply traced_cons in T. destruct T as [_ T]. simpl. f_equal. apply (IH _ T).
Qed.

Lemma last_cons2 : forall (A : Type) (a b : A) l, hd_error (rev (a :: b :: l)) = hd_error (rev (b :: l)).
Proof. intros. simpl. destruct (rev l ++ [b]) eqn:E; [destruct (rev l); discriminate|]. reflexivity. Qed.

Lemma last_app_tl : forall (A : Type) (l m : list A) a, hd_error (rev l) = Some a -> hd_error m = Some a ->
  hd_error (rev (l ++ tl m)) = hd_error (rev m).
Proof.
  intros A l m a L M. destruct m as [|x m]; [discriminate|]. injection M as ->. simpl tl.
  destruct m as [|b m]; [rewrite app_nil_r; auto|].
  rewrite last_cons2. rewrite rev_app_distr. destruct (rev (b :: m)) eqn:E; [|reflexivity].
  simpl in E. destruct (rev m); discriminate.
Qed.

Lemma traced_app : forall r1 n1 r2 n2 a p, traced r1 n1 -> traced r2 n2 ->
  hd_error (rev r1) = Some a -> hd_error r2 = Some a -> hd_error (rev n1) = Some p -> hd_error n2 = Some p ->
  traced (r1 ++ tl r2) (n1 ++ tl n2).
Proof.
  induction r1 as [|x [|y r1] IH]; intros n1 r2 n2 a p T1 T2 L1 L2 L3 L4.
  - destruct n1; destruct T1.
  - destruct n1 as [|u [|v n1]]; [destruct T1| |destruct T1]. simpl in L1, L3. injection L1 as ->. injection L3 as ->.
    destruct r2 as [|b r2]; [discriminate|]. destruct n2 as [|q n2]; [discriminate|].
    simpl in L2, L4. injection L2 as ->. injection L4 as ->. exact T2.
  - destruct n1 as [|u [|v n1]]; [destruct T1|destruct T1|]. apply traced_cons in T1. destruct T1 as [Q T1].
    rewrite last_cons2 in L1, L3. specialize (IH _ _ _ _ _ T1 T2 L1 L2 L3 L4).
    change ((x :: y :: r1) ++ tl r2) with (x :: y :: (r1 ++ tl r2)). change ((u :: v :: n1) ++ tl n2) with (u :: v :: (n1 ++ tl n2)).
    apply traced_cons. auto.
Qed.

Lemma flat_map_tl_assoc : forall (A B : Type) (f : A -> list B) d e r,
  spliced f (d :: e :: r) = (f d ++ tl (f e)) ++ flat_map (fun x => tl (f x)) r.
Proof. intros. simpl. rewrite app_assoc. reflexivity. Qed.

Lemma traced_spliced : forall rest r0 n0 d, traced r0 n0 ->
  (exists a p, hd_error (rev r0) = Some a /\ hd_error (rev (rows_of d)) = Some a /\
     hd_error (rev n0) = Some p /\ hd_error (rev (positions_of d)) = Some p) ->
  chained (d :: rest) -> (forall x, In x rest -> traced (rows_of x) (positions_of x)) ->
  traced (r0 ++ flat_map (fun x => tl (rows_of x)) rest) (n0 ++ flat_map (fun x => tl (positions_of x)) rest).
Proof.
  induction rest as [|e rest IH]; intros r0 n0 d T (a & p & A1 & A2 & A3 & A4) C TR.
  - simpl. rewrite !app_nil_r. auto.
  - simpl in C. destruct C as [(a' & p' & B1 & B2 & B3 & B4) C].
    rewrite A2 in B1. injection B1 as <-. rewrite A4 in B3. injection B3 as <-.
    simpl flat_map. rewrite !app_assoc. apply (IH _ _ e).
    + eapply traced_app; eauto. apply TR. left; auto.
    + assert (N : rows_of e <> []) by (intro Z; rewrite Z in B2; discriminate).
      assert (N' : positions_of e <> []) by (intro Z; rewrite Z in B4; discriminate).
      destruct (hd_error (rev (rows_of e))) as [b|] eqn:E1.
      2:{ destruct (rev (rows_of e)) eqn:Z; [|discriminate]. exfalso. apply N. rewrite <- (rev_involutive (rows_of e)), Z. auto. }
      destruct (hd_error (rev (positions_of e))) as [q|] eqn:E2.
      2:{ destruct (rev (positions_of e)) eqn:Z; [|discriminate]. exfalso. apply N'. rewrite <- (rev_involutive (positions_of e)), Z. auto. }
      exists b, q. rewrite (last_app_tl _ _ _ _ A1 B2), (last_app_tl _ _ _ _ A3 B4). auto.
    + exact C.
    + intros x Hx. apply TR. right; auto.
Qed.

(** a constructed survey is traced *)
Lemma traced_from_steps : forall rows nev, length nev = length rows -> (1 <= length rows)%nat ->
  (forall k a b p q, nth_error rows k = Some a -> nth_error rows (S k) = Some b ->
     nth_error nev k = Some p -> nth_error nev (S k) = Some q ->
     q = vadd p (min_curve_step (st_md b - st_md a) (st_inc a) (st_azi a) (st_inc b) (st_azi b))) ->
  traced rows nev.
Proof.
  induction rows as [|a [|b r] IH]; intros nev L1 L2 H.
  - simpl in L2. lia.
  - destruct nev as [|p [|q l]]; simpl in L1; try lia. exact I.
  - destruct nev as [|p [|q l]]; simpl in L1; try lia. apply traced_cons. split.
    + apply (H 0%nat a b p q); auto.
    + apply IH; [simpl; lia|simpl; lia|]. intros k x y u v A B P Q. apply (H (S k) x y u v); auto.
Qed.
Lemma survey_traced : forall h rows deg sx sn unit s, Survey h rows deg sx sn unit = Some s ->
  traced (sv_rows s) (sv_nev s).
Proof.
  intros h rows deg sx sn unit s H.
  destruct (Survey_stations _ _ _ _ _ _ _ H) as (_ & L0 & _ & _ & _ & _ & _ & L2 & _).
  assert (A : (2 <= length rows)%nat) by (apply (Survey_accepts h rows deg sx sn unit); eauto).
  destruct (Survey_intervals _ _ _ _ _ _ _ H) as (_ & _ & _ & _ & _ & ST).
  apply traced_from_steps; [congruence|lia|]. intros k a b p q A1 A2 A3 A4. apply (ST k a b p q A1 A2 A3 A4).
Qed.

Lemma splice_positions : forall first rest r, splice_surveys (first :: rest) = SpliceOk r -> Forall built (first :: rest) ->
  (forall d, In d (first :: rest) -> traced (rows_of d) (positions_of d)) ->
  (h_ref (header_of first) = RefGrid \/ forall d, In d rest -> h_convergence (header_of d) = h_convergence (header_of first)) ->
  chained (first :: rest) ->
  rows_of r = spliced rows_of (first :: rest) /\ positions_of r = spliced positions_of (first :: rest).
Proof.
  intros first rest r H B T CV C.
  assert (E : rows_of r = spliced rows_of (first :: rest)) by (apply (splice_rows_iff _ _ _ H B); auto).
  split; auto.
  destruct (splice_values _ _ _ H B) as (_ & _ & _ & _ & _ & _ & _ & _ & _ & HD).
  apply (traced_unique (rows_of r)).
  - destruct (splice_inv _ _ H B) as (d & rs & Q & M & U & CC & S & _). apply (survey_traced _ _ _ _ _ _ _ S).
  - rewrite E. simpl. assert (Tf : traced (rows_of first) (positions_of first)) by (apply T; left; auto).
    apply (traced_spliced rest _ _ first Tf).
    + assert (L : length (positions_of first) = length (rows_of first)) by (apply traced_length; auto).
      assert (Bf : built first) by (inversion B; auto). destruct Bf as (L2 & _). fold (rows_of first) in L2.
      destruct (hd_error (rev (rows_of first))) as [a|] eqn:E1.
      2:{ destruct (rev (rows_of first)) eqn:Z; [|discriminate]. apply (f_equal (@length _)) in Z. rewrite rev_length in Z. simpl in Z. lia. }
      destruct (hd_error (rev (positions_of first))) as [p|] eqn:E2.
      2:{ destruct (rev (positions_of first)) eqn:Z; [|discriminate]. apply (f_equal (@length _)) in Z. rewrite rev_length in Z. simpl in Z. lia. }
      exists a, p. auto.
    + auto.
    + intros x Hx. apply T. right; auto.
  - rewrite HD. simpl. assert (Bf : built first) by (inversion B; auto). destruct Bf as (L2 & _ & L3 & _).
    unfold positions_of. destruct (sv_nev (sd_survey first)); [simpl in L3; lia|]. reflexivity.
Qed.

(** a constructed survey meets [built] *)
Lemma survey_built : forall h rows deg sx sn unit s nev hla rad, Survey h rows deg sx sn unit = Some s ->
  length rad = length rows -> (forall c, nev = Some c -> length c = length rows) -> (nev = None <-> hla = None) ->
  built (mkSD s nev hla rad).
Proof.
  intros h rows deg sx sn unit s nev hla rad H R C N.
  destruct (Survey_stations _ _ _ _ _ _ _ H) as (HH & L0 & L1 & _ & _ & _ & _ & L2 & _ & _ & ST).
  assert (A : (2 <= length rows)%nat) by (apply (Survey_accepts h rows deg sx sn unit); eauto).
  unfold built. cbn [sd_survey sd_radius sd_cov_nev sd_cov_hla].
  split; [lia|]. split; [lia|]. split; [lia|]. split; [|split; [intros c Hc; rewrite L0; auto|auto]].
  apply nth_ext with (d := 0) (d' := 0); [rewrite map_length; lia|].
  intros k Hk. rewrite L1 in Hk. destruct (nth_error rows k) as [[[md inc] azi]|] eqn:E. 2:{ apply nth_error_None in E. lia. }
  destruct (ST _ _ _ _ E) as (g & t & m & A1 & A2 & _ & _ & A3 & _).
  rewrite (nth_error_nth _ _ 0 A2). rewrite HH.
  assert (A4 : nth_error (map (fun a => st_azi a + h_convergence h) (sv_rows s)) k = Some (g + h_convergence h)).
  { rewrite nth_error_map, A1. reflexivity. }
  rewrite (nth_error_nth _ _ 0 A4). lra.
Qed.

(** ** cutting a survey and joining the parts again *)
Lemma slice_built : forall s start stop t nev hla rad, slice_survey s start stop = Some t ->
  length rad = length (sv_rows t) -> (forall c, nev = Some c -> length c = length (sv_rows t)) -> (nev = None <-> hla = None) ->
  length (sv_nev s) = length (sv_rows s) ->
  built (mkSD t nev hla rad).
Proof.
  intros s start stop t nev hla rad H R C N LN. unfold slice_survey in H.
  destruct (firstn (stop - start) (skipn start (sv_nev s))) as [|p0 pl] eqn:F; [discriminate|].
  destruct (Survey (sv_header s) (slice_rows s start stop) false vzero p0 (h_unit (sv_header s))) as [u|] eqn:S; [|discriminate].
  injection H as <-. cbn [sv_rows] in R, C.
  destruct (Survey_stations _ _ _ _ _ _ _ S) as (_ & L0 & _).
  assert (B : built (mkSD u nev hla rad)). { eapply survey_built; eauto. congruence. intros c Hc. rewrite (C c Hc). congruence. }
  unfold built in *. cbn [sd_survey sd_radius sd_cov_nev sd_cov_hla sv_rows sv_nev sv_header sv_azi_true] in *.
  destruct B as (B1 & B2 & B3 & B4 & B5 & B6). split; [auto|]. split; [auto|]. split; [|auto].
  rewrite L0. unfold slice_rows. rewrite map_length. rewrite <- F. rewrite !firstn_length, !skipn_length. lia.
Qed.

Lemma traced_skipn : forall k rows nev, traced rows nev -> (k < length rows)%nat -> traced (skipn k rows) (skipn k nev).
Proof.
  induction k as [|k IH]; intros rows nev T L; auto.
  destruct rows as [|a [|b r]]; [destruct nev; destruct T|simpl in L; lia|].
  destruct nev as [|p [|q l]]; [destruct T|destruct T|]. apply traced_cons in T. destruct T as [_ T].
  change (skipn (S k) (a :: b :: r)) with (skipn k (b :: r)). change (skipn (S k) (p :: q :: l)) with (skipn k (q :: l)).
  apply IH; auto. simpl in *. lia.
Qed.
Lemma traced_firstn : forall k rows nev, traced rows nev -> (0 < k)%nat -> traced (firstn k rows) (firstn k nev).
Proof.
  induction k as [|k IH]; intros rows nev T L; [lia|].
  destruct rows as [|a [|b r]].
  - destruct nev; destruct T.
  - destruct nev as [|p [|q l]]; [destruct T| |destruct T]. simpl. destruct k; exact I.
  - destruct nev as [|p [|q l]]; [destruct T|destruct T|]. apply traced_cons in T. destruct T as [Q T].
    destruct k as [|k]; [exact I|]. specialize (IH _ _ T). simpl firstn in *. apply traced_cons. split; auto. apply IH. lia.
Qed.

Lemma hd_rev_firstn : forall (A : Type) (l : list A) k a, nth_error l k = Some a -> hd_error (rev (firstn (S k) l)) = Some a.
Proof.
  induction l as [|x l IH]; intros k a H; [destruct k; discriminate|].
  destruct k as [|k]; [injection H as <-; reflexivity|].
  destruct l as [|y l]; [destruct k; discriminate|].
  change (firstn (S (S k)) (x :: y :: l)) with (x :: firstn (S k) (y :: l)).
  change (firstn (S k) (y :: l)) with (y :: firstn k l). rewrite last_cons2. apply (IH k a H).
Qed.
Lemma hd_skipn : forall (A : Type) (l : list A) k, hd_error (skipn k l) = nth_error l k.
Proof. induction l; intros [|k]; simpl; auto. Qed.
Lemma cut_list : forall (A : Type) (l : list A) k, firstn (S k) l ++ tl (skipn k l) = l.
Proof. induction l as [|a l IH]; intros [|k]; simpl; auto. f_equal. apply IH. Qed.

Lemma slice_header : forall s start stop t, slice_survey s start stop = Some t -> sv_header t = sv_header s.
Proof.
  intros s start stop t H. unfold slice_survey in H.
  destruct (firstn (stop - start) (skipn start (sv_nev s))) as [|p0 pl]; [discriminate|].
  destruct (Survey (sv_header s) (slice_rows s start stop) false vzero p0 (h_unit (sv_header s))) as [u|] eqn:Q; [|discriminate].
  injection H as <-. destruct (Survey_stations _ _ _ _ _ _ _ Q) as (Z & _). exact Z.
Qed.
Lemma splice_of_slices : forall h rows deg sx sn s k t1 t2 c1 c2 q1 q2 r1 r2 r,
  Survey h rows deg sx sn "meters" = Some s -> h_ref h = RefGrid -> 
  (S k < length rows)%nat ->
  slice_survey s 0 (S k) = Some t1 -> slice_survey s k (length rows) = Some t2 ->
  length r1 = length (sv_rows t1) -> length r2 = length (sv_rows t2) ->
  length c1 = length (sv_rows t1) -> length c2 = length (sv_rows t2) ->
  splice_surveys [mkSD t1 (Some c1) (Some q1) r1; mkSD t2 (Some c2) (Some q2) r2] = SpliceOk r ->
  rows_of r = sv_rows s /\ positions_of r = sv_nev s.
Proof.
  intros h rows deg sx sn s k t1 t2 c1 c2 q1 q2 r1 r2 r HS G K S1 S2 R1 R2 C1 C2 H.
  destruct (Survey_stations _ _ _ _ _ _ _ HS) as (HH & L0 & _ & _ & _ & _ & _ & L2 & _).
  pose proof (survey_traced _ _ _ _ _ _ _ HS) as T.
  destruct (slice_spec _ _ _ _ S1) as [A1 N1]. destruct (slice_spec _ _ _ _ S2) as [A2 N2].
  assert (GO : forall l, map (fun st => mkSt (st_md st) (st_inc st) (st_azi st - grid_offset (sv_header s))) l = l).
  { intro l. transitivity (map (fun x : station => x) l); [|apply map_id]. apply map_ext. intros [m i z]. simpl. f_equal.
    unfold grid_offset. rewrite HH, G. ring. }
  rewrite GO in A1, A2. rewrite skipn_O in A1, N1. rewrite Nat.sub_0_r in A1, N1.
  assert (FS : forall (A : Type) (l : list A), length l = length rows -> firstn (length rows - k) (skipn k l) = skipn k l).
  { intros A l L. apply firstn_all2. rewrite skipn_length. lia. }
  rewrite FS in A2, N2 by congruence.
  assert (HT1 : sv_header t1 = h /\ sv_header t2 = h).
  { rewrite (slice_header _ _ _ _ S1), (slice_header _ _ _ _ S2). auto. }
  assert (LN : length (sv_nev s) = length (sv_rows s)) by congruence.
  assert (B1 : built (mkSD t1 (Some c1) (Some q1) r1)).
  { eapply slice_built; eauto. intros c E; injection E as <-; auto. split; discriminate. }
  assert (B2 : built (mkSD t2 (Some c2) (Some q2) r2)).
  { eapply slice_built; eauto. intros c E; injection E as <-; auto. split; discriminate. }
  destruct (nth_error (sv_rows s) k) as [a|] eqn:Ea. 2:{ apply nth_error_None in Ea. lia. }
  destruct (nth_error (sv_nev s) k) as [p|] eqn:Ep. 2:{ apply nth_error_None in Ep. lia. }
  destruct (splice_positions _ _ _ H) as [P1 P2].
  - constructor; [auto|]. constructor; auto.
  - intros d [<-|[<-|[]]]; unfold rows_of, positions_of; cbn [sd_survey].
    + rewrite A1, N1. apply traced_firstn; auto. lia.
    + rewrite A2, N2. apply traced_skipn; auto. lia.
  - left. unfold header_of. cbn [sd_survey]. destruct HT1 as [-> _]. exact G.
  - simpl. split; [|auto]. exists a, p. unfold rows_of, positions_of. cbn [sd_survey]. rewrite A1, A2, N1, N2.
    rewrite (hd_rev_firstn _ _ _ _ Ea), (hd_rev_firstn _ _ _ _ Ep), !hd_skipn. auto.
  - rewrite P1, P2. unfold spliced, rows_of, positions_of. cbn [flat_map sd_survey]. rewrite !app_nil_r, A1, A2, N1, N2, !cut_list. auto.
Qed.

Lemma splice_cut : forall h rows deg sx sn s k t1 t2 c1 c2 q1 q2 r1 r2,
  Survey h rows deg sx sn "meters" = Some s -> h_ref h = RefGrid ->
  (S k < length rows)%nat ->
  slice_survey s 0 (S k) = Some t1 -> slice_survey s k (length rows) = Some t2 ->
  length r1 = length (sv_rows t1) -> length r2 = length (sv_rows t2) ->
  length c1 = length (sv_rows t1) -> length c2 = length (sv_rows t2) ->
  exists r, splice_surveys [mkSD t1 (Some c1) (Some q1) r1; mkSD t2 (Some c2) (Some q2) r2] = SpliceOk r /\
    rows_of r = sv_rows s /\ positions_of r = sv_nev s /\
    sd_cov_nev r = Some (c1 ++ tl c2) /\ sd_radius r = r1 ++ tl r2.
Proof.
  intros h rows deg sx sn s k t1 t2 c1 c2 q1 q2 r1 r2 HS G K S1 S2 R1 R2 C1 C2.
  destruct (Survey_stations _ _ _ _ _ _ _ HS) as (HH & L0 & _ & _ & _ & _ & _ & L2 & _).
  assert (LN : length (sv_nev s) = length (sv_rows s)) by congruence.
  assert (B1 : built (mkSD t1 (Some c1) (Some q1) r1)).
  { eapply slice_built; eauto. intros c E; injection E as <-; auto. split; discriminate. }
  assert (B2 : built (mkSD t2 (Some c2) (Some q2) r2)).
  { eapply slice_built; eauto. intros c E; injection E as <-; auto. split; discriminate. }
  assert (B : Forall built [mkSD t1 (Some c1) (Some q1) r1; mkSD t2 (Some c2) (Some q2) r2]) by (constructor; auto).
  destruct (splice_iff _ B) as [_ I]. destruct I as [r H].
  { eexists _, _. split; [reflexivity|]. unfold header_of. cbn [sd_survey]. rewrite (slice_header _ _ _ _ S1), HH, G.
    split; [discriminate|]. split.
    - assert (A : "meters"%string = h_unit h) by (apply (Survey_accepts h rows deg sx sn "meters"); eauto). congruence.
    - right. intros d [<-|[<-|[]]]; discriminate. }
  exists r. split; auto.
  destruct (splice_of_slices _ _ _ _ _ _ _ _ _ _ _ _ _ _ _ _ HS G K S1 S2 R1 R2 C1 C2 H) as [P1 P2].
  split; auto. split; auto.
  destruct (splice_values _ _ _ H B) as (_ & _ & _ & _ & _ & V1 & V2 & _).
  rewrite V1. destruct V2 as [V2 _]; [discriminate|]. rewrite V2.
  unfold spliced, covs. cbn [flat_map sd_cov_nev sd_radius]. rewrite !app_nil_r. auto.
Qed.
