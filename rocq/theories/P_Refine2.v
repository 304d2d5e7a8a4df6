(** All the stations a refined clearance run adds. *)
Require Import Reals ZArith Bool String List Lra Lia Psatz.
Require Import Verif.Base Verif.NumPy Verif.P_Trig Verif.Spec Verif.Spec_Lists Verif.Spec_Refine Verif.M_Utils Verif.P_Utils Verif.P_Utils2
  Verif.M_Survey Verif.P_Survey Verif.P_Survey2 Verif.P_Survey3 Verif.M_Error Verif.M_Clearance Verif.P_Clearance2 Verif.M_MaxCurve
  Verif.M_Refine Verif.P_Refine.
Import ListNotations.
Open Scope R_scope.

Lemma elt_lower : forall a b, elt a b = true <-> lower a b.
Proof. intros [] []; simpl; try tauto; try (split; [discriminate|tauto]). destruct (Rlt_dec r r0); split; auto; discriminate. Qed.
Lemma lower_asym : forall a b, lower a b -> lower b a -> False.
Proof. intros [] []; simpl; try tauto. lra. Qed.

Lemma minima_iff : forall sf i, In i (local_minima sf) <-> dips sf i.
Proof.
  intros sf i. unfold local_minima. rewrite filter_In, in_seq, andb_true_iff, !elt_lower. split.
  - intros [H [A B]]. destruct i as [|j]; [lia|]. replace (S j - 1)%nat with j in A by lia.
    destruct (nth_error_some_lt _ sf j) as [a HA]; [lia|]. destruct (nth_error_some_lt _ sf (S j)) as [b HB]; [lia|].
    destruct (nth_error_some_lt _ sf (S (S j))) as [c HC]; [lia|].
    rewrite (nth_error_nth sf j NaN HA), (nth_error_nth sf (S j) NaN HB) in A. rewrite (nth_error_nth sf (S j) NaN HB), (nth_error_nth sf _ NaN HC) in B.
    exists j, a, b, c. do 5 (split; auto).
  - intros (j & a & b & c & -> & HA & HB & HC & A & B).
    assert (S (S j) < length sf)%nat by (apply nth_error_Some; congruence). split; [lia|].
    replace (S j - 1)%nat with j by lia.
    rewrite (nth_error_nth sf j NaN HA), (nth_error_nth sf (S j) NaN HB), (nth_error_nth sf _ NaN HC). auto.
Qed.

(** ** the added depths, from the top down, one per interval *)
Fixpoint spaced (rows : list station) (m : nat) (mds : list R) : Prop :=
  match mds with
  | [] => True
  | md :: r => exists k a b, (m <= k)%nat /\ nth_error rows k = Some a /\ nth_error rows (S k) = Some b /\
                 st_md a < md < st_md b /\ spaced rows (S k) r
  end.
Lemma spaced_le : forall rows mds m m', (m' <= m)%nat -> spaced rows m mds -> spaced rows m' mds.
Proof. intros rows [|md r] m m' L H; [exact I|]. destruct H as (k & a & b & H1 & H2). exists k, a, b. split; [lia|auto]. Qed.

(** what one minimum contributes *)
Definition one_minimum (opt : optimiser) (mini : minimiser) (c : settings) (ref off : well) (i : nat) : list R :=
  let sf := factors (clearance_run opt c ref off) in
  let md i := st_md (nth i (sv_rows (w_survey ref)) (mkSt 0 0 0)) in
  let d0 := md i - md (i - 1)%nat in
  let d1 := md (S i) - md i in
  let x := mini (objective opt c ref off sf i d0 d1) (- d0) d1 in
  if Req_EM_T x 0 then [] else if Req_EM_T x d0 then [] else if Req_EM_T x d1 then [] else [md i + x].

Section Depths.
  Variables (opt : optimiser) (mini : minimiser) (c : settings) (ref off : well).
  Hypothesis HM : descends mini.
  Hypothesis HI : strictly_increasing (map st_md (sv_rows (w_survey ref))).
  Let rows := sv_rows (w_survey ref).
  Let sf := factors (clearance_run opt c ref off).

  Lemma sf_length : length sf = length rows.
  Proof. unfold sf, factors, clearance_run. rewrite !map_length, seq_length. reflexivity. Qed.

  Lemma one_minimum_at : forall i, dips sf i ->
    one_minimum opt mini c ref off i = [] \/
    exists j u v w md, i = S j /\ one_minimum opt mini c ref off i = [md] /\
      nth_error rows j = Some u /\ nth_error rows (S j) = Some v /\ nth_error rows (S (S j)) = Some w /\
      (st_md u < md < st_md v \/ st_md v < md < st_md w).
  Proof.
    intros i (j & a & b & d & -> & A & B & D & L1 & L2).
    assert (LL : (S (S j) < length rows)%nat) by (rewrite <- sf_length; apply nth_error_Some; congruence).
    destruct (nth_error_some_lt _ rows j) as [u U]; [lia|]. destruct (nth_error_some_lt _ rows (S j)) as [v V]; [lia|].
    destruct (nth_error_some_lt _ rows (S (S j))) as [w W]; [lia|].
    assert (UV : st_md u < st_md v) by (apply (si_lt (map st_md rows) j (S j)); auto; rewrite nth_error_map, ?U, ?V; reflexivity).
    assert (VW : st_md v < st_md w) by (apply (si_lt (map st_md rows) (S j) (S (S j))); auto; rewrite nth_error_map, ?V, ?W; reflexivity).
    unfold one_minimum. fold sf. fold rows. replace (S j - 1)%nat with j by lia.
    rewrite (nth_error_nth rows j _ U), (nth_error_nth rows (S j) _ V), (nth_error_nth rows (S (S j)) _ W).
    set (d0 := st_md v - st_md u). set (d1 := st_md w - st_md v). set (f := objective opt c ref off sf (S j) d0 d1).
    destruct (HM f (- d0) d1) as [HB HL]; [unfold d0, d1; lra|]. set (x := mini f (- d0) d1) in *.
    destruct (Req_EM_T x 0) as [X0|X0]; [left; reflexivity|]. destruct (Req_EM_T x d0) as [X1|X1]; [left; reflexivity|].
    destruct (Req_EM_T x d1) as [X2|X2]; [left; reflexivity|].
    assert (X3 : x <> - d0).
    { intro X. apply HL. rewrite X. unfold f, objective. destruct (Req_EM_T 0 0); [|lra].
      destruct (Req_EM_T (- d0) 0); [unfold d0 in *; lra|]. destruct (Req_EM_T (- d0) (- d0)); [|lra].
      replace (S j - 1)%nat with j by lia. rewrite (nth_error_nth sf (S j) NaN B), (nth_error_nth sf j NaN A). exact L1. }
    right. exists j, u, v, w, (st_md v + x). do 5 (split; auto). unfold d0, d1 in *.
    destruct (Rlt_dec x 0); [left|right]; lra.
  Qed.

  Lemma minima_spaced_from : forall n a, spaced rows (a - 1) (flat_map (one_minimum opt mini c ref off)
     (filter (fun i => elt (nth i sf NaN) (nth (i - 1) sf NaN) && elt (nth i sf NaN) (nth (S i) sf NaN)) (seq a n))) \/ a = 0%nat \/ (length sf < a + n + 1)%nat.
  Proof.
    set (P := fun i => elt (nth i sf NaN) (nth (i - 1) sf NaN) && elt (nth i sf NaN) (nth (S i) sf NaN)).
    intro n. induction n as [n IH] using lt_wf_ind. intro a.
    destruct (Nat.eq_dec a 0) as [Z|Z]; [auto|]. destruct (Nat.lt_ge_cases (length sf) (a + n + 1)) as [Y|Y]; [auto|]. left.
    destruct n as [|n]; [exact I|]. simpl seq. simpl filter. destruct (P a) eqn:PA.
    - assert (D : dips sf a).
      { apply minima_iff. unfold local_minima. apply filter_In. split; [apply in_seq; lia|exact PA]. }
      assert (R1 : spaced rows a (flat_map (one_minimum opt mini c ref off) (filter P (seq (S a) n)))).
      { destruct (IH n (Nat.lt_succ_diag_r n) (S a)) as [H|[H|H]]; [|lia|lia]. replace (S a - 1)%nat with a in H by lia. exact H. }
      simpl flat_map. destruct (one_minimum_at a D) as [E|(j & u & v & w & md & EJ & E & U & V & W & C)]; rewrite E; simpl app.
      { eapply spaced_le; [|exact R1]. lia. }
      subst a. replace (S j - 1)%nat with j by lia.
      destruct C as [C|C].
      + exists j, u, v. do 4 (split; auto).
      + exists (S j), v, w. split; [lia|]. split; auto. split; auto. split; auto.
        destruct n as [|n]; [exact I|]. simpl seq in R1 |- *. simpl filter in R1 |- *.
        assert (PN : P (S (S j)) = false).
        { destruct (P (S (S j))) eqn:PB; auto. exfalso. unfold P in PA, PB. rewrite andb_true_iff, !elt_lower in PA, PB.
          replace (S (S j) - 1)%nat with (S j) in PB by lia. destruct PA as [_ PA], PB as [PB _]. exact (lower_asym _ _ PA PB). }
        rewrite PN. destruct (IH n ltac:(lia) (S (S (S j)))) as [H|[H|H]]; [|lia|lia].
        replace (S (S (S j)) - 1)%nat with (S (S j)) in H by lia. exact H.
    - destruct (IH n (Nat.lt_succ_diag_r n) (S a)) as [H|[H|H]]; [|lia|lia]. eapply spaced_le; [|exact H]. lia.
  Qed.

  Lemma depths_spaced : spaced rows 0 (minimum_depths opt mini c ref off).
  Proof.
    assert (E : minimum_depths opt mini c ref off = flat_map (one_minimum opt mini c ref off) (local_minima sf)) by reflexivity.
    rewrite E. unfold local_minima. destruct (Nat.le_gt_cases (length sf) 2) as [L|L].
    - replace (length sf - 2)%nat with 0%nat by lia. exact I.
    - destruct (minima_spaced_from (length sf - 2) 1) as [H|[H|H]]; [exact H|lia|lia].
  Qed.
  Lemma depths_in : forall md, In md (minimum_depths opt mini c ref off) ->
    exists j u v w, dips sf (S j) /\ nth_error rows j = Some u /\ nth_error rows (S j) = Some v /\ nth_error rows (S (S j)) = Some w /\
      (st_md u < md < st_md v \/ st_md v < md < st_md w).
  Proof.
    assert (E : minimum_depths opt mini c ref off = flat_map (one_minimum opt mini c ref off) (local_minima sf)) by reflexivity.
    rewrite E. intros md H. apply in_flat_map in H. destruct H as (i & Hi & H). apply minima_iff in Hi.
    destruct (one_minimum_at i Hi) as [Z|(j & u & v & w & m & -> & EE & U & V & W & C)]; [rewrite Z in H; destruct H|].
    rewrite EE in H. destruct H as [<-|[]]. exists j, u, v, w. do 4 (split; auto).
  Qed.
  Lemma depth_iff : forall md, In md (minimum_depths opt mini c ref off) <->
    exists i u v w, dips sf i /\ nth_error rows (i - 1) = Some u /\ nth_error rows i = Some v /\ nth_error rows (S i) = Some w /\
      let x := mini (objective opt c ref off sf i (st_md v - st_md u) (st_md w - st_md v)) (- (st_md v - st_md u)) (st_md w - st_md v) in
      x <> 0 /\ x <> st_md v - st_md u /\ x <> st_md w - st_md v /\ md = st_md v + x.
  Proof.
    assert (E : minimum_depths opt mini c ref off = flat_map (one_minimum opt mini c ref off) (local_minima sf)) by reflexivity.
    intro md. rewrite E. rewrite in_flat_map. split.
    - intros (i & Hi & H). apply minima_iff in Hi. destruct Hi as (j & a & b & d & -> & A & B & D & L1 & L2).
      assert (LL : (S (S j) < length rows)%nat) by (rewrite <- sf_length; apply nth_error_Some; congruence).
      destruct (nth_error_some_lt _ rows j) as [u U]; [lia|]. destruct (nth_error_some_lt _ rows (S j)) as [v V]; [lia|].
      destruct (nth_error_some_lt _ rows (S (S j))) as [w W]; [lia|].
      exists (S j), u, v, w. replace (S j - 1)%nat with j by lia. split; [exists j, a, b, d; do 5 (split; auto)|]. do 3 (split; auto).
      unfold one_minimum in H. fold sf in H. fold rows in H. replace (S j - 1)%nat with j in H by lia.
      rewrite (nth_error_nth rows j _ U), (nth_error_nth rows (S j) _ V), (nth_error_nth rows (S (S j)) _ W) in H.
      cbv zeta in *. set (x := mini _ _ _) in *.
      destruct (Req_EM_T x 0); [destruct H|]. destruct (Req_EM_T x (st_md v - st_md u)); [destruct H|].
      destruct (Req_EM_T x (st_md w - st_md v)); [destruct H|]. destruct H as [<-|[]]. auto.
    - intros (i & u & v & w & DP & U & V & W & H). exists i. split; [apply minima_iff; auto|].
      unfold one_minimum. fold sf. fold rows. rewrite (nth_error_nth rows (i - 1) _ U), (nth_error_nth rows i _ V), (nth_error_nth rows (S i) _ W).
      cbv zeta in *. set (x := mini _ _ _) in *. destruct H as (H1 & H2 & H3 & ->).
      destruct (Req_EM_T x 0); [congruence|]. destruct (Req_EM_T x (st_md v - st_md u)); [congruence|].
      destruct (Req_EM_T x (st_md w - st_md v)); [congruence|]. left; reflexivity.
  Qed.
  Lemma depths_count : (length (minimum_depths opt mini c ref off) <= length (local_minima sf))%nat.
  Proof.
    assert (E : minimum_depths opt mini c ref off = flat_map (one_minimum opt mini c ref off) (local_minima sf)) by reflexivity.
    rewrite E. clear E. induction (local_minima sf) as [|i l IH]; [auto|]. cbn [flat_map length]. rewrite app_length.
    assert (length (one_minimum opt mini c ref off i) <= 1)%nat.
    { unfold one_minimum. repeat (destruct (Req_EM_T _ _); [simpl; lia|]). simpl; lia. }
    lia.
  Qed.
End Depths.

(** ** adding them *)
Lemma unmarked_insert : forall A (l : list A) fl i x, length fl = length l -> (i <= length l)%nat ->
  unmarked (insert_at i true fl) (insert_at i x l) = unmarked fl l.
Proof.
  induction l as [|a l IH]; intros [|f fl] [|i] x L Li; simpl in L, Li; try discriminate; try lia; auto.
  rewrite !insert_cons. simpl. rewrite IH by lia. reflexivity.
Qed.
Lemma unmarked_none : forall A B (l : list A) (r : list B), length l = length r -> unmarked (map (fun _ => false) r) l = l.
Proof. induction l; intros [|b r] H; simpl in *; try discriminate; auto. f_equal. apply IHl. lia. Qed.

Lemma skip_skip : forall A x y (l : list A), skipn x (skipn y l) = skipn (x + y) l.
Proof. intros A x y. rewrite Nat.add_comm. induction y; intros l; simpl; auto. destruct l; auto. destruct x; reflexivity. Qed.

Section Adding.
  Variables (s0 : survey) (rad0 : list R) (sx sn : V3) (cands : list R).
  Hypothesis P0 : placed s0 sx sn.
  Hypothesis I0 : strictly_increasing (map st_md (sv_rows s0)).
  Hypothesis R0 : length rad0 = length (sv_rows s0).

  Definition flag_ok (s : survey) (cov : list M3) (rad : list R) : Prop :=
    forall j, nth_error (sv_interpolated s) j = Some true ->
      exists a p r k u v pu, nth_error (sv_rows s) j = Some a /\ nth_error (sv_nev s) j = Some p /\
        nth_error cov j = Some mzero /\ nth_error rad j = Some r /\
        nth_error (sv_rows s0) k = Some u /\ nth_error (sv_rows s0) (S k) = Some v /\ nth_error (sv_nev s0) k = Some pu /\
        nth_error rad0 (S k) = Some r /\ st_md u < st_md a < st_md v /\
        dir a = dir (interp_station u v (st_md a - st_md u)) /\ p = interpolate_pos_nev pu u v (st_md a - st_md u) /\
        In (st_md a) cands.

  Definition grown (s : survey) (cov : list M3) (rad : list R) : Prop :=
    placed s sx sn /\ strictly_increasing (map st_md (sv_rows s)) /\ bends_ok (sv_rows s) /\
    length (sv_interpolated s) = length (sv_rows s) /\ length cov = length (sv_rows s) /\ length rad = length (sv_rows s) /\
    flag_ok s cov rad.

  Lemma add_all : forall mds m cnt s cov rad, incl mds cands -> grown s cov rad ->
    skipn (m + cnt) (sv_rows s) = skipn m (sv_rows s0) -> skipn (m + cnt) (sv_nev s) = skipn m (sv_nev s0) ->
    skipn (m + cnt) rad = skipn m rad0 -> spaced (sv_rows s0) m mds ->
    exists s' cov' rad', add_stations (mkWell s cov rad) mds = Some (mkWell s' cov' rad') /\ grown s' cov' rad' /\
      length (sv_rows s') = (length mds + length (sv_rows s))%nat /\
      (mds <> [] -> sv_header s' = grid_reference (sv_header s)) /\
      unmarked (sv_interpolated s') (sv_rows s') = unmarked (sv_interpolated s) (sv_rows s) /\
      unmarked (sv_interpolated s') (sv_nev s') = unmarked (sv_interpolated s) (sv_nev s) /\
      unmarked (sv_interpolated s') cov' = unmarked (sv_interpolated s) cov /\
      unmarked (sv_interpolated s') rad' = unmarked (sv_interpolated s) rad /\
      (forall j, nth_error (sv_interpolated s) j = Some true -> exists j' a, nth_error (sv_rows s) j = Some a /\ nth_error (sv_rows s') j' = Some a /\ nth_error (sv_interpolated s') j' = Some true) /\
      (forall md, In md mds -> exists j a, nth_error (sv_rows s') j = Some a /\ st_md a = md /\ nth_error (sv_interpolated s') j = Some true).
  Proof.
    induction mds as [|md r IH]; intros m cnt s cov rad IN G KR KN KD SPC.
    - exists s, cov, rad. split; [reflexivity|]. split; auto. split; auto. split; [congruence|]. do 4 (split; auto).
      split; [|intros ? []]. intros j F. destruct G as (_ & _ & _ & _ & _ & _ & FO). destruct (FO j F) as (a & _ & _ & _ & _ & _ & _ & A & _).
      exists j, a. auto.
    - destruct SPC as (k & a & b & MK & A & B & M & SPC).
      destruct G as (PS & SI & BO & LF & LC & LR & FO).
      destruct (placed_len _ _ _ PS) as [LX LN]. destruct (placed_len _ _ _ P0) as [LX0 LN0].
      assert (LK0 : (S k < length (sv_rows s0))%nat) by (apply nth_error_Some; congruence).
      destruct (nth_error_some_lt _ (sv_nev s0) k) as [p HP]; [lia|].
      destruct (nth_error_some_lt _ rad0 (S k)) as [rb HR]; [lia|].
      assert (MOVE : forall A (l l0 : list A) i, skipn (m + cnt) l = skipn m l0 -> (m <= i)%nat -> nth_error l (i + cnt) = nth_error l0 i).
      { intros X l l0 i E L. replace (i + cnt)%nat with ((m + cnt) + (i - m))%nat by lia. rewrite <- nth_error_skipn, E, nth_error_skipn. f_equal. lia. }
      assert (A' : nth_error (sv_rows s) (k + cnt) = Some a) by (rewrite (MOVE _ _ _ _ KR MK); auto).
      assert (B' : nth_error (sv_rows s) (S (k + cnt)) = Some b) by (change (S (k + cnt)) with (S k + cnt)%nat; rewrite (MOVE _ _ _ (S k) KR) by lia; auto).
      assert (HP' : nth_error (sv_nev s) (k + cnt) = Some p) by (rewrite (MOVE _ _ _ _ KN MK); auto).
      assert (HR' : nth_error rad (S (k + cnt)) = Some rb) by (change (S (k + cnt)) with (S k + cnt)%nat; rewrite (MOVE _ _ _ (S k) KD) by lia; auto).
      destruct (add_one s cov rad sx sn (k + cnt) a b p md rb PS SI BO A' B' HP' HR' M) as
        (s1 & st & q & AD & PS1 & HH & RS & NS & FS & MM & DD & QQ & SI1 & BO1).
      assert (LL : (S (k + cnt) < length (sv_rows s))%nat) by (apply nth_error_Some; congruence).
      set (i := S (k + cnt)) in *.
      assert (G1 : grown s1 (insert_at i mzero cov) (insert_at i rb rad)).
      { split; auto. split; auto. split; auto. rewrite RS, FS, !insert_length by lia. do 3 (split; [lia|]).
        intros j F. rewrite FS in F. rewrite RS, NS. destruct (Nat.lt_trichotomy j i) as [L|[L|L]].
        - rewrite insert_nth_lt in F by lia. destruct (FO j F) as (a1 & p1 & r1 & k1 & u & v & pu & H).
          exists a1, p1, r1, k1, u, v, pu. rewrite !insert_nth_lt by lia. exact H.
        - subst j. exists st, q, rb, k, a, b, p. rewrite !insert_nth_eq by lia. rewrite MM. do 8 (split; auto). split; auto. split; auto. split; auto.
          apply IN. left; reflexivity.
        - destruct j; [lia|]. rewrite insert_nth_gt in F by lia. destruct (FO j F) as (a1 & p1 & r1 & k1 & u & v & pu & H).
          exists a1, p1, r1, k1, u, v, pu. rewrite !insert_nth_gt by lia. exact H. }
      assert (SK : forall A (l l0 : list A) x, (i <= length l)%nat -> skipn (m + cnt) l = skipn m l0 -> skipn (S k + S cnt) (insert_at i x l) = skipn (S k) l0).
      { intros X l l0 x L E. replace (S k + S cnt)%nat with (S i) by (unfold i; lia). rewrite skipn_insert by auto.
        replace i with ((S k - m) + (m + cnt))%nat by (unfold i; lia). rewrite <- skip_skip, E, skip_skip. f_equal. lia. }
      destruct (IH (S k) (S cnt) s1 (insert_at i mzero cov) (insert_at i rb rad)) as
        (s' & cov' & rad' & AS & G' & LEN & HD & U1 & U2 & U3 & U4 & KEEP & ADDED); auto.
      { intros y Y. apply IN. right; auto. }
      { rewrite RS. apply SK; auto. lia. }
      { rewrite NS. apply SK; auto. lia. }
      { apply SK; auto. lia. }
      exists s', cov', rad'. split; [simpl; rewrite AD; exact AS|]. split; auto.
      split; [rewrite LEN, RS, insert_length by lia; simpl; lia|].
      split. { intros _. destruct r as [|z r]; [|rewrite HD by discriminate; rewrite HH; reflexivity]. simpl in AS. injection AS as <- _ _. auto. }
      split; [rewrite U1, FS, RS; apply unmarked_insert; lia|]. split; [rewrite U2, FS, NS; apply unmarked_insert; lia|].
      split; [rewrite U3, FS; apply unmarked_insert; lia|]. split; [rewrite U4, FS; apply unmarked_insert; lia|].
      split.
      + intros j F. destruct (FO j F) as (a1 & _ & _ & _ & _ & _ & _ & A1 & _).
        destruct (Nat.lt_ge_cases j i) as [L|L].
        * destruct (KEEP j) as (j' & a2 & H1 & H2 & H3); [rewrite FS, insert_nth_lt by lia; auto|].
          rewrite RS, insert_nth_lt, A1 in H1 by lia. injection H1 as <-. eauto.
        * destruct (KEEP (S j)) as (j' & a2 & H1 & H2 & H3); [rewrite FS, insert_nth_gt by lia; auto|].
          rewrite RS, insert_nth_gt, A1 in H1 by lia. injection H1 as <-. eauto.
      + intros y [<-|Y]; [|auto]. destruct (KEEP i) as (j' & a2 & H1 & H2 & H3); [rewrite FS, insert_nth_eq by lia; auto|].
        rewrite RS, insert_nth_eq in H1 by lia. injection H1 as <-. exists j', st. auto.
  Qed.
End Adding.

(** ** the refined reference *)
Lemma refined_reference : forall h rows deg sx sn s cov radius off opt mini c,
  Survey h rows deg sx sn "meters" = Some s ->
  strictly_increasing (map st_md (sv_rows s)) ->
  (forall i a b, nth_error (sv_rows s) i = Some a -> nth_error (sv_rows s) (S i) = Some b ->
     get_dogleg (st_inc a) (st_azi a) (st_inc b) (st_azi b) < PI) ->
  length cov = length (sv_rows s) -> length radius = length (sv_rows s) -> descends mini ->
  let sf := factors (clearance_run opt c (mkWell s cov radius) off) in
  exists ref results, refined_run opt mini c (mkWell s cov radius) off = Some (ref, results) /\
    let new := w_survey ref in let added := sv_interpolated new in
    length added = length (sv_rows new) /\ length (sv_nev new) = length (sv_rows new) /\
    length (w_cov ref) = length (sv_rows new) /\ length (w_radius ref) = length (sv_rows new) /\
    length results = length (sv_rows new) /\
    unmarked added (sv_rows new) = sv_rows s /\ unmarked added (sv_nev new) = sv_nev s /\
    unmarked added (w_cov ref) = cov /\ unmarked added (w_radius ref) = radius /\
    strictly_increasing (map st_md (sv_rows new)) /\
    (forall i a b, nth_error (sv_rows new) i = Some a -> nth_error (sv_rows new) (S i) = Some b ->
       get_dogleg (st_inc a) (st_azi a) (st_inc b) (st_azi b) < PI) /\
    (forall l, (forall i, dips sf i -> In i l) -> (length (sv_rows new) <= length (sv_rows s) + length l)%nat) /\
    (forall i u v w, dips sf i -> nth_error (sv_rows s) (i - 1) = Some u -> nth_error (sv_rows s) i = Some v -> nth_error (sv_rows s) (S i) = Some w ->
       let x := mini (objective opt c (mkWell s cov radius) off sf i (st_md v - st_md u) (st_md w - st_md v)) (- (st_md v - st_md u)) (st_md w - st_md v) in
       x <> 0 -> x <> st_md v - st_md u -> x <> st_md w - st_md v ->
       exists j a, nth_error (sv_rows new) j = Some a /\ st_md a = st_md v + x /\ nth_error added j = Some true) /\
    forall j, nth_error added j = Some true ->
      exists a p r i u v w n h' k z, nth_error (sv_rows new) j = Some a /\ nth_error (sv_nev new) j = Some p /\
        nth_error (w_cov ref) j = Some mzero /\ nth_error (w_radius ref) j = Some r /\
        dips sf i /\ nth_error (sv_rows s) (i - 1) = Some u /\ nth_error (sv_rows s) i = Some v /\ nth_error (sv_rows s) (S i) = Some w /\
        (st_md u < st_md a < st_md v \/ st_md v < st_md a < st_md w) /\
        st_md a = st_md v + mini (objective opt c (mkWell s cov radius) off sf i (st_md v - st_md u) (st_md w - st_md v))
                              (- (st_md v - st_md u)) (st_md w - st_md v) /\
        survey_interpolate_md s (st_md a) = NodeOk n h' /\ nd_md n = st_md a /\ nd_pos n = p /\
        nd_vec n = direction_nev (st_inc a) (st_azi a) /\
        nth_error (sv_rows s) k = Some z /\ st_md a < st_md z /\ nth_error radius k = Some r /\
        (forall l y, (l < k)%nat -> nth_error (sv_rows s) l = Some y -> st_md y < st_md a).
Proof.
  intros h rows deg sx sn s cov radius off opt mini c HS SI BO LC LR HM sf.
  pose proof (placed_survey _ _ _ _ _ _ HS) as PS. set (ref := mkWell s cov radius) in *.
  pose proof (Survey_inv _ _ _ _ _ _ _ HS) as (_ & _ & _ & LRW & _ & _ & _ & FL).
  destruct (placed_len _ _ _ PS) as [LX LN].
  assert (LF : length (sv_interpolated s) = length (sv_rows s)) by (rewrite FL, map_length; lia).
  assert (NF : forall j, nth_error (sv_interpolated s) j = Some true -> False).
  { rewrite FL. intros j H. rewrite nth_error_map in H. destruct (nth_error rows j); discriminate. }
  set (mds := minimum_depths opt mini c ref off).
  assert (G : grown s radius sx sn mds s cov radius).
  { split; auto. split; auto. split; auto. do 3 (split; auto). intros j F. destruct (NF j F). }
  destruct (add_all s radius sx sn mds PS LR mds 0 0 s cov radius (incl_refl _) G eq_refl eq_refl eq_refl
              (depths_spaced opt mini c ref off HM SI)) as
    (s' & cov' & rad' & AS & G' & LEN & _ & U1 & U2 & U3 & U4 & _ & ALL).
  assert (UN : forall A (l : list A), length l = length rows -> unmarked (sv_interpolated s) l = l).
  { intros A l L. rewrite FL. apply unmarked_none; auto. }
  assert (RR : refined_run opt mini c ref off = Some (mkWell s' cov' rad', clearance_run opt c (mkWell s' cov' rad') off)).
  { unfold refined_run. fold mds. destruct mds as [|md r]; [simpl in AS; injection AS as <- <- <-; reflexivity|]. unfold ref. rewrite AS. reflexivity. }
  exists (mkWell s' cov' rad'), (clearance_run opt c (mkWell s' cov' rad') off). split; auto. cbn zeta. cbn [w_survey w_cov w_radius].
  destruct G' as (PS' & SI' & BO' & LF' & LC' & LR' & FO'). destruct (placed_len _ _ _ PS') as [LX' LN'].
  do 4 (split; auto). split; [unfold clearance_run; rewrite map_length, seq_length; reflexivity|].
  rewrite U1, U2, U3, U4, !UN by lia. do 5 (split; auto). split; [exact BO'|].
  split. { intros l IL. rewrite LEN. pose proof (depths_count opt mini c ref off) as DC. fold sf in DC. fold mds in DC.
    assert (length (local_minima sf) <= length l)%nat.
    { apply NoDup_incl_length; [apply NoDup_filter, seq_NoDup|]. intros i Hi. apply IL, minima_iff, Hi. }
    lia. }
  split. { intros i u v w DP U V W X0 X1 X2. apply ALL. apply depth_iff. exists i, u, v, w. do 4 (split; auto). }
  intros j F. destruct (FO' j F) as (a & p & r & k & u & v & pu & A & P & C & RD & U & V & PU & RK & M & D & Q & IN).
  destruct (proj1 (depth_iff opt mini c ref off _) IN) as (i & u1 & v1 & w1 & DP & H1 & H2 & H3 & X0 & X1 & X2 & XE).
  assert (H4 : st_md u1 < st_md a < st_md v1 \/ st_md v1 < st_md a < st_md w1).
  { destruct DP as (j' & a' & b' & c' & -> & SA & SB & SC & LA & LB). replace (S j' - 1)%nat with j' in H1 by lia. fold sf in SA, SB, SC.
    assert (UV : st_md u1 < st_md v1) by (apply (si_lt (map st_md (sv_rows s)) j' (S j')); auto; rewrite nth_error_map; [change (sv_rows s) with (sv_rows (w_survey ref)); rewrite H1|change (sv_rows s) with (sv_rows (w_survey ref)); rewrite H2]; reflexivity).
    assert (VW : st_md v1 < st_md w1) by (apply (si_lt (map st_md (sv_rows s)) (S j') (S (S j'))); auto; rewrite nth_error_map; [change (sv_rows s) with (sv_rows (w_survey ref)); rewrite H2|change (sv_rows s) with (sv_rows (w_survey ref)); rewrite H3]; reflexivity).
    destruct (HM (objective opt c ref off sf (S j') (st_md v1 - st_md u1) (st_md w1 - st_md v1)) (- (st_md v1 - st_md u1)) (st_md w1 - st_md v1)) as [HB HL]; [lra|].
    fold sf in X0, X1, X2, XE. set (x := mini _ _ _) in *.
    assert (X3 : x <> - (st_md v1 - st_md u1)).
    { intro X. apply HL. rewrite X. unfold objective. destruct (Req_EM_T 0 0); [|lra].
      destruct (Req_EM_T (- (st_md v1 - st_md u1)) 0); [lra|]. destruct (Req_EM_T (- (st_md v1 - st_md u1)) (- (st_md v1 - st_md u1))); [|lra].
      replace (S j' - 1)%nat with j' by lia. rewrite (nth_error_nth sf (S j') NaN SB), (nth_error_nth sf j' NaN SA). exact LA. }
    destruct (Rlt_dec x 0); [left|right]; lra. }
  destruct (placed_lookup s sx sn k u v pu (st_md a) PS SI U V PU M) as (n & LK & N1 & N2 & N3 & _).
  exists a, p, r, i, u1, v1, w1, n, (grid_reference (sv_header s)), (S k), v.
  do 9 (split; auto). split; [exact XE|]. split; auto. split; auto. split; [congruence|]. split; [rewrite N3, <- D; reflexivity|].
  split; auto. split; [lra|]. split; auto.
  intros l y L Y. destruct (Nat.eq_dec l k) as [->|NE]; [rewrite U in Y; injection Y as <-; lra|].
  apply Rlt_trans with (st_md u); [|lra]. apply (si_lt (map st_md (sv_rows s)) l k); auto; [rewrite nth_error_map, Y|rewrite nth_error_map, U|lia]; reflexivity.
Qed.
