(** The survey drawn from a chain of connections. *)
Require Import Reals ZArith Bool String List Lra Lia Psatz Sorted.
Require Import Verif.Base Verif.NumPy Verif.P_Trig Verif.Spec Verif.Spec_Lists Verif.M_Utils
  Verif.P_Utils Verif.P_Utils2 Verif.P_Utils3 Verif.M_Connector Verif.Spec_Connector Verif.P_Connector6 Verif.P_Connector7 Verif.P_Connector8
  Verif.M_Survey Verif.P_Survey Verif.P_Survey2
  Verif.P_Survey3 Verif.P_Survey4 Verif.P_Refine Verif.M_Levels Verif.P_Levels2 Verif.P_Levels3 Verif.M_Draw Verif.Spec_Draw Verif.P_Draw Verif.P_Draw2.
Import ListNotations.
Open Scope R_scope.

Lemma turned_dot : forall t u v, dot (turned t u) (turned t v) = dot u v.
Proof.
  intros t [a b c] [x y z]. unfold turned. unf. simpl. pose proof (sin2_cos2 t) as S. unfold Rsqr in S.
  transitivity ((sin t * sin t + cos t * cos t) * (a * x + b * y) + c * z); [ring|]. rewrite S. ring.
Qed.
Lemma turned_unit : forall t v, is_unit v -> is_unit (turned t v).
Proof. intros. unfold is_unit in *. rewrite turned_dot. auto. Qed.
Lemma turned_add : forall t u v, turned t (vadd u v) = vadd (turned t u) (turned t v).
Proof. intros t [a b c] [x y z]. unfold turned. unf. apply V3_eq; simpl; ring. Qed.
Lemma turned_scale : forall t k v, turned t (vscale k v) = vscale k (turned t v).
Proof. intros t k [x y z]. unfold turned. unf. apply V3_eq; simpl; ring. Qed.
Lemma turned_0 : forall v, turned 0 v = v.
Proof. intros [x y z]. unfold turned. rewrite cos_0, sin_0. apply V3_eq; simpl; ring. Qed.
Lemma turned_dir : forall t i z, direction_nev i (z + t) = turned t (direction_nev i z).
Proof. intros. unfold direction_nev, turned. cbn [vx vy vz]. rewrite cos_plus, sin_plus. apply V3_eq; simpl; ring. Qed.
Lemma step_turned : forall t a b a' b', dir a' = turned t (dir a) -> dir b' = turned t (dir b) ->
  st_md b' - st_md a' = st_md b - st_md a -> step_between a' b' = turned t (step_between a b).
Proof.
  intros t a b a' b' A B M. rewrite !step_between_disp.
  replace (pair_dogleg a' b') with (pair_dogleg a b).
  - rewrite M, A, B. unfold mc_disp. rewrite turned_scale, turned_add. reflexivity.
  - destruct (pair_dogleg_range a b) as [R C]. symmetry. apply pair_dogleg_is; auto. rewrite A, B, turned_dot. auto.
Qed.
Lemma ss_increasing : forall l, StronglySorted Rlt l -> strictly_increasing l.
Proof.
  induction l as [|a [|b r] IH]; intro S; [exact I|exact I|]. inversion S; subst. split; auto.
  rewrite Forall_forall in H2. apply H2. left; auto.
Qed.
Lemma si_gap : forall l i x y z, strictly_increasing l -> nth_error l i = Some x -> nth_error l (S i) = Some y -> In z l ->
  z <= x \/ y <= z.
Proof.
  intros l i x y z SI X Y I. apply In_nth_error in I. destruct I as (j & Z).
  destruct (lt_eq_lt_dec j i) as [[L|E]|L].
  - left. pose proof (si_lt l j i z x SI Z X L). lra.
  - subst j. left. assert (z = x) by congruence. lra.
  - right. destruct (Nat.eq_dec j (S i)); [subst j; assert (z = y) by congruence; lra|].
    pose proof (si_lt l (S i) j y z SI Y Z ltac:(lia)). lra.
Qed.
Lemma chain_piece : forall cs c x, joined (c :: cs) -> (forall k, In k (c :: cs) -> sound k) ->
  k_md1 c <= x < chain_end (c :: cs) -> exists k, In k (c :: cs) /\ k_md1 k <= x < k_md_target k.
Proof.
  induction cs as [|c' cs IH]; intros c x J S B.
  - exists c. split; [left; auto|]. exact B.
  - rewrite chain_end_cons in B. destruct (Rlt_dec x (k_md_target c)).
    + exists c. split; [left; auto|lra].
    + destruct (joined_head _ _ _ J) as (_ & _ & E).
      destruct (IH c' x (joined_tail _ _ J) (fun k I => S k (or_intror I)) ltac:(lra)) as (k & I & K).
      exists k. split; [right; auto|auto].
Qed.
Lemma drawn_rows : forall step cs c, pos_step step -> joined (c :: cs) -> (forall k, In k (c :: cs) -> sound k) ->
  far_apart step (c :: cs) ->
  exists rows, remove_duplicates (fun row : R * V3 => md_key (fst row)) (interpolate_well (c :: cs) step) = Some rows /\
    (2 <= length rows)%nat /\ strictly_increasing (map fst rows) /\
    (forall x, In x (map fst rows) <-> drawn_depth step (c :: cs) x) /\
    (forall r, In r rows -> exists q, on_chain (c :: cs) (fst r) q (snd r)) /\
    nth_error (map fst rows) 0 = Some (k_md1 c).
Proof.
  intros step cs c P J S F.
  destruct (chain_depths step cs c P J S) as [SR MR]. set (raw := interpolate_well (c :: cs) step) in *.
  pose proof (sound_lt c (S c (or_introl eq_refl))) as L.
  assert (Ia : In (k_md1 c) (map fst raw)) by (apply MR; left; apply in_flat_map; exists c; split; [left; auto|apply marks_ends]).
  assert (Ib : In (k_md_target c) (map fst raw)) by (apply MR; left; apply in_flat_map; exists c; split; [left; auto|apply marks_ends]).
  assert (RD : exists rows, remove_duplicates (fun row : R * V3 => md_key (fst row)) raw = Some rows).
  { clear - Ia Ib L. destruct raw as [|x [|y z]]; [destruct Ia| |cbn; eauto].
    cbn in Ia, Ib. destruct Ia as [Ia|[]], Ib as [Ib|[]]. lra. }
  destruct RD as (rows & RD). exists rows.
  destruct (remove_duplicates_spec _ _ _ (sorted_keys raw SR) RD) as (K1 & K2 & K3).
  assert (DR : forall x, In x (map fst raw) <-> drawn_depth step (c :: cs) x)
    by (intro x; rewrite MR, (drawn_marks step cs c x J S); tauto).
  assert (SUB : forall r, In r rows -> In r raw).
  { intros r I. apply K2 in I. destruct I as (pre & post & Er & _). rewrite Er. apply in_or_app. right. left. auto. }
  assert (SI : strictly_increasing (map fst rows)) by (apply ss_increasing, keys_sorted; exact K1).
  assert (DX : forall x, In x (map fst rows) <-> drawn_depth step (c :: cs) x).
  { intro x. rewrite <- DR. split.
    - intro I. apply in_map_iff in I. destruct I as (r & <- & I). apply in_map. auto.
    - intro I. assert (I' := I). apply in_map_iff in I. destruct I as (r & <- & I). destruct (K3 r I) as (q & Iq & Eq).
      replace (fst r) with (fst q); [apply in_map; auto|].
      destruct (Req_dec (fst q) (fst r)); auto. exfalso.
      assert (DQ : drawn_depth step (c :: cs) (fst q)) by (apply DR, in_map; auto).
      assert (DR' : drawn_depth step (c :: cs) (fst r)) by (apply DR; auto).
      pose proof (F _ _ DQ DR' H) as FA. unfold md_key in Eq. apply around_near in Eq. simpl in Eq. lra. }
  assert (LE : forall x, In x (map fst rows) -> k_md1 c <= x).
  { intros x I. apply DX in I. apply (drawn_marks step cs c x J S) in I. destruct I as [I|[I _]]; [|lra].
    apply in_flat_map in I. destruct I as (k & Ik & I). apply marks_range in I; auto.
    destruct (chain_end_max cs c k J S Ik). lra. }
  assert (Ia' : In (k_md1 c) (map fst rows)) by (apply DX, DR; auto).
  assert (Ib' : In (k_md_target c) (map fst rows)) by (apply DX, DR; auto).
  split; [exact RD|]. split; [|split; [exact SI|split; [exact DX|split]]].
  - clear - Ia' Ib' L. destruct rows as [|x [|y z]]; [destruct Ia'| |cbn; lia].
    cbn in Ia', Ib'. destruct Ia' as [Ia|[]], Ib' as [Ib|[]]. lra.
  - intros [x d] I. apply (chain_on step); auto.
  - apply In_nth_error in Ia'. destruct Ia' as (j & Z). destruct j as [|j]; auto. exfalso.
    destruct (map fst rows) as [|x l] eqn:E; [discriminate|].
    assert (x < k_md1 c) by (apply (si_lt (x :: l) 0 (Datatypes.S j)); auto; lia).
    specialize (LE x (or_introl eq_refl)). lra.
Qed.

(** the rows, one after the other, step along the chain *)
Lemma chain_step : forall step cs c rows i x d y e q q', joined (c :: cs) -> (forall k, In k (c :: cs) -> sound k) ->
  strictly_increasing (map fst rows) -> (forall z, In z (map fst rows) <-> drawn_depth step (c :: cs) z) ->
  nth_error rows i = Some (x, d) -> nth_error rows (S i) = Some (y, e) ->
  on_chain (c :: cs) x q d -> on_chain (c :: cs) y q' e ->
  vadd q (step_between (stn x d) (stn y e)) = q'.
Proof.
  intros step cs c rows i x d y e q q' J S SI DX X Y Q Q'.
  assert (XM : nth_error (map fst rows) i = Some x) by (rewrite nth_error_map, X; reflexivity).
  assert (YM : nth_error (map fst rows) (Datatypes.S i) = Some y) by (rewrite nth_error_map, Y; reflexivity).
  assert (XY : x < y) by (eapply si_lt; eauto).
  assert (BX : k_md1 c <= x).
  { destruct Q as (k & Ik & (B & _)). destruct (chain_end_max cs c k J S Ik). lra. }
  assert (BY : y <= chain_end (c :: cs)).
  { destruct Q' as (k & Ik & (B & _)). destruct (chain_end_max cs c k J S Ik). lra. }
  destruct (chain_piece cs c x J S ltac:(lra)) as (k & Ik & B).
  assert (Sk : sound k) by auto.
  assert (YT : y <= k_md_target k).
  { destruct (si_gap _ i x y (k_md_target k) SI XM YM); [|lra|lra]. apply DX. left. exists k. auto. }
  destruct (on_exists k x Sk ltac:(lra)) as (a & a' & A). destruct (on_exists k y Sk ltac:(lra)) as (b & b' & B').
  destruct (chain_unique (c :: cs) J S x q d a a' Q) as [-> ->]; [exists k; auto|].
  destruct (chain_unique (c :: cs) J S y q' e b b' Q') as [-> ->]; [exists k; auto|].
  destruct (stn_dir x a' (on_unit _ _ _ _ Sk A)). destruct (stn_dir y b' (on_unit _ _ _ _ Sk B')).
  apply (on_step k x y a a' b b'); auto; try lra.
  intro M. destruct (sound_bends k Sk M) as (n & r & H9).
  destruct H9 as (_ & _ & _ & _ & _ & _ & _ & _ & _ & LT & _ & K).
  destruct (k_md2 k) as [m|] eqn:E.
  - subst m. destruct (si_gap _ i x y (k_md1 k + k_dist_curve k) SI XM YM); [|lra|lra].
    apply DX. right. left. exists k. auto.
  - left. lra.
Qed.

Lemma rmem_bool : forall x l, negb (rmem x l) = false <-> In x l.
Proof. intros. rewrite negb_false_iff. apply rmem_spec. Qed.
Lemma ends_ref : forall cs x, In x (mds_ref cs) <-> connection_end cs x.
Proof.
  intros. unfold mds_ref, connection_end. rewrite in_flat_map. split.
  - intros (c & I & [H|[H|[]]]); exists c; auto.
  - intros (c & I & [->| ->]); exists c; cbn; auto.
Qed.

Theorem drawn_survey : forall h cs c step start, (h_unit h = "meters" \/ h_unit h = "feet")%string ->
  pos_step step -> joined (c :: cs) -> (forall k, In k (c :: cs) -> sound k) -> far_apart step (c :: cs) ->
  exists s, draw h (c :: cs) step start = Some s /\ sv_header s = h /\
    length (sv_nev s) = length (sv_rows s) /\ length (sv_interpolated s) = length (sv_rows s) /\
    strictly_increasing (map st_md (sv_rows s)) /\
    (forall x, In x (map st_md (sv_rows s)) <-> drawn_depth step (c :: cs) x) /\
    (forall i st p f, nth_error (sv_rows s) i = Some st -> nth_error (sv_nev s) i = Some p ->
       nth_error (sv_interpolated s) i = Some f ->
       (f = false <-> connection_end (c :: cs) (st_md st)) /\
       exists k q d, In k (c :: cs) /\ on_connection k (st_md st) q d /\
         direction_nev (st_inc st) (st_azi st) = turned (to_grid h) d /\
         p = vadd (vadd (k_pos1 c) start) (turned (to_grid h) (vsub q (k_pos1 c)))).
Proof.
  intros h cs c step start HU P J S F.
  destruct (drawn_rows step cs c P J S F) as (rows & RD & L2 & SI & DX & ON & HD).
  set (given := map (fun r : R * V3 * bool => let '(i, z) := get_angles true (snd (fst r)) in (fst (fst r), i, z))
     (map (fun row : R * V3 => (row, negb (rmem (fst row) (mds_ref (c :: cs))))) rows)).
  destruct (Survey_total h given false vzero (vadd (k_pos1 c) start) HU) as [s HS].
  { unfold given. rewrite !map_length. auto. }
  assert (FC : from_connections (c :: cs) step = Some (map (fun row : R * V3 => (row, negb (rmem (fst row) (mds_ref (c :: cs))))) rows)).
  { unfold from_connections. rewrite RD. reflexivity. }
  exists (with_flags (map snd (map (fun row : R * V3 => (row, negb (rmem (fst row) (mds_ref (c :: cs))))) rows)) s).
  assert (RS : sv_rows s = map (fun r : R * V3 => let st := stn (fst r) (snd r) in mkSt (fst r) (st_inc st) (st_azi st + to_grid h)) rows).
  { rewrite (Survey_rows _ _ _ _ _ _ _ HS). unfold given. rewrite !map_map. apply map_ext. intros [x d]. cbn [fst snd].
    unfold stn. destruct (get_angles true d) as [i z]. cbn [st_inc st_azi]. rewrite grid_shift. reflexivity. }
  destruct (Survey_inv _ _ _ _ _ _ _ HS) as (_ & HH & _ & _ & _ & _ & NE & _).
  assert (LN : length (sv_nev s) = length (sv_rows s)) by (rewrite NE, map_length, mc_list_length by (rewrite RS, map_length; lia); auto).
  assert (MD : map st_md (sv_rows s) = map fst rows) by (rewrite RS, map_map; apply map_ext; auto).
  split; [unfold draw; rewrite FC; fold given; rewrite HS; reflexivity|].
  unfold with_flags. cbn [sv_header sv_nev sv_rows sv_interpolated].
  split; [auto|]. split; [auto|]. split; [rewrite !map_length, RS, map_length; auto|].
  split; [rewrite MD; auto|]. split; [rewrite MD; auto|].
  assert (DIRS : forall i x d st, nth_error rows i = Some (x, d) -> nth_error (sv_rows s) i = Some st -> is_unit d ->
    st_md st = x /\ dir st = turned (to_grid h) d).
  { intros i x d st X ST U. rewrite RS, nth_error_map, X in ST. cbn [option_map fst snd] in ST. injection ST as <-.
    split; auto. unfold dir. cbn [st_inc st_azi]. rewrite turned_dir. f_equal. exact (proj1 (stn_dir x d U)). }
  assert (UN : forall x d q, on_chain (c :: cs) x q d -> is_unit d).
  { intros x d q (k & Ik & A). eapply on_unit; eauto. }
  assert (POS : forall i x d p, nth_error rows i = Some (x, d) -> nth_error (sv_nev s) i = Some p ->
     exists q, on_chain (c :: cs) x q d /\ p = vadd (vadd (k_pos1 c) start) (turned (to_grid h) (vsub q (k_pos1 c)))).
  { induction i as [|i IH]; intros x d p X HP.
    - destruct (ON (x, d)) as (q & Q); [apply nth_error_In in X; auto|]. exists q. split; auto. cbn [fst snd] in Q.
      assert (XE : x = k_md1 c) by (rewrite nth_error_map, X in HD; injection HD; auto). subst x.
      destruct (chain_unique (c :: cs) J S _ q d (k_pos1 c) (k_vec1 c) Q) as [-> _].
      { exists c. split; [left; auto|]. apply on_start; auto. apply S; left; auto. }
      assert (PE : p = vadd (k_pos1 c) start).
      { rewrite NE in HP. assert (RN : sv_rows s <> []) by (intro E; rewrite E in RS; destruct rows; [cbn in L2; lia|discriminate RS]).
        destruct (sv_rows s) as [|a l]; [congruence|]. rewrite mc_list_path in HP.
        assert (HP' : Some (P_Survey2.nev_of vzero (vadd (k_pos1 c) start) vzero) = Some p) by (destruct l; exact HP).
        injection HP' as <-. unfold P_Survey2.nev_of, get_nev. destruct (vadd (k_pos1 c) start). unf. apply V3_eq; simpl; ring. }
      rewrite PE. replace (vsub (k_pos1 c) (k_pos1 c)) with vzero by (destruct (k_pos1 c); unf; apply V3_eq; simpl; ring).
      replace (turned (to_grid h) vzero) with vzero by (unfold turned; unf; apply V3_eq; simpl; ring).
      destruct (vadd (k_pos1 c) start). unf. apply V3_eq; simpl; ring.
    - assert (XL : (Datatypes.S i < length rows)%nat) by (apply nth_error_Some; congruence).
      destruct (nth_error_some_lt _ rows i ltac:(lia)) as [[x0 d0] X0].
      assert (LR : length (sv_rows s) = length rows) by (rewrite RS, map_length; auto).
      destruct (nth_error_some_lt _ (sv_nev s) i ltac:(lia)) as [p0 P0].
      destruct (nth_error_some_lt _ (sv_rows s) i ltac:(lia)) as [a A].
      destruct (nth_error_some_lt _ (sv_rows s) (Datatypes.S i) ltac:(lia)) as [b B].
      destruct (IH x0 d0 p0 X0 P0) as (q0 & Q0 & E0).
      destruct (ON (x, d)) as (q & Q); [apply nth_error_In in X; auto|]. cbn [fst snd] in Q. exists q. split; auto.
      pose proof (chain_step step cs c rows i x0 d0 x d q0 q J S SI DX X0 X Q0 Q) as ST.
      rewrite (Survey_nev_step _ _ _ _ _ _ _ i a b p0 p HS A B P0 HP).
      destruct (DIRS i x0 d0 a X0 A (UN _ _ _ Q0)) as [MA DA]. destruct (DIRS (Datatypes.S i) x d b X B (UN _ _ _ Q)) as [MB DB].
      destruct (stn_dir x0 d0 (UN _ _ _ Q0)) as [DA' MA']. destruct (stn_dir x d (UN _ _ _ Q)) as [DB' MB'].
      rewrite (step_turned (to_grid h) (stn x0 d0) (stn x d) a b); try congruence.
      rewrite E0, <- ST. set (stp := step_between _ _). 
      replace (vsub (vadd q0 stp) (k_pos1 c)) with (vadd (vsub q0 (k_pos1 c)) stp)
        by (destruct q0, stp, (k_pos1 c); unf; apply V3_eq; simpl; ring).
      rewrite turned_add, vadd_assoc. reflexivity. }
  intros i st p f ST HP HF.
  assert (LR : length (sv_rows s) = length rows) by (rewrite RS, map_length; auto).
  assert (LI : (i < length rows)%nat) by (rewrite <- LR; apply nth_error_Some; congruence).
  destruct (nth_error_some_lt _ rows i LI) as [[x d] X].
  destruct (POS i x d p X HP) as (q & Q & E). destruct (DIRS i x d st X ST (UN _ _ _ Q)) as [M D].
  rewrite M. split.
  - rewrite map_map, nth_error_map, X in HF. cbn [option_map fst snd] in HF.
    assert (FE : f = negb (rmem x (mds_ref (c :: cs)))) by congruence. rewrite FE, rmem_bool. apply ends_ref.
  - destruct Q as (k & Ik & A). exists k, q, d. auto.
Qed.
