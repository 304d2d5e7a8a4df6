(** The part of the reference below the kick-off point. *)
Require Import Reals ZArith Bool String List Lra Lia Psatz.
Require Import Verif.Base Verif.NumPy Verif.P_Trig Verif.Spec Verif.Spec_Lists Verif.Spec_Refine Verif.M_Utils Verif.P_Utils Verif.P_Utils2
  Verif.M_Survey Verif.P_Survey Verif.P_Survey2 Verif.P_Survey3 Verif.P_Survey5 Verif.M_Error Verif.M_Clearance Verif.P_Clearance Verif.P_Clearance2 Verif.M_MaxCurve
  Verif.M_Refine Verif.P_Refine Verif.P_Refine2 Verif.P_Refine3.
Import ListNotations.
Open Scope R_scope.

Lemma nth_skip : forall A (l : list A) n i, nth_error (skipn n l) i = nth_error l (n + i).
Proof. intros A l n. revert l. induction n as [|n IH]; intros [|a l] i; simpl; auto. destruct i; auto. Qed.

(** minimum curvature from station k on is the tail of minimum curvature *)
Lemma path_skip : forall k l p a q, nth_error (path_from p a l) k = Some q ->
  exists b r, skipn k (a :: l) = b :: r /\ skipn k (path_from p a l) = path_from q b r.
Proof.
  induction k as [|k IH]; intros l p a q H.
  - exists a, l. destruct l; simpl in H; injection H as ->; split; reflexivity.
  - destruct l as [|b r]; [destruct k; discriminate|]. exact (IH _ _ _ _ H).
Qed.
Lemma mc_skip : forall k l p q, l <> [] -> nth_error (mc_list l p) k = Some q -> skipn k (mc_list l p) = mc_list (skipn k l) q.
Proof.
  intros k [|a l] p q NE H; [congruence|]. rewrite mc_list_path in *. destruct (path_skip _ _ _ _ _ H) as (b & r & S1 & S2).
  rewrite S1, S2, mc_list_path. reflexivity.
Qed.
Lemma nev_shift : forall sx sn a b, nev_of a (nev_of sx sn a) b = nev_of sx sn b.
Proof. intros [] [] [] []. unfold nev_of. unf. apply V3_eq; simpl; ring. Qed.

Lemma kop_reference : forall h rows deg sx sn unit s cov radius err d,
  Survey h rows deg sx sn unit = Some s -> strictly_increasing (map st_md (sv_rows s)) ->
  get_ref (mkWell s cov radius) err None = Some (mkWell s cov radius) /\
  (get_ref (mkWell s cov radius) err (Some d) = None <->
     forall k a b, nth_error (sv_rows s) k = Some a -> nth_error (sv_rows s) (S k) = Some b -> st_md a < d) /\
  ((forall a, hd_error (sv_rows s) = Some a -> d <= st_md a) ->
     get_ref (mkWell s cov radius) err (Some d) = Some (mkWell s cov radius)) /\
  forall r a0, get_ref (mkWell s cov radius) err (Some d) = Some r -> hd_error (sv_rows s) = Some a0 -> st_md a0 < d ->
    exists ki xyz nev, (0 < ki)%nat /\
      (forall k a, nth_error (sv_rows s) k = Some a -> ((k < ki)%nat <-> st_md a < d)) /\
      nth_error (sv_xyz s) ki = Some xyz /\ nth_error (sv_nev s) ki = Some nev /\
      sv_nev (w_survey r) = skipn ki (sv_nev s) /\ w_radius r = skipn ki radius /\
      w_cov r = match err with Some c => c | None => skipn ki cov end /\
      length (sv_rows (w_survey r)) = (length (sv_rows s) - ki)%nat /\
      (forall k a, nth_error (sv_rows s) (ki + k) = Some a ->
         nth_error (sv_rows (w_survey r)) k =
           Some (mkSt (st_md a) (st_inc a)
             (st_azi a + match h_ref h with RefGrid => 0 | RefTrue => - h_convergence h | RefMagnetic => h_declination h - h_convergence h end))) /\
      (h_ref h = RefGrid ->
         sv_rows (w_survey r) = skipn ki (sv_rows s) /\ sv_xyz (w_survey r) = skipn ki (sv_xyz s) /\
         Survey h (map (fun a => (st_md a, st_inc a, st_azi a)) (skipn ki (sv_rows s))) false xyz nev unit = Some (w_survey r)).
Proof.
  intros h rows deg sx sn unit s cov radius err d HS SI.
  pose proof (Survey_inv _ _ _ _ _ _ _ HS) as (UN & HH & L2 & _ & UU & X & N & _).
  assert (LX : length (sv_xyz s) = length (sv_rows s)) by (rewrite X; apply mc_list_length; lia).
  assert (LN : length (sv_nev s) = length (sv_rows s)) by (rewrite N, map_length; apply mc_list_length; lia).
  pose proof (kop_index_spec _ d SI) as (K1 & K2 & K3). rewrite map_length in K1.
  set (ki := kop_index (map st_md (sv_rows s)) (Some d)) in *.
  assert (KI : forall k a, nth_error (sv_rows s) k = Some a -> ((k < ki)%nat <-> st_md a < d)).
  { intros k a A. assert (AM : nth_error (map st_md (sv_rows s)) k = Some (st_md a)) by (rewrite nth_error_map, A; reflexivity).
    split; [intro L; apply (K2 k); auto|]. intro L. destruct (Nat.lt_ge_cases k ki) as [Q|Q]; auto. pose proof (K3 k _ AM Q). lra. }
  assert (G0 : ki = 0%nat -> get_ref (mkWell s cov radius) err (Some d) = Some (mkWell s cov radius)).
  { intro Z. unfold get_ref. cbn [w_survey]. fold ki. rewrite Z. reflexivity. }
  assert (GS : forall kk, ki = S kk -> get_ref (mkWell s cov radius) err (Some d) =
     match nth_error (sv_xyz s) ki, nth_error (sv_nev s) ki with
      | Some xyz, Some nev =>
          match Survey (sv_header s) (rows_of (skipn ki (sv_rows s))) false xyz nev (h_unit (sv_header s)) with
          | None => None
          | Some r =>
              Some (mkWell (mkSurvey (sv_header r) (sv_rows r) (sv_azi_true r) (sv_azi_mag r) (sv_dogleg r)
                              (sv_delta_md r) (sv_xyz r) (skipn ki (sv_nev s)) (sv_pos_nev r) (sv_interpolated r))
                      (match err with Some c => c | None => skipn ki cov end) (skipn ki radius))
          end
      | _, _ => None
      end).
  { intros kk Z. unfold get_ref. cbn [w_survey w_cov w_radius]. fold ki. rewrite Z. reflexivity. }
  split; [reflexivity|]. split; [|split].
  - destruct ki as [|kk] eqn:Z.
    + rewrite G0 by reflexivity. split; [discriminate|]. intro H.
      destruct (nth_error_some_lt _ (sv_rows s) 0) as [a A]; [lia|]. destruct (nth_error_some_lt _ (sv_rows s) 1) as [b B]; [lia|].
      pose proof (proj2 (KI 0%nat a A) (H 0%nat a b A B)). lia.
    + rewrite (GS kk) by reflexivity. split.
      * intros H k a b A B. apply (KI k a A). destruct (Nat.lt_ge_cases k (S kk)) as [Q|Q]; auto. exfalso.
        assert (LB : (S k < length (sv_rows s))%nat) by (apply nth_error_Some; congruence).
        destruct (nth_error_some_lt _ (sv_xyz s) (S kk)) as [xyz XX]; [lia|]. destruct (nth_error_some_lt _ (sv_nev s) (S kk)) as [nev NN]; [lia|].
        rewrite XX, NN in H. destruct (proj2 (Survey_accepts (sv_header s) (rows_of (skipn (S kk) (sv_rows s))) false xyz nev (h_unit (sv_header s)))) as [r R].
        { split; auto. split; [rewrite HH, <- UN; auto|]. unfold rows_of. rewrite map_length, skipn_length. lia. }
        rewrite R in H. discriminate.
      * intro H. destruct (nth_error (sv_xyz s) (S kk)) as [xyz|] eqn:XX; auto. destruct (nth_error (sv_nev s) (S kk)) as [nev|]; auto.
        destruct (Survey (sv_header s) _ false xyz nev (h_unit (sv_header s))) as [r|] eqn:R; auto. exfalso.
        assert (Q : exists s0, Survey (sv_header s) (rows_of (skipn (S kk) (sv_rows s))) false xyz nev (h_unit (sv_header s)) = Some s0) by eauto.
        apply Survey_accepts in Q. destruct Q as (_ & _ & Q). unfold rows_of in Q. rewrite map_length, skipn_length in Q.
        destruct (nth_error_some_lt _ (sv_rows s) (S kk)) as [a A]; [lia|]. destruct (nth_error_some_lt _ (sv_rows s) (S (S kk))) as [b B]; [lia|].
        pose proof (proj2 (KI _ a A) (H _ a b A B)). lia.
  - intro H. destruct ki as [|kk] eqn:Z; [apply G0; reflexivity|]. exfalso.
    destruct (nth_error_some_lt _ (sv_rows s) 0) as [a A]; [lia|]. pose proof (proj1 (KI 0%nat a A) ltac:(lia)).
    assert (hd_error (sv_rows s) = Some a) by (destruct (sv_rows s); exact A). pose proof (H a ltac:(auto)). lra.
  - intros r a0 GR A0 B0. assert (A0' : nth_error (sv_rows s) 0 = Some a0) by (destruct (sv_rows s); exact A0).
    pose proof (proj2 (KI 0%nat a0 A0') B0) as KP. rewrite (GS (ki - 1)%nat) in GR by lia.
    destruct (nth_error (sv_xyz s) ki) as [xyz|] eqn:XX; [|discriminate]. destruct (nth_error (sv_nev s) ki) as [nev|] eqn:NN; [|discriminate].
    rewrite HH, <- UN in GR. destruct (Survey h (rows_of (skipn ki (sv_rows s))) false xyz nev unit) as [z|] eqn:Q; [|discriminate].
    injection GR as <-. cbn [w_survey w_cov w_radius sv_rows sv_nev].
    pose proof (Survey_rows _ _ _ _ _ _ _ Q) as ZR. pose proof (Survey_inv _ _ _ _ _ _ _ Q) as (_ & ZH & _ & ZL & _ & ZX & ZN & _).
    unfold rows_of in ZR, ZL. rewrite map_length, skipn_length in ZL.
    exists ki, xyz, nev. do 8 (split; auto). split.
    { intros k a A. rewrite ZR, !nth_error_map, nth_skip, A. cbn [option_map]. rewrite grid_shift. reflexivity. }
    intro G.
    assert (ZS : sv_rows z = skipn ki (sv_rows s)).
    { rewrite ZR, map_map. rewrite <- (map_id (skipn ki (sv_rows s))) at 2. apply map_ext. intros [m i a]. rewrite G. reflexivity. }
    assert (XZ : sv_xyz z = skipn ki (sv_xyz s)).
    { rewrite ZX, ZS, X. rewrite X in XX. symmetry. apply mc_skip; [|exact XX]. intro NE. rewrite NE in L2. simpl in L2. lia. }
    split; auto. split; auto.
    fold (rows_of (skipn ki (sv_rows s))). rewrite Q. f_equal. destruct z as [z1 z2 z3 z4 z5 z6 z7 z8 z9 z10]. cbn [sv_header sv_rows sv_azi_true sv_azi_mag sv_dogleg sv_delta_md sv_xyz sv_nev sv_pos_nev sv_interpolated] in *.
    f_equal. rewrite ZN, <- ZX, XZ, N, skipn_map, <- X. apply map_ext. intro b.
    assert (NV : nev = nev_of sx sn xyz). { rewrite N, nth_error_map, <- X, XX in NN. injection NN as <-. reflexivity. }
    rewrite NV. apply nev_shift.
Qed.
