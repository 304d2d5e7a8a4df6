(** What a refined clearance run reports. *)
Require Import Reals ZArith Bool String List Lra Lia Psatz.
Require Import Verif.Base Verif.NumPy Verif.P_Trig Verif.Spec Verif.Spec_Lists Verif.Spec_Refine Verif.M_Utils Verif.P_Utils Verif.P_Utils2
  Verif.M_Survey Verif.P_Survey Verif.P_Survey2 Verif.P_Survey3 Verif.M_Error Verif.M_Clearance Verif.P_Clearance Verif.P_Clearance2 Verif.M_MaxCurve
  Verif.M_Refine Verif.P_Refine Verif.P_Refine2.
Import ListNotations.
Open Scope R_scope.

(** one station's result from its own data *)
Definition rule_of (opt : optimiser) (c : settings) (off : well) (e : station * V3 * (M3 * R)) : option rule :=
  let '(a, p, (rc, rr)) := e in
  let j := nearest_station (sv_nev (w_survey off)) p in
  match closest_point opt (w_survey off) p j, nth_error (w_radius off) j with
  | Some (index, x, _, q), Some ro =>
      match nth_error (w_cov off) index, nth_error (w_cov off) (S index) with
      | Some ca, Some cb =>
          iscwsa_rule (c_k c) (c_sigma_pa c) (c_Sm c) rr ro (st_inc a) (st_azi a) p q rc
            (interpolate_cov ca cb (x / interval (w_survey off) index))
      | _, _ => None
      end
  | _, _ => None
  end.
Lemma list_ext : forall A (l l' : list A), (forall i, nth_error l i = nth_error l' i) -> l = l'.
Proof.
  induction l as [|a l IH]; intros [|b l'] H; auto; [discriminate (H 0%nat)|discriminate (H 0%nat)|].
  f_equal; [pose proof (H 0%nat) as E; injection E; auto|]. apply IH. intro i. exact (H (S i)).
Qed.
Lemma nth_combine : forall A B (l : list A) (r : list B) i a b, nth_error l i = Some a -> nth_error r i = Some b ->
  nth_error (combine l r) i = Some (a, b).
Proof. induction l; intros [|y r] [|i] u v; simpl; intros H H'; try discriminate; auto. congruence. Qed.
Lemma unmarked_combine : forall A B fl (l : list A) (r : list B), length fl = length l -> length fl = length r ->
  unmarked fl (combine l r) = combine (unmarked fl l) (unmarked fl r).
Proof.
  induction fl as [|f fl IH]; intros [|a l] [|b r] H H'; simpl in *; try discriminate; auto.
  rewrite IH by lia. destruct f; reflexivity.
Qed.
Lemma unmarked_map : forall A B (g : A -> B) fl l, unmarked fl (map g l) = map g (unmarked fl l).
Proof. induction fl as [|f fl IH]; intros [|a l]; simpl; auto. rewrite IH. destruct f; reflexivity. Qed.
Lemma nth_seq_map : forall B (g : nat -> B) n i, (i < n)%nat -> nth_error (map g (seq 0 n)) i = Some (g i).
Proof.
  intros B g n i H. rewrite nth_error_map. rewrite (nth_error_nth' (seq 0 n) 0%nat) by (rewrite seq_length; auto).
  rewrite seq_nth by auto. reflexivity.
Qed.
Lemma run_rules : forall opt c ref off, let n := length (sv_rows (w_survey ref)) in
  length (sv_nev (w_survey ref)) = n -> length (w_cov ref) = n -> length (w_radius ref) = n ->
  clearance_run opt c ref off = map (rule_of opt c off) (combine (combine (sv_rows (w_survey ref)) (sv_nev (w_survey ref))) (combine (w_cov ref) (w_radius ref))).
Proof.
  intros opt c ref off n H1 H2 H3. apply list_ext. intro i. unfold clearance_run. fold n.
  destruct (Nat.lt_ge_cases i n) as [L|L].
  - rewrite nth_seq_map by auto. unfold station_rule.
    destruct (nth_error_some_lt _ (sv_rows (w_survey ref)) i) as [a A]; [fold n; lia|].
    destruct (nth_error_some_lt _ (sv_nev (w_survey ref)) i) as [p P]; [lia|].
    destruct (nth_error_some_lt _ (w_cov ref) i) as [rc C]; [lia|].
    destruct (nth_error_some_lt _ (w_radius ref) i) as [rr RR]; [lia|].
    rewrite A, P, C, RR, nth_error_map.
    rewrite (nth_combine _ _ _ _ i (a, p) (rc, rr)) by (apply nth_combine; auto). reflexivity.
  - rewrite (proj2 (nth_error_None _ _)) by (rewrite map_length, seq_length; auto).
    symmetry. apply nth_error_None. rewrite map_length, !combine_length. lia.
Qed.

Lemma qform_mzero : forall v, qform mzero v = 0.
Proof. intros []. unfold qform. unf. ring. Qed.
Lemma pcr_mzero : forall v, pcr v mzero = Some 0.
Proof. intro v. unfold pcr, nsqrt. rewrite qform_mzero. destruct (Rlt_dec 0 0); [lra|]. rewrite sqrt_0. reflexivity. Qed.
Lemma fin_inj : forall x y, Fin x = Fin y -> x = y.
Proof. intros x y H. injection H. auto. Qed.
Lemma div_strict : forall w b b', 0 < b -> b < b' -> 0 < w -> w / b' < w / b.
Proof. intros w b b' H L W. apply Rmult_lt_compat_l; [lra|]. apply Rinv_lt_contravar; [nra|lra]. Qed.
(** leaving out the reference's covariance can only raise the factor *)
Lemma without_reference : forall k spa Sm Rr Ro inc azi p q rc oc r r', 0 < k ->
  iscwsa_rule k spa Sm Rr Ro inc azi p q mzero oc = Some r ->
  iscwsa_rule k spa Sm Rr Ro inc azi p q rc oc = Some r' ->
  ru_ref_pcr r = 0 /\ ru_off_pcr r = ru_off_pcr r' /\ ru_wellbore_separation r = ru_wellbore_separation r' /\
  ru_eou_boundary r <= ru_eou_boundary r' /\
  forall sf sf', ru_sf r = Fin sf -> ru_sf r' = Fin sf' -> 0 < ru_wellbore_separation r ->
    sf' <= sf /\ (0 < ru_ref_pcr r' -> sf' < sf).
Proof.
  intros k spa Sm Rr Ro inc azi p q rc oc r r' Hk H H'.
  destruct (rule_fields _ _ _ _ _ _ _ _ _ _ _ _ H) as (_ & A & B & E & _ & W & _ & S).
  destruct (rule_fields _ _ _ _ _ _ _ _ _ _ _ _ H') as (_ & A' & B' & E' & _ & W' & _ & S').
  unfold iscwsa_rule in H, H'. rewrite pcr_mzero in H. destruct (pcr _ rc) as [t|]; [|discriminate].
  destruct (pcr _ oc) as [o|]; [|discriminate]. injection H as <-. injection H' as <-.
  cbn [ru_ref_pcr ru_off_pcr ru_wellbore_separation] in *. split; auto. split; auto. split; auto.
  match goal with |- ru_eou_boundary ?X <= ru_eou_boundary ?Y /\ _ => set (u := X) in *; set (v := Y) in * end.
  assert (LE : ru_eou_boundary u <= ru_eou_boundary v).
  { rewrite E, E'. apply Rmult_le_compat_l; [lra|]. apply sqrt_le_1_alt. nra. }
  split; auto. intros sf sf' F F' P. rewrite S in F. rewrite S' in F'.
  unfold ediv in F, F'. destruct (Req_EM_T (ru_eou_boundary u) 0) as [Z|Z].
  { exfalso. destruct (Rlt_dec 0 _); [discriminate|]. destruct (Rlt_dec _ 0); discriminate. }
  assert (NB : 0 < ru_eou_boundary u). { assert (0 <= ru_eou_boundary u) by (rewrite E; apply Rmult_le_pos; [lra|apply sqrt_pos]). lra. }
  destruct (Req_EM_T (ru_eou_boundary v) 0) as [Z'|Z']; [lra|]. apply fin_inj in F. apply fin_inj in F'. rewrite <- F, <- F'.
  assert (PW : 0 < dist p q - (Rr + Ro + Sm)) by (rewrite <- W; exact P). split.
  - apply div_mono; [split; [exact NB|exact LE]|apply Rle_refl|apply Rlt_le; exact PW].
  - intro T. apply div_strict; [exact NB| |exact PW]. rewrite E, E'. change (0 < t) in T. apply Rmult_lt_compat_l; [exact Hk|]. apply sqrt_lt_1_alt. split; nra.
Qed.

(** the results of the refined run *)
Lemma refined_results : forall h rows deg sx sn s cov radius off opt mini c ref results,
  Survey h rows deg sx sn "meters" = Some s ->
  strictly_increasing (map st_md (sv_rows s)) ->
  (forall i a b, nth_error (sv_rows s) i = Some a -> nth_error (sv_rows s) (S i) = Some b ->
     get_dogleg (st_inc a) (st_azi a) (st_inc b) (st_azi b) < PI) ->
  length cov = length (sv_rows s) -> length radius = length (sv_rows s) -> descends mini -> 0 < c_k c ->
  refined_run opt mini c (mkWell s cov radius) off = Some (ref, results) ->
  unmarked (sv_interpolated (w_survey ref)) results = clearance_run opt c (mkWell s cov radius) off /\
  forall j r, nth_error (sv_interpolated (w_survey ref)) j = Some true -> nth_error results j = Some (Some r) ->
    ru_ref_pcr r = 0 /\
    exists a p q oc rr ro, nth_error (sv_rows (w_survey ref)) j = Some a /\ nth_error (sv_nev (w_survey ref)) j = Some p /\
      nth_error (w_radius ref) j = Some rr /\ nth_error (w_radius off) (nearest_station (sv_nev (w_survey off)) p) = Some ro /\
      iscwsa_rule (c_k c) (c_sigma_pa c) (c_Sm c) rr ro (st_inc a) (st_azi a) p q mzero oc = Some r /\
      forall rc r', iscwsa_rule (c_k c) (c_sigma_pa c) (c_Sm c) rr ro (st_inc a) (st_azi a) p q rc oc = Some r' ->
        ru_wellbore_separation r = ru_wellbore_separation r' /\ ru_eou_boundary r <= ru_eou_boundary r' /\
        forall sf sf', ru_sf r = Fin sf -> ru_sf r' = Fin sf' -> 0 < ru_wellbore_separation r ->
          sf' <= sf /\ (0 < ru_ref_pcr r' -> sf' < sf).
Proof.
  intros h rows deg sx sn s cov radius off opt mini c ref results HS SI BO LC LR HM HK HR.
  destruct (refined_reference h rows deg sx sn s cov radius off opt mini c HS SI BO LC LR HM) as
    (ref' & res' & RR & L1 & L2 & L3 & L4 & L5 & U1 & U2 & U3 & U4 & _ & _ & _ & _ & FL).
  rewrite RR in HR. injection HR as -> ->.
  assert (RES : results = clearance_run opt c ref off).
  { unfold refined_run in RR. destruct (minimum_depths opt mini c (mkWell s cov radius) off) as [|y l].
    - injection RR as <- <-. reflexivity.
    - destruct (add_stations (mkWell s cov radius) (y :: l)); [|discriminate]. injection RR as <- <-. reflexivity. }
  destruct (placed_len _ _ _ (placed_survey _ _ _ _ _ _ HS)) as [_ LN].
  split.
  - rewrite RES, run_rules by auto. rewrite unmarked_map, !unmarked_combine by (rewrite ?combine_length; lia).
    rewrite U1, U2, U3, U4. rewrite run_rules by auto. reflexivity.
  - intros j r F RJ. destruct (FL j F) as (a & p & rr & i & u & v & w & n & h' & k & z & A & P & C & RD & _).
    rewrite RES in RJ. unfold clearance_run in RJ.
    assert (LJ : (j < length (sv_rows (w_survey ref)))%nat) by (apply nth_error_Some; congruence).
    rewrite nth_seq_map in RJ by auto. unfold station_rule in RJ. rewrite A, P, C, RD in RJ.
    destruct (closest_point opt (w_survey off) p (nearest_station (sv_nev (w_survey off)) p)) as [[[[index x] f] q]|]; [|discriminate].
    destruct (nth_error (w_radius off) (nearest_station (sv_nev (w_survey off)) p)) as [ro|] eqn:RO; [|discriminate].
    destruct (nth_error (w_cov off) index) as [ca|]; [|discriminate]. destruct (nth_error (w_cov off) (S index)) as [cb|]; [|discriminate].
    injection RJ as RJ. set (oc := interpolate_cov ca cb (x / interval (w_survey off) index)) in *.
    split. { unfold iscwsa_rule in RJ. rewrite pcr_mzero in RJ. destruct (pcr _ oc); [|discriminate]. injection RJ as <-. reflexivity. }
    exists a, p, q, oc, rr, ro. do 5 (split; auto). intros rc r' H'.
    destruct (without_reference _ _ _ _ _ _ _ _ _ rc oc r r' HK RJ H') as (_ & _ & W & B & SS). auto.
Qed.

(** ** units *)
Lemma node_header : forall s md n h, survey_interpolate_md s md = NodeOk n h -> h_unit h = h_unit (sv_header s).
Proof.
  intros s md n h H. unfold survey_interpolate_md, interpolate_md in H.
  destruct (Nat.leb _ _); [discriminate|].
  destruct (searchsorted_left (map st_md (sv_rows s)) md) as [|j]; cbn beta iota zeta in H;
    match type of H with context [interpolate_at s ?x ?i] => destruct (interpolate_at s x i) as [[r g]|] eqn:I; [|discriminate] end;
    destruct (node_of r); try discriminate; injection H as <- <-;
    unfold interpolate_at in I;
    repeat match type of I with context [match nth_error ?l ?i with _ => _ end] => destruct (nth_error l i); [|discriminate] end;
    destruct (interp_angles _ _ _) as [inc azi]; cbn beta iota zeta in I;
    match type of I with context [Survey ?a ?b ?c ?d ?e ?f] => destruct (Survey a b c d e f); [|discriminate] end;
    injection I as _ <-; reflexivity.
Qed.
Lemma other_units : forall opt mini c ref off, h_unit (sv_header (w_survey ref)) <> "meters"%string ->
  (refined_run opt mini c ref off = None <-> minimum_depths opt mini c ref off <> []) /\
  (forall r, refined_run opt mini c ref off = Some r -> r = (ref, clearance_run opt c ref off)).
Proof.
  intros opt mini c ref off U. unfold refined_run. destruct (minimum_depths opt mini c ref off) as [|md r].
  - split; [split; [discriminate|congruence]|]. intros r H. injection H as <-. reflexivity.
  - assert (N : add_stations ref (md :: r) = None).
    { simpl. assert (A : add_station ref md = None); [|rewrite A; reflexivity].
      unfold add_station. destruct (survey_interpolate_md (w_survey ref) md) as [| |n h] eqn:I; auto.
      destruct (get_angles true (vunit (nd_vec n))) as [inc azi]. destruct (nth_error _ _); auto.
      pose proof (node_header _ _ _ _ I) as HU.
      unfold Survey. cbn [grid_reference h_unit]. rewrite HU.
      destruct (String.eqb_spec "meters" (h_unit (sv_header (w_survey ref)))); [congruence|]. reflexivity. }
    rewrite N. split; [split; [discriminate|reflexivity]|discriminate].
Qed.

(** ** hole sizes *)
Lemma radius_values : forall n a,
  (survey_radius n a = None <-> exists l, a = RadiusList l /\ length l <> 1%nat /\ length l <> n) /\
  forall l, survey_radius n a = Some l -> length l = n /\
    (forall arg, clearance_radius (Some l) n arg = l) /\
    (a = RadiusNone -> forall i r, nth_error l i = Some r -> r = 0.3048) /\
    (forall x, a = RadiusNumber x \/ a = RadiusList [x] -> forall i r, nth_error l i = Some r -> r = x) /\
    (forall l', a = RadiusList l' -> length l' <> 1%nat -> l' = l).
Proof.
  assert (REP : forall (x : R) n i r, nth_error (repeat x n) i = Some r -> r = x).
  { intros x n i r H. apply nth_error_In in H. apply repeat_spec in H. auto. }
  intros n a. split.
  - destruct a as [|r|[|r [|r' l]]]; unfold survey_radius; cbn [length].
    + split; [discriminate|]. intros (l & H & _). discriminate.
    + split; [discriminate|]. intros (l & H & _). discriminate.
    + destruct (Nat.eqb_spec 0 n) as [Q|Q].
      * split; [discriminate|]. intros (l' & E & _ & H). exfalso. apply H. injection E as <-. exact Q.
      * split; [|reflexivity]. intros _. exists []. simpl. repeat split; auto.
    + split; [discriminate|]. intros (l & E & H & _). injection E as <-. simpl in H. congruence.
    + destruct (Nat.eqb_spec (S (S (length l))) n) as [Q|Q].
      * split; [discriminate|]. intros (l' & E & _ & H). exfalso. apply H. injection E as <-. simpl. exact Q.
      * split; [|reflexivity]. intros _. exists (r :: r' :: l). simpl. repeat split; auto; lia.
  - intros l H. assert (T : forall arg, clearance_radius (Some l) n arg = l) by reflexivity.
    destruct a as [|x|[|x [|x' t]]]; unfold survey_radius in H; cbn [length] in H.
    + injection H as <-. rewrite repeat_length. split; auto. split; auto. split; [intros _; apply REP|]. split; [intros x [E|E]; discriminate|discriminate].
    + injection H as <-. rewrite repeat_length. split; auto. split; auto. split; [discriminate|]. split; [|discriminate].
      intros y [E|E]; [injection E as <-|discriminate]. apply REP.
    + destruct (Nat.eqb_spec 0 n) as [Q|Q]; [|discriminate]. injection H as <-. split; auto. split; auto. split; [discriminate|]. split; [intros x [E|E]; discriminate|].
      intros l' E _. congruence.
    + injection H as <-. rewrite repeat_length. split; auto. split; auto. split; [discriminate|]. split.
      * intros y [E|E]; [discriminate|injection E as <-]. apply REP.
      * intros l' E L. injection E as <-. simpl in L. congruence.
    + destruct (Nat.eqb_spec (S (S (length t))) n) as [E|E]; [|discriminate]. injection H as <-. split; auto. split; auto. split; [discriminate|].
      split; [intros y [K|K]; discriminate|]. intros l' K _. congruence.
Qed.
Lemma run_holes : forall opt c ref off i r, nth_error (clearance_run opt c ref off) i = Some (Some r) ->
  exists p rr ro, nth_error (sv_nev (w_survey ref)) i = Some p /\ nth_error (w_radius ref) i = Some rr /\
    nth_error (w_radius off) (nearest_station (sv_nev (w_survey off)) p) = Some ro /\ ru_calc_hole r = rr + ro.
Proof.
  intros opt c ref off i r H. unfold clearance_run in H.
  destruct (Nat.lt_ge_cases i (length (sv_rows (w_survey ref)))) as [L|L];
    [|rewrite (proj2 (nth_error_None _ _)) in H by (rewrite map_length, seq_length; auto); discriminate].
  rewrite nth_seq_map in H by auto. unfold station_rule in H.
  destruct (nth_error (sv_rows (w_survey ref)) i) as [a|]; [|discriminate]. destruct (nth_error (sv_nev (w_survey ref)) i) as [p|]; [|discriminate].
  destruct (nth_error (w_cov ref) i) as [rc|]; [|discriminate]. destruct (nth_error (w_radius ref) i) as [rr|]; [|discriminate].
  destruct (closest_point opt (w_survey off) p _) as [[[[index x] f] q]|]; [|discriminate].
  destruct (nth_error (w_radius off) _) as [ro|] eqn:RO; [|discriminate].
  destruct (nth_error (w_cov off) index) as [ca|]; [|discriminate]. destruct (nth_error (w_cov off) (S index)) as [cb|]; [|discriminate].
  exists p, rr, ro. do 3 (split; auto). injection H as H. unfold iscwsa_rule in H.
  destruct (pcr _ rc); [|discriminate]. destruct (pcr _ _); [|discriminate]. injection H as <-. reflexivity.
Qed.
