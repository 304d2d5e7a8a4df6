(** The statements about interpolate_survey_tvd. *)
Require Import Reals ZArith Bool String List Lra Lia Psatz.
Require Import Verif.Base Verif.NumPy Verif.P_Trig Verif.Spec Verif.Spec_Lists Verif.M_Utils
  Verif.P_Utils Verif.P_Utils2 Verif.P_Utils3 Verif.M_Connector
  Verif.M_Survey Verif.P_Survey Verif.P_Survey2
  Verif.P_Survey3 Verif.P_Survey4 Verif.P_Tvd Verif.Spec_Refine Verif.P_Refine Verif.P_Refine3 Verif.M_Levels Verif.P_Levels Verif.P_Levels2 Verif.P_Levels3
  Verif.Spec_Levels Verif.P_Levels4 Verif.P_Levels5 Verif.P_Levels6 Verif.P_Levels7.
Import ListNotations.
Open Scope R_scope.

Lemma map_combine_r : forall (A B C : Type) (f : B -> C) (l : list (A * B)), map (fun x => f (snd x)) l = map f (map snd l).
Proof. intros. rewrite map_map. reflexivity. Qed.

Lemma level_survey : forall h rows deg sx sn s start step,
  Survey h rows deg sx sn "meters" = Some s -> 0 < step ->
  let first := match start with Some v => v | None => vz sn end in
  suits s first step ->
  exists r N, (forall fuel, (N <= fuel)%nat -> interpolate_survey_tvd fuel s start step = LevelsOk r) /\
    strictly_increasing (map st_md (sv_rows r)) /\
    length (sv_interpolated r) = length (sv_rows r) /\ length (sv_nev r) = length (sv_rows r) /\
    map (fun a => (st_md a, direction_nev (st_inc a) (st_azi a))) (unmarked (sv_interpolated r) (sv_rows r))
      = map (fun a => (st_md a, direction_nev (st_inc a) (st_azi a))) (sv_rows s) /\
    unmarked (sv_interpolated r) (sv_nev r) = map (fun p => vsub p sn) (sv_nev s) /\
    forall j a q, nth_error (sv_rows r) j = Some a -> nth_error (sv_nev r) j = Some q ->
      exists n h', survey_interpolate_md s (st_md a) = NodeOk n h' /\ nd_vec n = direction_nev (st_inc a) (st_azi a) /\
        q = vsub (nd_pos n) sn /\
        (nth_error (sv_interpolated r) j = Some true -> is_level first step (vz (nd_pos n))).
Proof.
  intros h rows deg sx sn s start step HS S0 first SU.
  destruct (levels_run h rows deg sx sn s start step HS S0 SU) as (a & l & gs & r & N & CE & RUN & (RR & RI & RN) & EX).
  change (first_level sn start) with first in RUN.
  assert (PL := survey_placed h rows deg sx sn s HS).
  destruct (survey_pts h rows deg sx sn s HS) as (a' & l' & CE' & A0 & P0 & LL & MF & MS).
  rewrite CE in CE'. injection CE' as <- <-.
  set (x0 := (a, sn)) in *. set (nodes := pnode x0 :: flatten gs l) in *.
  assert (OP : Forall (fun n => on_path s n /\ (nd_interp n = true -> is_level first step (vz (nd_pos n)))) nodes).
  { assert (ST : forall x, In x (combine (sv_rows s) (sv_nev s)) -> on_path s (pnode x)).
    { intros x IN. split; [apply direction_unit|]. destruct (station_node h rows deg sx sn s start step HS SU x IN) as (h' & E).
      exists (pnode x), h'. auto. }
    constructor; [|eapply run_on_path; eauto]. split; [apply ST; rewrite CE; left; auto|simpl; discriminate]. }
  assert (UN : unmarked (map nd_interp nodes) nodes = map pnode (x0 :: l)).
  { unfold nodes. simpl. f_equal. eapply run_flags; eauto. }
  assert (NS : forall n, In n nodes -> dir (node_station n) = nd_vec n /\ st_md (node_station n) = nd_md n).
  { intros n IN. apply node_station_dir. rewrite Forall_forall in OP. apply (OP n IN). }
  exists r, N. split; [exact EX|]. split; [|split; [|split; [|split; [|split]]]].
  - rewrite RR, map_map. rewrite (map_ext_in _ nd_md); [|intros n IN; apply NS; auto].
    unfold nodes. simpl. apply (ascending_si (flatten gs l) (st_md a)). assert (AS := run_ascending s first step first x0 l gs RUN). exact AS.
  - rewrite RR, RI, !map_length. reflexivity.
  - rewrite RR, RN, !map_length. reflexivity.
  - rewrite RR, RI, unmarked_map, UN, <- MF, !map_map. apply map_ext_in. intros x IN.
    destruct (node_station_dir (pnode x)) as [E1 E2]; [apply direction_unit|]. unfold dir in E1. rewrite E1, E2. reflexivity.
  - rewrite RN, RI, unmarked_map, UN, <- MS, !map_map. reflexivity.
  - intros j b q B Q. rewrite RR, nth_error_map in B. rewrite RN, nth_error_map in Q. rewrite RI, nth_error_map.
    destruct (nth_error nodes j) as [n|] eqn:NJ; [|discriminate]. simpl in B, Q. injection B as <-. injection Q as <-.
    assert (IN := nth_error_In _ _ NJ). rewrite Forall_forall in OP. destruct (OP n IN) as ((_ & n' & h' & E & EP & EV) & LV).
    destruct (NS n IN) as [E1 E2]. exists n', h'. rewrite E2. split; auto. split; [rewrite EV; symmetry; exact E1|].
    rewrite EP. split; auto. simpl. intro T. injection T as T. auto.
Qed.

(** ** completeness *)
Lemma through_suffix : forall s start step l x k,
  (forall i y, nth_error (x :: l) i = Some y -> nth_error (sv_nev s) (k + i) = Some (snd y)) ->
  (forall i o p q, nth_error (sv_nev s) i = Some o -> nth_error (sv_nev s) (S i) = Some p -> nth_error (sv_nev s) (S (S i)) = Some q ->
     is_level start step (vz p) -> vz o < vz p < vz q \/ vz q < vz p < vz o) -> through start step x l.
Proof.
  intros s start step. induction l as [|y l IH]; intros x k H TH; [exact I|].
  destruct l as [|w l]; [exact I|]. split.
  - apply (TH k). + rewrite <- (H 0%nat x eq_refl). f_equal. lia.
    + rewrite <- (H 1%nat y eq_refl). f_equal. lia. + rewrite <- (H 2%nat w eq_refl). f_equal. lia.
  - apply (IH y (S k)); auto. intros i z E. rewrite <- (H (S i) z E). f_equal. lia.
Qed.
Lemma run_part : forall s start step T x l gs, run s start step T x l gs -> covered start step x l gs ->
  forall k y z, nth_error (x :: l) k = Some y -> nth_error (x :: l) (S k) = Some z ->
  exists g, covers start step g y z /\ consec s y z /\ (forall n, In n (g ++ [pnode z]) -> In n (flatten gs l)) /\
    Forall (inner_node (is_level start step) (snd y) (fst y) (fst z) 0) g.
Proof.
  intros s start step T x l gs H. induction H as [|T T' x w l g gs A H IH]; intros CV k y z Y Z.
  - destruct k; discriminate.
  - destruct CV as [C1 C2]. destruct k as [|k].
    + simpl in Y, Z. injection Y as <-. injection Z as <-. exists g. split; auto. destruct A as (C & _ & F & _). split; auto. split; auto.
      intros n IN. simpl. apply in_app_or in IN. apply in_or_app. destruct IN as [IN|[<-|[]]]; [left; auto|right; left; auto].
    + destruct (IH C2 k y z Y Z) as (g' & CV & CC & IN & F). exists g'. split; auto. split; auto. split; auto.
      intros n I0. simpl. apply in_or_app. right. right. auto.
Qed.
Lemma level_complete : forall h rows deg sx sn s start step,
  Survey h rows deg sx sn "meters" = Some s -> 0 < step ->
  let first := match start with Some v => v | None => vz sn end in
  suits s first step ->
  first <= vz sn < first + step ->
  (forall q, vz sn = first -> nth_error (sv_nev s) 1 = Some q -> vz sn < vz q) ->
  (forall i o p q, nth_error (sv_nev s) i = Some o -> nth_error (sv_nev s) (S i) = Some p -> nth_error (sv_nev s) (S (S i)) = Some q ->
     is_level first step (vz p) -> vz o < vz p < vz q \/ vz q < vz p < vz o) ->
  exists r N, (forall fuel, (N <= fuel)%nat -> interpolate_survey_tvd fuel s start step = LevelsOk r) /\
    forall k a b p q L, nth_error (sv_rows s) k = Some a -> nth_error (sv_rows s) (S k) = Some b ->
      nth_error (sv_nev s) k = Some p -> nth_error (sv_nev s) (S k) = Some q ->
      is_level first step L -> vz p < L <= vz q \/ vz q <= L < vz p ->
      exists j c n h', nth_error (sv_rows r) j = Some c /\ st_md a < st_md c <= st_md b /\
        survey_interpolate_md s (st_md c) = NodeOk n h' /\ vz (nd_pos n) = L.
Proof.
  intros h rows deg sx sn s start step HS S0 first SU B0 DN TH.
  destruct (levels_run h rows deg sx sn s start step HS S0 SU) as (a0 & l & gs & r & N & CE & RUN & (RR & RI & RN) & EX).
  change (first_level sn start) with first in RUN. exists r, N. split; [exact EX|].
  destruct (survey_pts h rows deg sx sn s HS) as (a' & l' & CE' & A0 & P0 & LL & MF & MS).
  rewrite CE in CE'. injection CE' as <- <-. set (x0 := (a0, sn)) in *.
  assert (PL := survey_placed h rows deg sx sn s HS).
  assert (CV : covered first step x0 l gs).
  { eapply run_covers; eauto; [apply level_start| |].
    - apply (through_suffix s first step l x0 0); auto. intros i y E. rewrite <- MS, nth_error_map. simpl. rewrite E. reflexivity.
    - unfold ready. simpl. destruct (Req_dec (vz sn) first) as [E|E]; [|left; lra]. right; left. split; auto.
      destruct l as [|y l]; auto. apply DN; auto. rewrite <- MS. reflexivity. }
  intros k a b p q L A B P Q LL' CR.
  assert (E1 : nth_error (x0 :: l) k = Some (a, p)) by (rewrite <- CE; apply combine_nth; auto).
  assert (E2 : nth_error (x0 :: l) (S k) = Some (b, q)) by (rewrite <- CE; apply combine_nth; auto).
  destruct (run_part s first step _ _ _ _ RUN CV k _ _ E1 E2) as (g & CG & CC & IN & F).
  destruct (CG L LL' CR) as (n & IG & ZL). assert (IF := IN n IG).
  apply In_nth_error in IF. destruct IF as [j J].
  assert (OP : on_path s n /\ st_md a < nd_md n <= st_md b).
  { apply in_app_or in IG. destruct IG as [IG|[<-|[]]].
    - rewrite Forall_forall in F. assert (FN := F n IG). split; [eapply inner_on_path; eauto|].
      destruct FN as (x & Bx & (M & _) & _). simpl in *. lra.
    - split.
      + destruct (station_node h rows deg sx sn s start step HS SU (b, q)) as (h' & E).
        { apply nth_error_In with (S k). rewrite CE. auto. }
        split; [apply direction_unit|]. exists (pnode (b, q)), h'. auto.
      + simpl. destruct (SU k a b p A B P) as (W & _). apply apart_close in W. lra. }
  destruct OP as ((U & n' & h' & E & EP & EV) & BM). destruct (node_station_dir n U) as [D M].
  exists (S j), (node_station n), n', h'. rewrite M. split; [rewrite RR; simpl; rewrite nth_error_map, J; reflexivity|].
  split; auto. split; auto. rewrite EP. auto.
Qed.

(** ** wells on which levels are missed *)
Lemma monotone_suffix : forall s (le : R -> R -> Prop) l x k,
  (forall i y, nth_error (x :: l) i = Some y -> nth_error (sv_nev s) (k + i) = Some (snd y)) ->
  (forall i p q, nth_error (sv_nev s) i = Some p -> nth_error (sv_nev s) (S i) = Some q -> le (vz p) (vz q)) -> monotone le x l.
Proof.
  intros s le. induction l as [|y l IH]; intros x k H M; [exact I|]. split.
  - apply (M k). + rewrite <- (H 0%nat x eq_refl). f_equal. lia. + rewrite <- (H 1%nat y eq_refl). f_equal. lia.
  - apply (IH y (S k)); auto. intros i z E. rewrite <- (H (S i) z E). f_equal. lia.
Qed.
Lemma empty_flags : forall s start step T x l gs, run s start step T x l gs -> Forall (fun g => g = []) gs -> flatten gs l = map pnode l.
Proof.
  intros s start step T x l gs H. induction H; intros F; [reflexivity|]. inversion F; subst. simpl. f_equal. auto.
Qed.
Lemma flatten_in : forall s start step T x l gs n, run s start step T x l gs -> In n (flatten gs l) -> nd_interp n = true -> exists g, In g gs /\ In n g.
Proof.
  intros s start step T x l gs n H. induction H as [|T T' x w l g gs A H IH]; intros IN TR; [destruct IN|].
  simpl in IN. apply in_app_or in IN. destruct IN as [IN|[<-|IN]]; [exists g; split; [left|]; auto|discriminate|].
  destruct (IH IN TR) as (g' & G1 & G2). exists g'. split; [right|]; auto.
Qed.
Lemma level_missed : forall h rows deg sx sn s start step,
  Survey h rows deg sx sn "meters" = Some s -> 0 < step ->
  let first := match start with Some v => v | None => vz sn end in
  suits s first step ->
  let deepens := forall i p q, nth_error (sv_nev s) i = Some p -> nth_error (sv_nev s) (S i) = Some q -> vz p <= vz q in
  let climbs := forall i p q, nth_error (sv_nev s) i = Some p -> nth_error (sv_nev s) (S i) = Some q -> vz q <= vz p in
  exists r N, (forall fuel, (N <= fuel)%nat -> interpolate_survey_tvd fuel s start step = LevelsOk r) /\
    (deepens -> first + step <= vz sn -> forall j, nth_error (sv_interpolated r) j <> Some true) /\
    (climbs -> vz sn <= first -> forall j, nth_error (sv_interpolated r) j <> Some true) /\
    (deepens -> forall j a n h', nth_error (sv_rows r) j = Some a -> nth_error (sv_interpolated r) j = Some true ->
       survey_interpolate_md s (st_md a) = NodeOk n h' -> first + step <= vz (nd_pos n)).
Proof.
  intros h rows deg sx sn s start step HS S0 first SU deepens climbs.
  destruct (levels_run h rows deg sx sn s start step HS S0 SU) as (a0 & l & gs & r & N & CE & RUN & (RR & RI & RN) & EX).
  change (first_level sn start) with first in RUN. exists r, N. split; [exact EX|].
  destruct (survey_pts h rows deg sx sn s HS) as (a' & l' & CE' & A0 & P0 & LL & MF & MS).
  rewrite CE in CE'. injection CE' as <- <-. set (x0 := (a0, sn)) in *.
  assert (PL := survey_placed h rows deg sx sn s HS).
  assert (SUF : forall i y, nth_error (x0 :: l) i = Some y -> nth_error (sv_nev s) (0 + i) = Some (snd y)).
  { intros i y E. rewrite <- MS, nth_error_map. simpl. rewrite E. reflexivity. }
  assert (NONE : Forall (fun g => g = []) gs -> forall j, nth_error (sv_interpolated r) j <> Some true).
  { intros F j E. rewrite RI, (empty_flags _ _ _ _ _ _ _ RUN F) in E. simpl in E. rewrite map_map in E. simpl in E.
    destruct j as [|j]; [discriminate|]. simpl in E. rewrite nth_error_map in E. destruct (nth_error l j); discriminate. }
  split; [|split].
  - intros D B. apply NONE. eapply run_above; eauto. apply (monotone_suffix s Rle l x0 0); auto.
  - intros C B. apply NONE. eapply run_climbing; eauto. apply (monotone_suffix s Rge l x0 0); auto. intros i p q P Q. apply Rle_ge. eapply C; eauto.
  - intros D j a n h' A FL E. rewrite RI, nth_error_map in FL. rewrite RR, nth_error_map in A.
    destruct (nth_error (pnode x0 :: flatten gs l) j) as [m|] eqn:J; [|discriminate]. cbn [option_map] in FL, A. injection FL as FL. injection A as <-.
    assert (IN := nth_error_In _ _ J). destruct IN as [<-|IN]; [discriminate|].
    destruct (flatten_in _ _ _ _ _ _ _ m RUN IN FL) as (g & IG & IM).
    assert (BY := run_beyond s first step first first x0 l gs RUN ltac:(lra) (monotone_suffix s Rle l x0 0 SUF D)).
    rewrite Forall_forall in BY. specialize (BY g IG). rewrite Forall_forall in BY. specialize (BY m IM).
    assert (ST : forall x, In x (combine (sv_rows s) (sv_nev s)) -> on_path s (pnode x)).
    { intros x INX. split; [apply direction_unit|]. destruct (station_node h rows deg sx sn s start step HS SU x INX) as (hh & EE).
      exists (pnode x), hh. auto. }
    assert (OP := run_on_path s sx sn first step PL SU ST _ _ _ _ RUN). rewrite Forall_forall in OP.
    destruct (OP m IN) as ((U & n' & h2 & E2 & EP & EV) & _). destruct (node_station_dir m U) as [_ M]. rewrite M, E2 in E. injection E as <- <-.
    rewrite EP. auto.
Qed.
Lemma level_feet : forall h rows deg sx sn s start step fuel r,
  Survey h rows deg sx sn "feet" = Some s -> interpolate_survey_tvd fuel s start step <> LevelsOk r.
Proof.
  intros h rows deg sx sn s start step fuel r HS E. apply Survey_inv in HS. destruct HS as (U & HH & _).
  unfold interpolate_survey_tvd in E. destruct (level_nodes fuel s start step); try discriminate.
  unfold levels_survey in E. rewrite HH in E.
  match type of E with context [Survey ?a ?b ?c ?d ?e ?f] => destruct (Survey a b c d e f) as [z|] eqn:Z; [|discriminate] end.
  apply Survey_inv in Z. destruct Z as (Z & _). simpl in Z. rewrite <- U in Z. discriminate.
Qed.
