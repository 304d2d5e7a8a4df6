(** C125: MeshClearance. *)
Require Import Reals Lra Psatz Lia ZArith Bool String List FunctionalExtensionality.
Require Import Verif.Base Verif.NumPy Verif.P_Trig Verif.Spec Verif.Spec_Lists Verif.Spec_Clearance Verif.M_Utils Verif.P_Utils
  Verif.P_Utils2 Verif.M_Survey Verif.P_Survey Verif.P_Survey2 Verif.P_Survey3 Verif.P_Survey4 Verif.M_Error Verif.M_Clearance Verif.P_Clearance
  Verif.P_Clearance3 Verif.M_MaxCurve Verif.M_Refine Verif.P_Clearance2 Verif.P_Refine Verif.P_Refine3 Verif.P_Refine6 Verif.Spec_Frames Verif.M_MeshRun Verif.Spec_MeshRun.
Import ListNotations.
Local Open Scope R_scope.

Definition sound (s : survey) : Prop :=
  length (sv_nev s) = length (sv_rows s) /\ (2 <= length (sv_rows s))%nat /\
  (h_unit (sv_header s) = "meters" \/ h_unit (sv_header s) = "feet")%string.
Lemma built_sound : forall s, built s -> sound s.
Proof.
  intros s (h & rows & deg & sx & sn & unit & E). pose proof (Survey_inv _ _ _ _ _ _ _ E) as (U & H & L & _ & UU & _).
  destruct (Survey_xyz_len _ _ _ _ _ _ _ E) as [_ LN]. repeat split; auto. rewrite H, <- U. exact UU.
Qed.
Lemma grid_sound : forall s, sound s -> sound (with_grid s).
Proof. intros s H. exact H. Qed.
Lemma grid_same : forall s, h_ref (sv_header s) = RefGrid -> with_grid s = s.
Proof. intros [[r c d g v u] a b e f i j k l m] H. cbn in H. subst r. reflexivity. Qed.

Lemma firstn_nth : forall A (l : list A) n k, (k < n)%nat -> nth_error (firstn n l) k = nth_error l k.
Proof. intros A l. induction l; intros n k H; destruct n, k; cbn; auto; try lia. apply IHl. lia. Qed.
Lemma slice_some : forall s start stop, sound s -> (start + 2 <= stop)%nat -> (start + 2 <= length (sv_rows s))%nat ->
  exists t xyz, slice_survey s start stop = Some t /\ nth_error (sv_xyz t) 0 = Some xyz /\ sound t /\
    h_unit (sv_header t) = h_unit (sv_header s) /\
    (forall k, (start + k < stop)%nat -> nth_error (sv_rows t) k =
       option_map (fun st => mkSt (st_md st) (st_inc st) (st_azi st - misread (sv_header s))) (nth_error (sv_rows s) (start + k))) /\
    (forall k, (start + k < stop)%nat -> nth_error (sv_nev t) k = nth_error (sv_nev s) (start + k)).
Proof.
  intros s start stop (LN & L2 & UU) LE LR.
  assert (E : exists t, slice_survey s start stop = Some t /\ exists xyz, nth_error (sv_xyz t) 0 = Some xyz).
  { unfold slice_survey.
    destruct (firstn (stop - start) (skipn start (sv_nev s))) as [|p0 pl] eqn:F.
    { apply (f_equal (@length V3)) in F. rewrite firstn_length, skipn_length in F. cbn in F. lia. }
    destruct (Survey_total (sv_header s) (slice_rows s start stop) false vzero p0) as [t T]; [exact UU| |].
    { unfold slice_rows. rewrite map_length, firstn_length, skipn_length. lia. }
    rewrite T. eexists. split; [reflexivity|]. cbn [sv_xyz].
    destruct (Survey_xyz_len _ _ _ _ _ _ _ T) as [LX _]. pose proof (Survey_inv _ _ _ _ _ _ _ T) as (_ & _ & L & _).
    apply nth_error_some_lt. lia. }
  destruct E as (t & T & xyz & X). exists t, xyz. split; [exact T|]. split; [exact X|].
  destruct (slice_spec _ _ _ _ T) as [R N].
  assert (H : h_unit (sv_header t) = h_unit (sv_header s)).
  { unfold slice_survey in T. destruct (firstn _ _); [discriminate|]. destruct (Survey _ _ _ _ _ _) as [u|] eqn:Q; [|discriminate].
    injection T as <-. cbn. apply Survey_inv in Q. destruct Q as (_ & -> & _). reflexivity. }
  split. { split; [rewrite R, N, map_length, !firstn_length, !skipn_length; lia|]. split; [rewrite R, map_length, firstn_length, skipn_length; lia|]. rewrite H. exact UU. }
  split; [exact H|]. split.
  - intros k K. rewrite R, nth_error_map, firstn_nth, nth_error_skipn by lia. unfold grid_offset, misread. destruct (nth_error _ _); reflexivity.
  - intros k K. rewrite N, firstn_nth, nth_error_skipn by lia. reflexivity.
Qed.

Lemma interp_two : forall s x k r h, interpolate_at s x k = Some (r, h) -> length (sv_nev r) = 2%nat.
Proof.
  intros s x k r h H. unfold interpolate_at in H.
  destruct (nth_error (sv_rows s) k) as [a|]; [|discriminate]. destruct (nth_error (sv_rows s) (S k)) as [b|]; [|discriminate].
  destruct (nth_error (sv_xyz s) k) as [p|]; [|discriminate]. destruct (nth_error (sv_nev s) k) as [q|]; [|discriminate].
  destruct (interp_angles a b x) as [i z]. cbv zeta in H. destruct (Survey _ _ _ _ _ _) as [u|] eqn:E; [|discriminate].
  injection H as <- _. cbn [sv_nev]. destruct (Survey_xyz_len _ _ _ _ _ _ _ E) as [_ ->].
  pose proof (Survey_inv _ _ _ _ _ _ _ E) as (_ & _ & _ & -> & _). reflexivity.
Qed.
Lemma closest_nev_spec : forall opt s pos a b p xyz, sound s ->
  nth_error (sv_rows s) 0 = Some a -> nth_error (sv_rows s) 1 = Some b -> nth_error (sv_nev s) 0 = Some p -> nth_error (sv_xyz s) 0 = Some xyz ->
  closest_nev opt s pos =
    (let '(x, f) := opt (fun x => norm (vsub (interpolate_pos_nev p a b x) pos)) ((st_md b - st_md a) / 2) (st_md b - st_md a) in
     Some (interpolate_pos_nev p a b x, x, f)).
Proof.
  intros opt s pos a b p xyz (_ & _ & UU) A B P X. unfold closest_nev. rewrite A, B. cbv zeta.
  assert (G : forall x, exists r h, interpolate_at s x 0 = Some (r, h) /\ exists z, sv_nev r = [z; interpolate_pos_nev p a b x]).
  { intro x. destruct (interpolate_at_node s x 0 a b xyz p A B X P UU) as (r & h & n & E & N & _ & _ & PO & _).
    exists r, h. split; [exact E|]. pose proof (interp_two _ _ _ _ _ E) as L2. unfold node_of in N.
    destruct (sv_nev r) as [|z [|y [|w l]]]; try discriminate L2. change (nth_error [z; y] 1) with (Some y) in N.
    destruct (nth_error (sv_rows r) 1); [|discriminate]. destruct (nth_error (sv_interpolated r) 1); [|discriminate].
    injection N as <-. cbn in PO. exists z. congruence. }
  assert (F : slice_fun s pos = (fun x => norm (vsub (interpolate_pos_nev p a b x) pos))).
  { extensionality x. unfold slice_fun. destruct (G x) as (r & h & E & z & N). rewrite E, N. reflexivity. }
  rewrite F. destruct (opt _ _ _) as [x f]. destruct (G x) as (r & h & E & z & N). rewrite E, N. reflexivity.
Qed.

(** ** headers that are already grid *)
Lemma nth_lt : forall A (l : list A) k, (k < length l)%nat -> exists x, nth_error l k = Some x.
Proof. intros. apply nth_error_some_lt. auto. Qed.
Lemma dist_comm : forall p q, dist p q = dist q p.
Proof. intros. unfold dist, norm. f_equal. destruct p, q; unf; ring. Qed.

Lemma mesh_section_some : forall opt c query shared ref off rr ro i, sound ref -> sound off -> (i + 2 <= length (sv_rows ref))%nat ->
  length rr = length (sv_rows ref) -> length ro = length (sv_rows off) ->
  exists m off', mesh_section opt c query shared ref off rr ro i = Some (m, with_grid ref, off') /\ off' = with_grid off.
Proof.
  intros opt c query shared ref off rr ro i SR SO Li LR LO. pose proof SR as (LN & L2 & UU). pose proof SO as (LN' & L2' & UU').
  unfold mesh_section.
  destruct (slice_some ref i (i + 2) SR) as (s & xyz & E & X & SS & _ & RW & NV); try lia. rewrite E.
  destruct (nth_lt _ (sv_rows ref) i) as [a A]; [lia|]. destruct (nth_lt _ (sv_rows ref) (S i)) as [b B]; [lia|].
  destruct (nth_lt _ (sv_nev ref) i) as [p P]; [lia|]. destruct (nth_lt _ rr i) as [ri RI]; [lia|]. rewrite A, RI. cbv zeta.
  pose proof (RW 0%nat ltac:(lia)) as R0. pose proof (RW 1%nat ltac:(lia)) as R1. pose proof (NV 0%nat ltac:(lia)) as N0.
  rewrite Nat.add_0_r in R0, N0. rewrite Nat.add_1_r in R1. rewrite A in R0. rewrite B in R1. rewrite P in N0. cbn [option_map] in R0, R1.
  rewrite (closest_nev_spec opt s _ _ _ _ _ SS R0 R1 N0 X).
  destruct (opt _ _ _) as [xr fr].
  assert (OS : forall o, sound o -> length (sv_rows o) = length (sv_rows off) -> sv_nev o = sv_nev off -> forall j, (j + 2 <= length (sv_rows off))%nat ->
    forall pos, exists r, match slice_survey o j (length (sv_rows off)) with Some s => Some (closest_nev opt s pos) | None => Some None end = Some (Some r)).
  { intros o SOo LL NE j J pos. destruct (slice_some o j (length (sv_rows off)) SOo) as (t & z & ET & XT & ST & _ & RT & NT); try lia.
    rewrite ET. destruct (nth_lt _ (sv_rows o) j) as [a' A']; [lia|]. destruct (nth_lt _ (sv_rows o) (S j)) as [b' B']; [lia|].
    destruct (nth_lt _ (sv_nev o) j) as [q Q']; [destruct SOo; lia|].
    pose proof (RT 0%nat ltac:(lia)) as T0. pose proof (RT 1%nat ltac:(lia)) as T1. pose proof (NT 0%nat ltac:(lia)) as M0.
    rewrite Nat.add_0_r in T0, M0. rewrite Nat.add_1_r in T1. rewrite A' in T0. rewrite B' in T1. rewrite Q' in M0. cbn [option_map] in T0, T1.
    rewrite (closest_nev_spec opt t pos _ _ _ _ ST T0 T1 M0 XT). destruct (opt _ _ _) as [x f]. eauto. }
  set (off0 := if shared then with_grid off else off).
  assert (R00 : sv_rows off0 = sv_rows off) by (unfold off0; destruct shared; reflexivity).
  assert (N00 : sv_nev off0 = sv_nev off) by (unfold off0; destruct shared; reflexivity).
  assert (S00 : sound off0) by (unfold off0; destruct shared; exact SO).
  assert (W0 : with_grid off0 = with_grid off) by (unfold off0; destruct shared; reflexivity).
  rewrite R00, N00.
  set (pos := an_off (query i s)). set (j := nearest_station (sv_nev off) pos).
  assert (J : (j < length (sv_rows off))%nat).
  { destruct (nearest_first (sv_nev off) pos) as (o & O & _). { intro Z. rewrite Z in LN'. cbn in LN'. lia. }
    rewrite <- LN'. apply nth_error_Some. fold j in O. congruence. }
  clearbody j. destruct (nth_lt _ ro j) as [rj RJ]; [lia|]. rewrite RJ.
  set (off1 := if (j <? length (sv_rows off) - 1)%nat then with_grid off0 else off0).
  assert (R01 : sv_rows off1 = sv_rows off) by (unfold off1; destruct (_ <? _)%nat; exact R00).
  assert (N01 : sv_nev off1 = sv_nev off) by (unfold off1; destruct (_ <? _)%nat; exact N00).
  assert (S01 : sound off1) by (unfold off1; destruct (_ <? _)%nat; exact S00).
  assert (FIN : (if (0 <? j)%nat then with_grid off1 else off1) = with_grid off).
  { unfold off1. destruct (Nat.ltb_spec 0 j), (Nat.ltb_spec j (length (sv_rows off) - 1)); try (rewrite <- W0; reflexivity). lia. }
  rewrite FIN.
  destruct (Nat.ltb_spec 0 j) as [J0|J0], (Nat.ltb_spec j (length (sv_rows off) - 1)) as [J1|J1]; try lia.
  - destruct (OS off0 S00 ltac:(congruence) N00 j ltac:(lia) pos) as [[[q1 x1] f1] ->].
    destruct (OS off1 S01 ltac:(congruence) N01 (j - 1)%nat ltac:(lia) pos) as [[[q0 x0] f0] ->].
    destruct (Rlt_dec f0 f1); eauto.
  - destruct (OS off1 S01 ltac:(congruence) N01 (j - 1)%nat ltac:(lia) pos) as [[[q0 x0] f0] ->]. eauto.
  - destruct (OS off0 S00 ltac:(congruence) N00 j ltac:(lia) pos) as [[[q1 x1] f1] ->]. eauto.
Qed.
Lemma sections_some : forall opt c query shared rr ro k ref off i, sound ref -> sound off -> (i + k + 1 <= length (sv_rows ref))%nat ->
  length rr = length (sv_rows ref) -> length ro = length (sv_rows off) ->
  exists l, mesh_sections opt c query shared ref off rr ro i k = Some l /\ length l = k.
Proof.
  intros opt c query shared rr ro k. induction k as [|k IH]; intros ref off i SR SO Li LR LO; [exists []; auto|].
  cbn [mesh_sections]. destruct (mesh_section_some opt c query shared ref off rr ro i SR SO ltac:(lia) LR LO) as (m & off' & -> & ->).
  destruct (IH (with_grid ref) (with_grid off) (S i)) as (l & -> & LL); auto; [cbn; lia|]. exists (m :: l). cbn. auto.
Qed.
(** after the first section the headers no longer matter *)
Lemma mesh_later : forall opt c query shared ref off rr ro, built ref -> built off ->
  length rr = length (sv_rows ref) -> length ro = length (sv_rows off) ->
  exists m m' r, mesh_clearance opt c query shared ref off rr ro = Some (m :: r) /\
    mesh_clearance opt c query shared (with_grid ref) (with_grid off) rr ro = Some (m' :: r).
Proof.
  intros opt c query shared ref off rr ro BR BO LR LO. apply built_sound in BR. apply built_sound in BO. pose proof BR as (_ & L2 & _).
  unfold mesh_clearance. change (sv_rows (with_grid ref)) with (sv_rows ref).
  destruct (length (sv_rows ref) - 1)%nat as [|k] eqn:K; [lia|]. cbn [mesh_sections].
  destruct (mesh_section_some opt c query shared ref off rr ro 0 BR BO ltac:(lia) LR LO) as (m & off' & -> & ->).
  destruct (mesh_section_some opt c query shared (with_grid ref) (with_grid off) rr ro 0 BR BO ltac:(cbn; lia) LR LO) as (m' & off' & -> & ->).
  change (with_grid (with_grid ref)) with (with_grid ref). change (with_grid (with_grid off)) with (with_grid off).
  destruct (sections_some opt c query shared rr ro k (with_grid ref) (with_grid off) 1) as (l & -> & _); auto; [cbn; lia|]. eauto.
Qed.

(** ** one section of surveys that refer to grid north *)
Lemma on_interp : forall s k a b p x, built s -> strictly_increasing (map st_md (sv_rows s)) -> no_reversal s ->
  nth_error (sv_rows s) k = Some a -> nth_error (sv_rows s) (S k) = Some b -> nth_error (sv_nev s) k = Some p ->
  0 <= x <= st_md b - st_md a -> on_well s (st_md a + x) (interpolate_pos_nev p a b x).
Proof.
  intros s k a b p x (h & rows & deg & sx & sn & unit & E) SI NR A B P X.
  destruct (interpolate_md_in _ _ _ _ _ _ _ E SI NR k a b p x A B P X) as (n & h' & Q1 & _ & Q2). exists n, h'. auto.
Qed.
Lemma on_unique : forall s md p q, on_well s md p -> on_well s md q -> p = q.
Proof. intros s md p q (n & h & E & <-) (n' & h' & E' & <-). congruence. Qed.

Lemma closest_off : forall opt off j pos, built off ->
  strictly_increasing (map st_md (sv_rows off)) -> no_reversal off -> never_worse opt -> (j + 2 <= length (sv_rows off))%nat ->
  exists s q x f a b, slice_survey (with_grid off) j (length (sv_rows off)) = Some s /\ closest_nev opt s pos = Some (q, x, f) /\
    nth_error (sv_rows off) j = Some a /\ nth_error (sv_rows off) (S j) = Some b /\ 0 <= x <= st_md b - st_md a /\
    on_well off (st_md a + x) q /\ f = dist q pos /\
    forall y, on_well off (halfway a b) y -> dist q pos <= dist y pos.
Proof.
  intros opt off j pos BO SI NR NW J. pose proof (built_sound _ BO) as SO. pose proof SO as (LN & L2 & UU).
  destruct (slice_some (with_grid off) j (length (sv_rows off)) (grid_sound _ SO)) as (s & z & E & X & SS & _ & RW & NV); try (cbn; lia).
  change (sv_rows (with_grid off)) with (sv_rows off) in *. change (sv_nev (with_grid off)) with (sv_nev off) in *.
  destruct (nth_lt _ (sv_rows off) j) as [a A]; [lia|]. destruct (nth_lt _ (sv_rows off) (S j)) as [b B]; [lia|].
  destruct (nth_lt _ (sv_nev off) j) as [p P]; [lia|].
  pose proof (RW 0%nat ltac:(lia)) as R0. pose proof (RW 1%nat ltac:(lia)) as R1. pose proof (NV 0%nat ltac:(lia)) as N0.
  rewrite Nat.add_0_r in R0, N0. rewrite Nat.add_1_r in R1. rewrite A in R0. rewrite B in R1. rewrite P in N0.
  change (misread (sv_header (with_grid off))) with 0 in R0, R1. cbn [option_map] in R0, R1.
  assert (ZZ : forall st, mkSt (st_md st) (st_inc st) (st_azi st - 0) = st). { intros [m i az]. cbn. f_equal. ring. }
  rewrite ZZ in R0, R1.
  pose proof (closest_nev_spec opt s pos _ _ _ _ SS R0 R1 N0 X) as C.
  assert (LT : st_md a < st_md b). { apply (P_Refine.si_lt (map st_md (sv_rows off)) j (S j)); auto; rewrite nth_error_map; [rewrite A|rewrite B]; reflexivity. }
  set (fn := fun x => norm (vsub (interpolate_pos_nev p a b x) pos)) in *.
  pose proof (NW fn ((st_md b - st_md a) / 2) (st_md b - st_md a) ltac:(lra)) as W.
  destruct (opt fn _ _) as [x f]. destruct W as (W1 & W2 & W3).
  exists s, (interpolate_pos_nev p a b x), x, f, a, b. split; [exact E|]. split; [exact C|]. split; [exact A|]. split; [exact B|]. split; [exact W1|].
  split; [eapply on_interp; eauto|]. split; [exact W2|].
  intros y Y. assert (Y' : y = interpolate_pos_nev p a b ((st_md b - st_md a) / 2)).
  { eapply on_unique; [exact Y|]. unfold mid. eapply on_interp; eauto. lra. }
  rewrite Y'. unfold dist. fold (fn x). fold (fn ((st_md b - st_md a) / 2)). lra.
Qed.
Lemma mesh_section_grid : forall opt c query shared ref off rr ro i a b p q, built ref -> built off ->
  strictly_increasing (map st_md (sv_rows ref)) -> strictly_increasing (map st_md (sv_rows off)) ->
  no_reversal ref -> no_reversal off -> never_worse opt ->
  length rr = length (sv_rows ref) -> length ro = length (sv_rows off) ->
  nth_error (sv_rows ref) i = Some a -> nth_error (sv_rows ref) (S i) = Some b ->
  nth_error (sv_nev ref) i = Some p -> nth_error (sv_nev ref) (S i) = Some q ->
  exists s m, section_of s a b p q 0 /\ mesh_section opt c query shared (with_grid ref) (with_grid off) rr ro i = Some (m, with_grid ref, with_grid off) /\
    let an := query i s in
    mr_collides m = an_collides an /\
    st_md a <= mr_ref_md m <= st_md b /\ on_well ref (mr_ref_md m) (mr_ref_nev m) /\
    (forall y, on_well ref (halfway a b) y -> dist (mr_ref_nev m) (an_ref an) <= dist y (an_ref an)) /\
    (exists o, nth_error (sv_nev off) (mr_off_index m) = Some o /\
       forall k o', nth_error (sv_nev off) k = Some o' -> dist (an_off an) o <= dist (an_off an) o') /\
    (exists k u v, adjacent (mr_off_index m) k /\ nth_error (sv_rows off) k = Some u /\ nth_error (sv_rows off) (S k) = Some v /\
       st_md u <= mr_off_md m <= st_md v) /\ on_well off (mr_off_md m) (mr_off_nev m) /\
    (forall k u v y, adjacent (mr_off_index m) k -> nth_error (sv_rows off) k = Some u -> nth_error (sv_rows off) (S k) = Some v ->
       on_well off (halfway u v) y -> dist (mr_off_nev m) (an_off an) <= dist y (an_off an)) /\
    mr_distance_cc m = dist (mr_ref_nev m) (mr_off_nev m) /\
    mr_sf m = eround2 (mesh_sf (an_collides an) (mr_distance_cc m) (an_distance an) (dist (an_ref an) (an_off an))) /\
    (exists ri, nth_error rr i = Some ri /\ exists rj, nth_error ro (mr_off_index m) = Some rj /\
       mr_calc_hole m = ri + rj /\
       mr_ref_pcr m = (dist (mr_ref_nev m) (an_ref an) - ms_sigma_pa c / 2 - ri) / ms_sigma c /\
       mr_off_pcr m = (dist (mr_off_nev m) (an_off an) - ms_sigma_pa c / 2 - rj - ms_Sm c) / ms_sigma c).
Proof.
  intros opt c query shared ref off rr ro i a b p q BR BO SR SO NR NO NW LR LO A B P Q.
  pose proof (built_sound _ BR) as WR. pose proof (built_sound _ BO) as WO. pose proof WR as (LN & L2 & _). pose proof WO as (LN' & L2' & _).
  assert (Li : (S i < length (sv_rows ref))%nat) by (apply nth_error_Some; congruence).
  destruct (slice_some (with_grid ref) i (i + 2) (grid_sound _ WR)) as (s & z & E & X & SS & _ & RW & NV); try (cbn; lia).
  change (sv_rows (with_grid ref)) with (sv_rows ref) in *. change (sv_nev (with_grid ref)) with (sv_nev ref) in *.
  pose proof (RW 0%nat ltac:(lia)) as R0. pose proof (RW 1%nat ltac:(lia)) as R1. pose proof (NV 0%nat ltac:(lia)) as N0. pose proof (NV 1%nat ltac:(lia)) as N1.
  rewrite Nat.add_0_r in R0, N0. rewrite Nat.add_1_r in R1, N1. rewrite A in R0. rewrite B in R1. rewrite P in N0. rewrite Q in N1.
  change (misread (sv_header (with_grid ref))) with 0 in R0, R1. cbn [option_map] in R0, R1.
  assert (SEC : section_of s a b p q 0).
  { destruct (slice_spec _ _ _ _ E) as [RR NN]. change (sv_rows (with_grid ref)) with (sv_rows ref) in *. change (sv_nev (with_grid ref)) with (sv_nev ref) in *. assert (LRR : length (sv_rows s) = 2%nat) by (rewrite RR, map_length, firstn_length, skipn_length; lia).
    assert (LNN : length (sv_nev s) = 2%nat) by (rewrite NN, firstn_length, skipn_length; lia).
    destruct (sv_rows s) as [|x [|y [|w l]]] eqn:ES; try discriminate LRR. destruct (sv_nev s) as [|x' [|y' [|w' l']]] eqn:EN; try discriminate LNN.
    cbn in R0, R1, N0, N1. split; congruence. }
  assert (ZZ : forall st, mkSt (st_md st) (st_inc st) (st_azi st - 0) = st). { intros [m0 i0 az]. cbn. f_equal. ring. }
  rewrite ZZ in R0, R1.
  pose proof (closest_nev_spec opt s (an_ref (query i s)) _ _ _ _ SS R0 R1 N0 X) as C.
  assert (LT : st_md a < st_md b). { apply (P_Refine.si_lt (map st_md (sv_rows ref)) i (S i)); auto; rewrite nth_error_map; [rewrite A|rewrite B]; reflexivity. }
  set (fn := fun x => norm (vsub (interpolate_pos_nev p a b x) (an_ref (query i s)))) in *.
  pose proof (NW fn ((st_md b - st_md a) / 2) (st_md b - st_md a) ltac:(lra)) as W.
  destruct (opt fn _ _) as [xr fr]. destruct W as (W1 & W2 & W3).
  set (pos := an_off (query i s)). set (j := nearest_station (sv_nev off) pos).
  destruct (nearest_first (sv_nev off) pos) as (o & O & OM & _). { intro Y. rewrite Y in LN'. cbn in LN'. lia. }
  fold j in O. assert (J : (j < length (sv_rows off))%nat) by (rewrite <- LN'; apply nth_error_Some; congruence).
  destruct (nth_lt _ ro j) as [rj RJ]; [lia|]. destruct (nth_lt _ rr i) as [ri RI]; [lia|].
  exists s. unfold mesh_section. rewrite E. change (sv_rows (with_grid ref)) with (sv_rows ref). rewrite A, RI. cbv zeta. rewrite C.
  change (with_grid (with_grid ref)) with (with_grid ref).
  assert (OG : (if shared then with_grid (with_grid off) else with_grid off) = with_grid off) by (destruct shared; reflexivity).
  rewrite OG. change (sv_rows (with_grid off)) with (sv_rows off). change (sv_nev (with_grid off)) with (sv_nev off). fold pos. fold j.
  change (with_grid (with_grid off)) with (with_grid off).
  assert (SAME : forall b0 : bool, (if b0 then with_grid off else with_grid off) = with_grid off) by (intros []; reflexivity). rewrite !SAME.
  change (with_grid (with_grid off)) with (with_grid off). rewrite ?SAME, RJ.
  change (sv_rows (with_grid off)) with (sv_rows off).
  assert (MDN : forall k u, nth_error (sv_rows off) k = Some u -> st_md (nth k (sv_rows off) (mkSt 0 0 0)) = st_md u).
  { intros k u K. rewrite (nth_error_nth _ _ _ K). reflexivity. }
  assert (FINISH : forall q' md' f' k u v, adjacent j k -> nth_error (sv_rows off) k = Some u -> nth_error (sv_rows off) (S k) = Some v ->
    st_md u <= md' <= st_md v -> on_well off md' q' -> f' = dist q' pos ->
    (forall k u v y, adjacent j k -> nth_error (sv_rows off) k = Some u -> nth_error (sv_rows off) (S k) = Some v ->
       on_well off (halfway u v) y -> dist q' pos <= dist y pos) ->
    exists m, section_of s a b p q 0 /\
     Some (mkMR (an_collides (query i s)) (interpolate_pos_nev p a b xr) (st_md a + xr) j q' md' (norm (vsub q' (interpolate_pos_nev p a b xr)))
       (rmod (degrees (arctan2 (vy (vsub q' (interpolate_pos_nev p a b xr))) (vx (vsub q' (interpolate_pos_nev p a b xr)))) + 360) 360)
       (eround2 (mesh_sf (an_collides (query i s)) (norm (vsub q' (interpolate_pos_nev p a b xr))) (an_distance (query i s)) (norm (vsub pos (an_ref (query i s))))))
       ((fr - ms_sigma_pa c / 2 - ri) / ms_sigma c) ((f' - ms_sigma_pa c / 2 - rj - ms_Sm c) / ms_sigma c) (ri + rj), with_grid ref, with_grid off) = Some (m, with_grid ref, with_grid off) /\
    mr_collides m = an_collides (query i s) /\
    st_md a <= mr_ref_md m <= st_md b /\ on_well ref (mr_ref_md m) (mr_ref_nev m) /\
    (forall y, on_well ref (halfway a b) y -> dist (mr_ref_nev m) (an_ref (query i s)) <= dist y (an_ref (query i s))) /\
    (exists o, nth_error (sv_nev off) (mr_off_index m) = Some o /\
       forall k o', nth_error (sv_nev off) k = Some o' -> dist pos o <= dist pos o') /\
    (exists k u v, adjacent (mr_off_index m) k /\ nth_error (sv_rows off) k = Some u /\ nth_error (sv_rows off) (S k) = Some v /\
       st_md u <= mr_off_md m <= st_md v) /\ on_well off (mr_off_md m) (mr_off_nev m) /\
    (forall k u v y, adjacent (mr_off_index m) k -> nth_error (sv_rows off) k = Some u -> nth_error (sv_rows off) (S k) = Some v ->
       on_well off (halfway u v) y -> dist (mr_off_nev m) pos <= dist y pos) /\
    mr_distance_cc m = dist (mr_ref_nev m) (mr_off_nev m) /\
    mr_sf m = eround2 (mesh_sf (an_collides (query i s)) (mr_distance_cc m) (an_distance (query i s)) (dist (an_ref (query i s)) pos)) /\
    (exists ri0, Some ri = Some ri0 /\ exists rj, nth_error ro (mr_off_index m) = Some rj /\
       mr_calc_hole m = ri0 + rj /\
       mr_ref_pcr m = (dist (mr_ref_nev m) (an_ref (query i s)) - ms_sigma_pa c / 2 - ri0) / ms_sigma c /\
       mr_off_pcr m = (dist (mr_off_nev m) pos - ms_sigma_pa c / 2 - rj - ms_Sm c) / ms_sigma c)).
  { intros q' md' f' k u v AD U V MD ON F MINS. eexists. split; [exact SEC|]. split; [reflexivity|].
    cbn [mr_collides mr_ref_md mr_ref_nev mr_off_index mr_off_md mr_off_nev mr_distance_cc mr_sf mr_calc_hole mr_ref_pcr mr_off_pcr].
    split; [reflexivity|]. split; [lra|]. split; [eapply on_interp; eauto|].
    split. { intros y Y. assert (Y' : y = interpolate_pos_nev p a b ((st_md b - st_md a) / 2)).
      { eapply on_unique; [exact Y|]. unfold mid. eapply on_interp; eauto. lra. }
      rewrite Y'. unfold dist. fold (fn xr). fold (fn ((st_md b - st_md a) / 2)). lra. }
    split; [exists o; auto|]. split; [exists k, u, v; auto|]. split; [exact ON|]. split; [exact MINS|].
    split; [rewrite dist_comm; reflexivity|]. split; [rewrite (dist_comm (an_ref _)); reflexivity|].
    exists ri. split; [reflexivity|]. exists rj. split; [exact RJ|]. split; [reflexivity|]. split; [rewrite W2; reflexivity|]. rewrite F. reflexivity. }
  destruct (Nat.ltb_spec 0 j) as [J0|J0], (Nat.ltb_spec j (length (sv_rows off) - 1)) as [J1|J1]; try lia.
  - destruct (closest_off opt off j pos BO SO NO NW ltac:(lia)) as (s1 & q1 & x1 & f1 & a1 & b1 & E1 & C1 & A1 & B1 & X1 & O1 & F1 & M1).
    destruct (closest_off opt off (j - 1) pos BO SO NO NW ltac:(lia)) as (s0 & q0 & x0 & f0 & a0 & b0 & E0 & C0 & A0 & B0 & X0 & O0 & F0 & M0).
    rewrite E1, C1, E0, C0, (MDN _ _ A1), (MDN _ _ A0). replace (S (j - 1))%nat with j in B0 by lia.
    assert (EB : b0 = a1) by congruence. subst b0.
    destruct (Rlt_dec f0 f1) as [Lt|Ge].
    + destruct (FINISH q0 (st_md a0 + x0) f0 (j - 1)%nat a0 a1) as (m & G); auto; try lra; [right; lia|replace (S (j - 1))%nat with j by lia; exact A1| |exists m; exact G].
      intros k u v y [->|AD] U V Y.
      * assert (u = a1) by congruence. assert (v = b1) by congruence. subst u v. specialize (M1 y Y). lra.
      * assert (k = (j - 1)%nat) by lia. subst k. replace (S (j - 1))%nat with j in V by lia. assert (u = a0) by congruence. assert (v = a1) by congruence. subst u v. exact (M0 y Y).
    + destruct (FINISH q1 (st_md a1 + x1) f1 j a1 b1) as (m & G); auto; try lra; [left; reflexivity| |exists m; exact G].
      intros k u v y [->|AD] U V Y.
      * assert (u = a1) by congruence. assert (v = b1) by congruence. subst u v. exact (M1 y Y).
      * assert (k = (j - 1)%nat) by lia. subst k. replace (S (j - 1))%nat with j in V by lia. assert (u = a0) by congruence. assert (v = a1) by congruence. subst u v. specialize (M0 y Y). lra.
  - destruct (closest_off opt off (j - 1) pos BO SO NO NW ltac:(lia)) as (s0 & q0 & x0 & f0 & a0 & b0 & E0 & C0 & A0 & B0 & X0 & O0 & F0 & M0).
    rewrite E0, C0, (MDN _ _ A0). 
    destruct (FINISH q0 (st_md a0 + x0) f0 (j - 1)%nat a0 b0) as (m & G); auto; try lra; [right; lia| |exists m; exact G].
    intros k u v y [->|AD] U V Y.
    + exfalso. assert (S j < length (sv_rows off))%nat by (apply nth_error_Some; congruence). lia.
    + assert (k = (j - 1)%nat) by lia. subst k. assert (u = a0) by congruence. assert (v = b0) by congruence. subst u v. exact (M0 y Y).
  - destruct (closest_off opt off j pos BO SO NO NW ltac:(lia)) as (s1 & q1 & x1 & f1 & a1 & b1 & E1 & C1 & A1 & B1 & X1 & O1 & F1 & M1).
    rewrite E1, C1, (MDN _ _ A1).
    destruct (FINISH q1 (st_md a1 + x1) f1 j a1 b1) as (m & G); auto; try lra; [left; reflexivity| |exists m; exact G].
    intros k u v y [->|AD] U V Y.
    + assert (u = a1) by congruence. assert (v = b1) by congruence. subst u v. exact (M1 y Y).
    + lia.
Qed.
