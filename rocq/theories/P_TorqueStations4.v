(** A vertical well with a casing and a string set at the same depth. *)
Require Import Reals ZArith Bool String List Lra Lia Permutation.
Require Import Verif.Base Verif.NumPy Verif.P_Trig Verif.Spec Verif.Spec_Lists Verif.M_Utils Verif.P_Utils Verif.P_Utils2
  Verif.M_Architecture Verif.M_Survey Verif.P_Survey Verif.P_Survey2 Verif.P_Survey3 Verif.P_Survey4 Verif.P_Survey5
  Verif.P_Levels Verif.P_Levels2 Verif.P_Refine Verif.M_TorqueStations Verif.Spec_TorqueStations Verif.P_TorqueStations Verif.P_TorqueStations2 Verif.P_TorqueStations3.
Import ListNotations.
Open Scope R_scope.

Lemma vertical_some : forall unit, (unit = "meters" \/ unit = "feet")%string -> exists s, vertical unit s.
Proof.
  intros unit U. apply (Survey_total (mkHeader RefTrue 0 0 1 None unit) (map (fun a => (st_md a, st_inc a, st_azi a)) down) false vzero vzero); auto.
Qed.
Lemma vertical_rows : forall unit s, vertical unit s -> sv_rows s = down.
Proof.
  intros unit s HS. unfold vertical in HS. rewrite (Survey_rows _ _ _ _ _ _ _ HS). unfold down. cbn [map].
  cbn. repeat f_equal; lra.
Qed.
Lemma vertical_ok : forall unit s, vertical unit s ->
  strictly_increasing (map st_md (sv_rows s)) /\
  (forall i a b, nth_error (sv_rows s) i = Some a -> nth_error (sv_rows s) (S i) = Some b ->
     get_dogleg (st_inc a) (st_azi a) (st_inc b) (st_azi b) < PI) /\
  nth_error (sv_rows s) 0 = Some (mkSt 0 0 0) /\ nth_error (sv_rows s) (pred (length (sv_rows s))) = Some (mkSt 100 0 0).
Proof.
  intros unit s HS. rewrite (vertical_rows _ _ HS). split; [|split; [|split; reflexivity]].
  - unfold down. cbn. split; [lra|auto].
  - intros [|[|i]] a b A B; cbn in A, B; try discriminate; try (destruct i; discriminate). injection A as <-. injection B as <-.
    cbn [st_inc st_azi]. replace (get_dogleg 0 0 0 0) with 0; [apply PI_RGT_0|]. symmetry. apply dogleg_0_iff. reflexivity.
Qed.
Lemma sorted_unique : forall l k, never_decreasing l -> never_decreasing k -> Permutation l k -> l = k.
Proof.
  induction l as [|a l IH]; intros k A B P.
  - symmetry. apply Permutation_nil. exact P.
  - destruct k as [|b k]; [apply Permutation_sym, Permutation_nil in P; discriminate|].
    assert (LA : forall x, In x (a :: l) -> a <= x).
    { intros x X. destruct (In_nth_error _ _ X) as [i N]. apply (nd_le (a :: l) 0 i); auto. lia. }
    assert (LB : forall x, In x (b :: k) -> b <= x).
    { intros x X. destruct (In_nth_error _ _ X) as [i N]. apply (nd_le (b :: k) 0 i); auto. lia. }
    assert (a = b).
    { apply Rle_antisym; [apply LA; apply (Permutation_in _ (Permutation_sym P)); left; auto|apply LB; apply (Permutation_in _ P); left; auto]. }
    subst b. f_equal. apply IH.
    + destruct l; [exact Logic.I|apply A].
    + destruct k; [exact Logic.I|apply B].
    + eapply Permutation_cons_inv; eauto.
Qed.
Lemma set_bottoms : forall c m d c' m' d',
  map (fun x => s_bottom (snd x)) (a_sections (set_at c m d) ++ a_sections (set_at c' m' d')) = map Some [d; d'].
Proof. reflexivity. Qed.
(** both at 50: two stations at 50 *)
Lemma repeated_bottom : exists s t h', vertical "meters" s /\
  add_survey_points s (set_at WellBore TopDown 50) (set_at BHA BottomUp 50) = (inl t, h') /\
  map st_md (sv_rows t) = [0; 50; 50; 100] /\ string_index t 50 = Some 2%nat /\
  h_ref (sv_header s) = RefTrue /\ h_ref h' = RefGrid.
Proof.
  destruct (vertical_some "meters" (or_introl eq_refl)) as [s HS]. exists s.
  destruct (vertical_ok _ _ HS) as (I & B & F & L).
  destruct (merged_outcome _ _ _ _ _ _ _ (set_at WellBore TopDown 50) (set_at BHA BottomUp 50) _ _ HS I B F L) as [O G].
  assert (RE : exists bottoms, map (fun x => s_bottom (snd x)) (a_sections (set_at WellBore TopDown 50) ++ a_sections (set_at BHA BottomUp 50)) = map Some bottoms /\
     Forall (fun d => d <= st_md (mkSt 100 0 0)) bottoms).
  { exists [50; 50]. split; [reflexivity|]. repeat constructor; cbn; lra. }
  specialize (G RE). destruct (proj2 O (conj eq_refl RE)) as [t T].
  destruct (add_survey_points s (set_at WellBore TopDown 50) (set_at BHA BottomUp 50)) as [r h'] eqn:E. cbn in T, G. subst r.
  exists t, h'. split; [exact HS|]. split; [reflexivity|].
  destruct (merged_survey _ _ _ _ _ _ _ _ _ _ _ _ HS I B F L E) as (_ & ND & _ & (bs & EB & P) & _).
  rewrite set_bottoms in EB.
  assert (bs = [50; 50]).
  { destruct bs as [|b0 [|b1 [|]]]; try discriminate. cbn in EB. injection EB as <- <-. reflexivity. }
  subst bs. rewrite (vertical_rows _ _ HS) in P. unfold down in P. cbn [map st_md] in P.
  assert (A : absent [0; 100] [50; 50] = [50; 50]).
  { unfold absent. repeat match goal with |- context [in_dec ?a ?b ?c] => destruct (in_dec a b c) as [X|_]; [exfalso; cbn in X; lra|] end. reflexivity. }
  rewrite A in P. cbn [map app] in P. rewrite (Rmax_right 0 50) in P by lra.
  assert (M : map st_md (sv_rows t) = [0; 50; 50; 100]).
  { revert ND P. generalize (map st_md (sv_rows t)) as l. intros l ND P.
    assert (NE : never_decreasing [0; 50; 50; 100]) by (cbn; lra).
    apply sorted_unique; auto. rewrite P. apply perm_skip. apply (Permutation_app_comm [100] [50; 50]). }
  split; [exact M|]. split; [|split].
  - apply index_of_bottom; auto. rewrite M. exists 1%nat. split; [reflexivity|]. split; [reflexivity|].
    intros [|[|[|[|i]]]] d D; cbn in D; try (injection D as <-); [split; [lra|lia]|split; [lia|lra]|split; [lia|lra]|split; [lia|lra]|destruct i; discriminate].
  - rewrite (proj1 (proj2 (Survey_inv _ _ _ _ _ _ _ HS))). reflexivity.
  - rewrite G. reflexivity.
Qed.
(** in feet: no survey, and the caller's header is changed all the same *)
Lemma feet_fail : exists s e h', vertical "feet" s /\
  add_survey_points s (set_at WellBore TopDown 50) (set_at BHA BottomUp 80) = (inr e, h') /\
  h_ref (sv_header s) = RefTrue /\ h_ref h' = RefGrid.
Proof.
  destruct (vertical_some "feet" (or_intror eq_refl)) as [s HS]. exists s.
  destruct (vertical_ok _ _ HS) as (I & B & F & L).
  destruct (merged_outcome _ _ _ _ _ _ _ (set_at WellBore TopDown 50) (set_at BHA BottomUp 80) _ _ HS I B F L) as [O G].
  assert (RE : exists bottoms, map (fun x => s_bottom (snd x)) (a_sections (set_at WellBore TopDown 50) ++ a_sections (set_at BHA BottomUp 80)) = map Some bottoms /\
     Forall (fun d => d <= st_md (mkSt 100 0 0)) bottoms).
  { exists [50; 80]. split; [reflexivity|]. repeat constructor; cbn; lra. }
  specialize (G RE).
  destruct (add_survey_points s (set_at WellBore TopDown 50) (set_at BHA BottomUp 80)) as [[t|e] h'] eqn:E; cbn in G.
  - exfalso. destruct (proj1 O (ex_intro _ t eq_refl)) as [K _]. discriminate.
  - exists e, h'. split; [exact HS|]. split; [reflexivity|]. split; [rewrite (proj1 (proj2 (Survey_inv _ _ _ _ _ _ _ HS))); reflexivity|].
    rewrite G. reflexivity.
Qed.
