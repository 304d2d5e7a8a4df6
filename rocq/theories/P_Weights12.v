(** When the weight functions can be evaluated, their propagation, and the totals of a tool model. *)
Require Import Reals ZArith Lra Psatz Lia Bool String List.
Require Import Verif.Base Verif.NumPy Verif.M_Utils Verif.M_Error Verif.Spec Verif.Spec_Error Verif.M_Weights Verif.Spec_Weights.
Require Import Verif.P_Error Verif.P_Error2 Verif.P_Weights Verif.P_Weights2 Verif.P_Weights3 Verif.P_Weights4
  Verif.P_Weights5 Verif.P_Weights6 Verif.P_Weights7 Verif.P_Weights8 Verif.P_Weights9 Verif.P_Weights10 Verif.P_Weights11.
Import ListNotations.
Local Open Scope R_scope.

(** [e] comes out of _generate_error with arrays of the right length that begin with zeros *)
Definition generated (rev4 : bool) (l : list wstation) (code p : string) (e : error) : Prop :=
  exists ed given, generate_error (drdp rev4 (map survey_rad l)) code ed p given = Some e /\
  match given with
  | None => length ed = length l
  | Some (a, b) => length a = length l /\ length b = length l /\
                   nth_error a 0 = Some vzero /\ nth_error b 0 = Some vzero
  end.
Lemma simple_generated : forall w rev4 h l code mag p e, simple_error w rev4 h l code mag p = Made e ->
  generated rev4 l code p e.
Proof.
  intros w rev4 h l code mag p e H. unfold simple_error in H.
  destruct (seq_opt (map (w h) l)) as [d|] eqn:E; [|discriminate]. apply of_generate_made in H.
  exists (map (vscale mag) d), None. split; auto.
  destruct (seq_opt_nth _ _ _ E) as [L _]. rewrite map_length, L, map_length. reflexivity.
Qed.
Lemma replace_first : forall h l a b, (0 < length l)%nat -> nth_error a 0 = Some vzero -> nth_error b 0 = Some vzero ->
  nth_error (replace_sing h l a b) 0 = Some vzero.
Proof.
  intros h [|s l] a b L A B; [cbn in L; lia|].
  rewrite (replace_sing_nth h (s :: l) a b 0 s vzero vzero) by auto. destruct (is_sing h s); reflexivity.
Qed.
Lemma e_NEV_first : forall rev4 l ed, (0 < length l)%nat -> length ed = length l ->
  nth_error (e_NEV (drdp rev4 (map survey_rad l)) ed) 0 = Some vzero /\
  nth_error (e_NEV_star (drdp rev4 (map survey_rad l)) ed) 0 = Some vzero.
Proof.
  intros rev4 l ed L E. destruct (e_NEV_length rev4 (map survey_rad l) ed) as [A B]; rewrite ?map_length; auto.
  rewrite map_length in A, B.
  destruct (nth_error (e_NEV (drdp rev4 (map survey_rad l)) ed) 0) as [v|] eqn:V; [|apply nth_error_None in V; lia].
  destruct (nth_error (e_NEV_star (drdp rev4 (map survey_rad l)) ed) 0) as [u|] eqn:U; [|apply nth_error_None in U; lia].
  rewrite (first_rows_zero _ _ _ _ V), (first_rows_zero' _ _ _ _ U). auto.
Qed.
Lemma given_generated : forall rev4 h l code ed p sg st e, (0 < length l)%nat -> length ed = length l ->
  (length l <= length sg)%nat -> (length l <= length st)%nat ->
  nth_error sg 0 = Some vzero -> nth_error st 0 = Some vzero ->
  let d := drdp rev4 (map survey_rad l) in
  given_error rev4 l code ed p (replace_sing h l (e_NEV d ed) sg, replace_sing h l (e_NEV_star d ed) st) = Made e ->
  generated rev4 l code p e.
Proof.
  intros rev4 h l code ed p sg st e L E L1 L2 Z1 Z2 d H. apply of_generate_made in H.
  exists ed. eexists. split; [exact H|].
  destruct (e_NEV_length rev4 (map survey_rad l) ed) as [A B]; rewrite ?map_length; auto. rewrite map_length in A, B.
  destruct (e_NEV_first rev4 l ed L E) as [F1 F2].
  split; [apply replace_sing_length; auto|]. split; [apply replace_sing_length; auto|].
  split; apply replace_first; auto.
Qed.
Lemma sing_generated : forall w sg st rev4 h l code mag p e, (0 < length l)%nat ->
  (length l <= length sg)%nat -> (length l <= length st)%nat ->
  nth_error sg 0 = Some vzero -> nth_error st 0 = Some vzero ->
  sing_error w sg st rev4 h l code mag p = Made e -> generated rev4 l code p e.
Proof.
  intros w sg st rev4 h l code mag p e L L1 L2 Z1 Z2 H. unfold sing_error in H.
  destruct (seq_opt (map (w h) l)) as [d|] eqn:E; [|discriminate].
  destruct (existsb (is_sing h) l).
  - eapply given_generated; [exact L| |exact L1|exact L2|exact Z1|exact Z2|exact H]. rewrite map_length. destruct (seq_opt_nth _ _ _ E) as [Q _]. rewrite Q, map_length. reflexivity.
  - eapply simple_generated; eauto.
Qed.
Lemma vstacked_ge : forall f l, (length l <= length (vstacked f l))%nat.
Proof. intros. unfold vstacked. cbn [length]. rewrite app_length, triplewise_length. cbn. lia. Qed.
Lemma ab_first : forall h l mag sp, nth_error (ab_sing h l mag sp) 0 = Some vzero /\ nth_error (ab_star h l mag sp) 0 = Some vzero /\
  (length l <= length (ab_sing h l mag sp))%nat /\ (length l <= length (ab_star h l mag sp))%nat.
Proof.
  intros h l mag sp. unfold ab_sing, ab_star. destruct sp.
  - rewrite !set_nth_other, !set_nth_length by lia. do 2 (split; [reflexivity|]). split; apply vstacked_ge.
  - do 2 (split; [reflexivity|]). split; apply vstacked_ge.
Qed.
Lemma ab_generated : forall w sp rev4 h l code mag p e, (0 < length l)%nat ->
  ab_error w sp rev4 h l code mag p = Made e -> generated rev4 l code p e.
Proof.
  intros w sp rev4 h l code mag p e L H. unfold ab_error in H.
  destruct (existsb (is_sing h) l); [|eapply simple_generated; eauto].
  destruct (sp && Nat.ltb (length l) 3)%bool; [discriminate|]. destruct (Req_EM_T (h_G h) 0); [discriminate|].
  destruct (ab_first h l mag sp) as (A & B & C & D). eapply sing_generated; [exact L|exact C|exact D|exact A|exact B|exact H].
Qed.
Lemma plain_generated : forall rev4 l code ed p e, length ed = length l ->
  of_generate (generate_error (drdp rev4 (map survey_rad l)) code ed p None) = Made e -> generated rev4 l code p e.
Proof. intros. apply of_generate_made in H0. exists ed, None. auto. Qed.

Definition propagated (func p : string) : string :=
  if string_dec func "XYM2" then "systematic" else if string_dec func "XYM4L" then "random" else p.
Lemma xym3e_generated : forall rev4 h l code mag p e, XYM3E rev4 h l code mag p = Made e -> generated rev4 l code p e.
Proof.
  intros rev4 h l code mag p e H. unfold XYM3E in H.
  destruct (Nat.ltb_spec (length l) 2) as [L2|L2]; [discriminate|].
  destruct (coeffs l) as [cs|] eqn:C; [|discriminate]. cbn [bind] in H.
  destruct (seq_opt (map2 (w_XYM3E h) (tl l) cs)) as [rows|] eqn:Q; [|discriminate].
  assert (Lc := coeffs_length _ _ C).
  assert (Lt : length (tl l) = (length l - 1)%nat) by (destruct l; cbn; lia).
  assert (Lr : length rows = length (tl l)) by (eapply rows_length; eauto; lia).
  cbv zeta in H. set (ED := map (vscale mag) (vzero :: rows)) in *.
  assert (LE : length ED = length l) by (unfold ED; rewrite map_length; cbn; lia). clearbody ED.
  destruct (e_NEV_length rev4 (map survey_rad l) ED) as [A B]; rewrite ?map_length; auto; try lia. rewrite map_length in A, B.
  destruct (e_NEV_first rev4 l ED) as [F1 F2]; auto; try lia.
  destruct (existsb (is_sing h) l).
  - eapply given_generated; [| |  |  |  |  | exact H]; rewrite ?map_length; try lia.
    + rewrite map_nth_error', F1. reflexivity.
    + rewrite map_nth_error', F2. reflexivity.
  - eapply plain_generated; [exact LE|exact H].
Qed.
Lemma generated_rows : forall rev4 l code p e, (0 < length l)%nat -> generated rev4 l code p e ->
  length (er_e_NEV e) = length l /\ length (er_e_NEV_star e) = length l /\
  nth_error (er_e_NEV e) 0 = Some vzero /\ nth_error (er_e_NEV_star e) 0 = Some vzero.
Proof.
  intros rev4 l code p e L (ed & [[a b]|] & G & Q); apply generate_cases in G; destruct G as [_ [_ [E _]]]; injection E as -> ->.
  - tauto.
  - destruct (e_NEV_length rev4 (map survey_rad l) ed) as [A B]; rewrite ?map_length; auto; try lia. rewrite map_length in A, B.
    destruct (e_NEV_first rev4 l ed); auto.
Qed.
Lemma call_generated : forall az t rev4 h l code func mag p e, (0 < length l)%nat ->
  call_func az t rev4 h l code func mag p = Made e -> generated rev4 l code (propagated func p) e.
Proof.
  intros az t rev4 h l code func mag p e L H. unfold call_func in H.
  destruct (lookup func simple_weights) as [w|] eqn:LK.
  - assert (P : propagated func p = p).
    { unfold propagated. destruct (string_dec func "XYM2") as [->|]; [discriminate|].
      destruct (string_dec func "XYM4L") as [->|]; [discriminate|]. reflexivity. }
    rewrite P. eapply simple_generated; eauto.
  - unfold propagated.
    repeat match type of H with
    | (if String.eqb func ?s then _ else _) = _ =>
        destruct (String.eqb_spec func s) as [->|]; [cbn [string_dec] in *|]
    end; try discriminate;
    repeat match goal with |- context [if string_dec ?a ?b then _ else _] =>
       let N := fresh in destruct (string_dec a b) as [N|N]; [try discriminate N; clear N|try (exfalso; apply N; reflexivity)] end;
    try contradiction.
    + eapply simple_generated; eauto.
    + eapply sing_generated; [exact L| | | | |exact H]; try apply vstacked_ge; reflexivity.
    + eapply sing_generated; [exact L| | | | |exact H]; try apply vstacked_ge; reflexivity.
    + eapply ab_generated; eauto.
    + eapply ab_generated; eauto.
    + unfold XCL in H.
      assert (X : exists f, xcl_error (pairwise f l) rev4 l code mag p = Made e).
      { destruct (String.eqb code "XCLA"); eexists; exact H. }
      destruct X as [f X]. destruct (xcl_rows _ _ _ _ _ _ _ X) as (S & LL & Z & _).
      destruct l as [|s l]; [cbn in L; lia|].
      apply of_generate_made in X. eexists. eexists. split; [exact X|].
      apply generate_cases in X. destruct X as [_ [_ [E _]]].
      assert (E1 := f_equal fst E). cbn [fst] in E1. rewrite <- E1.
      split; [exact LL|split; [exact LL|]]. rewrite (Z s eq_refl). auto.
    + unfold XCLA in H. rename H into X. destruct (xcl_rows _ _ _ _ _ _ _ X) as (S & LL & Z & _).
      destruct l as [|s l]; [cbn in L; lia|].
      apply of_generate_made in X. eexists. eexists. split; [exact X|].
      apply generate_cases in X. destruct X as [_ [_ [E _]]].
      assert (E1 := f_equal fst E). cbn [fst] in E1. rewrite <- E1.
      split; [exact LL|split; [exact LL|]]. rewrite (Z s eq_refl). auto.
    + unfold XCLH in H. rename H into X. destruct (xcl_rows _ _ _ _ _ _ _ X) as (S & LL & Z & _).
      destruct l as [|s l]; [cbn in L; lia|].
      apply of_generate_made in X. eexists. eexists. split; [exact X|].
      apply generate_cases in X. destruct X as [_ [_ [E _]]].
      assert (E1 := f_equal fst E). cbn [fst] in E1. rewrite <- E1.
      split; [exact LL|split; [exact LL|]]. rewrite (Z s eq_refl). auto.
    + unfold XYM3L in H. destruct (Nat.ltb_spec (length l) 2) as [L2|L2]; [discriminate|].
      destruct (coeffs l) as [cs|] eqn:C; [|discriminate].
      destruct (seq_opt (map2 w_XYM3L (tl l) cs)) as [rows|] eqn:Q; [|discriminate].
      assert (Lc := coeffs_length _ _ C).
      assert (Lt : length (tl l) = (length l - 1)%nat) by (destruct l; cbn; lia).
      assert (Lr : length rows = length (tl l)) by (eapply rows_length; eauto; lia).
      cbv zeta in H. set (ED := map (vscale mag) (nth 0 rows vzero :: rows)) in *.
      assert (LE : length ED = length l) by (unfold ED; rewrite map_length; cbn; lia). clearbody ED.
      destruct (existsb (is_sing h) l).
      * destruct (Nat.ltb_spec (length l) 3) as [L3|L3]; [discriminate|].
        destruct (long_length on_north l cs (nth 1 cs 0) mag L3 Lc) as [S1 S2].
        eapply given_generated; [| |  |  |  |  | exact H]; try lia; unfold long_sing, long_star; rewrite !set_nth_other by lia; reflexivity.
      * eapply plain_generated; [exact LE|exact H].
    + unfold XYM4L in H.
      destruct (coeffs l) as [cs|] eqn:C; [|discriminate].
      destruct (seq_opt (map2 w_XYM4L l (1 :: cs))) as [rows|] eqn:Q; [|discriminate].
      assert (Lc := coeffs_length _ _ C).
      assert (Lr : length rows = length l) by (eapply rows_length; eauto; cbn; lia).
      cbv zeta in H. set (ED := map (vscale mag) rows) in *.
      assert (LE : length ED = length l) by (unfold ED; rewrite map_length; cbn; lia). clearbody ED.
      destruct (existsb (is_sing h) l).
      * destruct (Nat.ltb_spec (length l) 3) as [L3|L3]; [discriminate|].
        destruct (long_length on_east l cs (nth 0 cs 0) mag L3 Lc) as [S1 S2].
        eapply given_generated; [| |  |  |  |  | exact H]; try lia; unfold long_sing, long_star; rewrite !set_nth_other by lia; reflexivity.
      * eapply plain_generated; [exact LE|exact H].
    + eapply xym3e_generated; eauto.
    + unfold XYM4E in H.
      destruct (Nat.ltb_spec (length l) 2) as [L2|L2]; [discriminate|].
      destruct (coeffs l) as [cs|] eqn:C; [|discriminate]. cbn [bind] in H.
      destruct (seq_opt (map2 (w_XYM4E h) (tl l) cs)) as [rows|] eqn:Q; [|discriminate].
      assert (Lc := coeffs_length _ _ C).
      assert (Lt : length (tl l) = (length l - 1)%nat) by (destruct l; cbn; lia).
      assert (Lr : length rows = length (tl l)) by (eapply rows_length; eauto; lia).
      cbv zeta in H. set (ED := map (vscale mag) (vzero :: rows)) in *.
      assert (LE : length ED = length l) by (unfold ED; rewrite map_length; cbn; lia). clearbody ED.
      destruct (existsb (is_sing h) l).
      * destruct (XYM3E rev4 h l code mag p) as [x| | |] eqn:E3; try discriminate.
        destruct (generated_rows _ _ _ _ _ L (xym3e_generated _ _ _ _ _ _ _ E3)) as (X1 & X2 & X3 & X4).
        eapply given_generated; [| |  |  |  |  | exact H]; rewrite ?map_length; try lia.
        { rewrite map_nth_error', X3. reflexivity. } { rewrite map_nth_error', X4. reflexivity. }
      * eapply plain_generated; [exact LE|exact H].
    + unfold CNA in H. destruct (existsb (is_sing h) l); [|eapply simple_generated; eauto].
      destruct (if String.eqb az "true" then Some w_azt else if String.eqb az "grid" then Some w_azg else None); [|discriminate].
      eapply sing_generated; [exact L| | | | |exact H]; try apply vstacked_ge; reflexivity.
Qed.
Lemma call_propagation : forall az t rev4 h l code func mag p e, (0 < length l)%nat ->
  call_func az t rev4 h l code func mag p = Made e ->
  er_code e = code /\
  er_propagation e = (if string_dec func "XYM2" then "systematic" else if string_dec func "XYM4L" then "random" else p)%string.
Proof.
  intros az t rev4 h l code func mag p e L H. destruct (call_generated _ _ _ _ _ _ _ _ _ _ L H) as (ed & g & G & _).
  apply generate_cases in G. destruct G as (A & B & _). auto.
Qed.
