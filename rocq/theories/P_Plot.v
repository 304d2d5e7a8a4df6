(** Proofs about what a plot adds to a scene. *)
Require Import Reals ZArith Bool String List Lra Lia.
Require Import Verif.Base Verif.NumPy Verif.M_Utils Verif.M_Survey Verif.M_Mesh Verif.M_Plot Verif.Spec_Plot Verif.P_Survey3 Verif.P_Survey4 Verif.P_Survey2.
Import ListNotations.
Open Scope list_scope.
Local Open Scope nat_scope.

Lemma truthy_coloured colors i : coloured colors i (truthy (if Nat.ltb i (length colors) then nth_error colors i else None)).
Proof.
  unfold coloured. destruct (Nat.ltb_spec i (length colors)) as [L|L].
  - destruct (nth_error colors i) as [t|] eqn:E; [|apply nth_error_None in E; lia]. cbn [truthy].
    destruct (String.eqb_spec t "") as [->|N]; [right|left; exists t; auto]. split; [|reflexivity]. intros u H. injection H as <-. reflexivity.
  - right. split; [|reflexivity]. intros t H. assert (nth_error colors i <> None) as Z by congruence. apply nth_error_Some in Z. lia.
Qed.
Lemma first_coloured colors : coloured colors 0 (truthy (match colors with [] => None | c :: _ => Some c end)).
Proof. pose proof (truthy_coloured colors 0) as H. destruct colors as [|c r]; exact H. Qed.
Definition made (x : item) : nat := match x with AThing _ => 0 | _ => 1 end.
Lemma add_one g x c s h s' h' : plotter_add g x c s h = (s', h') -> exists a, sc_actors s' = sc_actors s ++ [a] /\ drawn_as g c x a /\
  sc_wells s' = sc_wells s ++ wells_of [x] /\ ids [a] = seq (sh_next h) (made x) /\ sh_next h' = (sh_next h + made x)%nat /\
  (forall o, sh_mesh h' o = if existsb (fun y => match y with AWell o' => Nat.eqb o o' | _ => false end) [x] then Some (sh_next h) else sh_mesh h o).
Proof.
  destruct x as [o|v f|y]; cbn; intros H; injection H as <- <-; eexists; (split; [reflexivity|]); (split; [constructor|]); cbn.
  - split; [reflexivity|]. split; [reflexivity|]. split; [lia|]. intros o'. unfold set_mesh. destruct (Nat.eqb o' o); reflexivity.
  - split; [rewrite app_nil_r; reflexivity|]. split; [reflexivity|]. split; [lia|]. reflexivity.
  - split; [rewrite app_nil_r; reflexivity|]. split; [reflexivity|]. split; [lia|]. reflexivity.
Qed.
Definition total (l : list item) : nat := list_sum (map made l).
(** all items: the actors [l'] added for [l] from number [i] on *)
Lemma add_many g colors : forall l i s h s' h', add_all g colors i l s h = (s', h') -> exists l', sc_actors s' = sc_actors s ++ l' /\ length l' = length l /\
  (forall j x, nth_error l j = Some x -> exists a c, nth_error l' j = Some a /\ coloured colors (i + j) c /\ drawn_as g c x a) /\
  sc_wells s' = sc_wells s ++ wells_of l /\ ids l' = seq (sh_next h) (total l) /\ sh_next h' = (sh_next h + total l)%nat /\
  (forall o, (~ In (AWell o) l -> sh_mesh h' o = sh_mesh h o) /\
     forall j, last_place l o j -> exists id v f c, nth_error l' j = Some (VedoMesh id v f c) /\ sh_mesh h' o = Some id).
Proof.
  induction l as [|x l IH]; intros i s h s' h' H.
  - cbn in H. injection H as <- <-. exists []. rewrite !app_nil_r. split; [reflexivity|]. split; [reflexivity|].
    split; [intros [|j] x E; discriminate|]. split; [cbn; rewrite ?app_nil_r; reflexivity|]. split; [reflexivity|]. split; [cbn; lia|].
    intros o. split; [reflexivity|]. intros [|j] [E _]; discriminate.
  - cbn [add_all] in H. set (c0 := truthy (if Nat.ltb i (length colors) then nth_error colors i else None)) in *.
    assert (C0 : coloured colors i c0) by apply truthy_coloured. clearbody c0.
    destruct (plotter_add g x c0 s h) as [s1 h1] eqn:E1. destruct (add_one _ _ _ _ _ _ _ E1) as (a & A1 & D1 & W1 & I1 & N1 & M1).
    destruct (IH _ _ _ _ _ H) as (l' & A & L & D & W & I & N & M). exists (a :: l').
    split; [rewrite A, A1, <- app_assoc; reflexivity|]. split; [cbn; congruence|].
    split. { intros [|j] y E; cbn in E. { injection E as <-. exists a, c0. rewrite Nat.add_0_r. auto. }
      destruct (D j y E) as (b & c & B1 & B2 & B3). exists b, c. rewrite <- Nat.add_succ_comm. auto. }
    split. { rewrite W, W1, <- app_assoc. change (wells_of (x :: l)) with (wells_of ([x] ++ l)). unfold wells_of. rewrite flat_map_app. reflexivity. }
    assert (T : total (x :: l) = (made x + total l)%nat) by reflexivity.
    split. { change (ids (a :: l')) with (ids ([a] ++ l')). unfold ids. rewrite flat_map_app. fold (ids [a]) (ids l'). rewrite I1, I, N1, T, seq_app. reflexivity. }
    split; [rewrite N, N1, T; lia|].
    intros o. destruct (M o) as [M2 M3]. split.
    + intros NI. rewrite M2 by (intros K; apply NI; right; exact K). rewrite M1. cbn. destruct x as [o'| |]; try reflexivity.
      destruct (Nat.eqb_spec o o') as [->|]; [exfalso; apply NI; left; reflexivity|reflexivity].
    + intros [|j] [E G].
      * cbn in E. injection E as ->. inversion D1; subst. do 4 eexists. split; [reflexivity|].
        rewrite M2. { rewrite M1. cbn. rewrite Nat.eqb_refl. cbn. cbn in I1. injection I1 as ->. reflexivity. }
        intros K. apply In_nth_error in K. destruct K as [q K]. specialize (G (S q) K). lia.
      * cbn in E. apply (M3 j). split; [exact E|]. intros q K. specialize (G (S q) K). lia.
Qed.
Lemma one_many g x colors h : plotter_add g x (truthy (match colors with [] => None | c :: _ => Some c end)) (mkScene [] []) h = add_all g colors 0 [x] (mkScene [] []) h.
Proof.
  cbn [add_all]. replace (if Nat.ltb 0 (length colors) then nth_error colors 0 else None) with (match colors with [] => None | c :: _ => Some c end) by (destruct colors; reflexivity).
  destruct (plotter_add g x _ (mkScene [] []) h). reflexivity.
Qed.
Lemma plot_many g data colors lines arrows h s h' : plot g data colors lines arrows h = (s, h') -> exists s0, add_all g colors 0 (items data) (mkScene [] []) h = (s0, h') /\
  sc_actors s = sc_actors s0 ++ extra lines ++ extra arrows /\ sc_wells s = sc_wells s0.
Proof.
  unfold plot. intros H. assert (E : match data with Many l => add_all g colors 0 l (mkScene [] []) h
    | One x => plotter_add g x (truthy (match colors with [] => None | c :: _ => Some c end)) (mkScene [] []) h end = add_all g colors 0 (items data) (mkScene [] []) h).
  { destruct data; [reflexivity|apply one_many]. }
  rewrite E in H. destruct (add_all g colors 0 (items data) (mkScene [] []) h) as [s0 h0]. injection H as <- <-. exists s0. split; [reflexivity|].
  destruct lines, arrows; cbn; rewrite <- ?app_assoc, ?app_nil_r; auto.
Qed.
Lemma plot_scene : forall geometry data colors lines arrows h s h', plot geometry data colors lines arrows h = (s, h') -> exists l,
  sc_actors s = l ++ extra lines ++ extra arrows /\ length l = length (items data) /\
  (forall i x, nth_error (items data) i = Some x -> exists a c, nth_error l i = Some a /\ coloured colors i c /\ drawn_as geometry c x a) /\
  NoDup (ids l) /\ sc_wells s = wells_of (items data) /\
  forall o i, last_place (items data) o i -> exists id v f c, nth_error l i = Some (VedoMesh id v f c) /\ sh_mesh h' o = Some id.
Proof.
  intros g data colors lines arrows h s h' H. destruct (plot_many _ _ _ _ _ _ _ _ H) as (s0 & E & A0 & W0).
  destruct (add_many _ _ _ _ _ _ _ _ E) as (l & A & L & D & W & I & N & M). exists l. cbn in A, W.
  split; [rewrite A0, A; reflexivity|]. split; [exact L|]. split; [exact D|]. split; [rewrite I; apply seq_NoDup|]. split; [rewrite W0; exact W|].
  intros o i. apply (M o).
Qed.
Lemma ids_old g data colors lines arrows h s h' : plot g data colors lines arrows h = (s, h') ->
  (forall i, In i (ids (sc_actors s)) -> sh_next h <= i < sh_next h') /\ (sh_next h <= sh_next h') /\
  (forall o, In (AWell o) (items data) -> exists m, sh_mesh h' o = Some m /\ In m (ids (sc_actors s))) /\
  forall o, ~ In (AWell o) (items data) -> sh_mesh h' o = sh_mesh h o.
Proof.
  intros H. destruct (plot_many _ _ _ _ _ _ _ _ H) as (s0 & E & A0 & W0).
  destruct (add_many _ _ _ _ _ _ _ _ E) as (l & A & L & D & W & I & N & M). cbn in A.
  assert (IE : ids (sc_actors s) = ids l).
  { rewrite A0, A. unfold ids. rewrite !flat_map_app. assert (X : forall t, flat_map (fun a => match a with VedoMesh i _ _ _ => [i] | Thing _ => [] end) (extra t) = []) by (intros [?|]; reflexivity).
    rewrite !X, !app_nil_r. reflexivity. }
  rewrite IE, I. split; [intros i K; apply in_seq in K; lia|]. split; [lia|]. split; [|intros o; apply (M o)].
  intros o K. assert (LP : exists i, last_place (items data) o i).
  { clear - K. induction (items data) as [|x r IH]; [destruct K|].
    assert (DEC : In (AWell o) r \/ ~ In (AWell o) r). { clear. induction r as [|y r IH]; [right; intros []|]. destruct IH as [Y|Y]; [left; right; exact Y|].
      destruct y as [o'| |]; [destruct (Nat.eq_dec o' o) as [->|F]; [left; left; reflexivity|]| |]; right; intros [Q|Q]; auto; try discriminate. injection Q as Q. auto. }
    destruct DEC as [Y|Y].
    - destruct (IH Y) as (i & P1 & P2). exists (S i). split; [exact P1|]. intros [|j] Q; [lia|]. specialize (P2 j Q). lia.
    - exists 0. destruct K as [->|K]; [|contradiction]. split; [reflexivity|]. intros [|j] Q; [lia|]. exfalso. apply Y. apply (nth_error_In r j Q). }
  destruct LP as (i & LP). destruct (proj2 (M o) i LP) as (id & v & f & c & P1 & P2). exists id. split; [exact P2|].
  rewrite <- I. apply nth_error_In in P1. unfold ids. apply in_flat_map. exists (VedoMesh id v f c). split; [exact P1|left; reflexivity].
Qed.
Lemma seen_all : forall geometry data colors lines arrows h s h', plot geometry data colors lines arrows h = (s, h') ->
  seen s h' (ids (sc_actors s)) = wells_of (items data).
Proof.
  intros g data colors lines arrows h s h' H. destruct (ids_old _ _ _ _ _ _ _ _ H) as (_ & _ & M & _).
  destruct (plot_scene _ _ _ _ _ _ _ _ H) as (_ & _ & _ & _ & _ & W & _). unfold seen. rewrite W.
  assert (K : forall o, In o (wells_of (items data)) -> match sh_mesh h' o with Some m => existsb (Nat.eqb m) (ids (sc_actors s)) | None => false end = true).
  { intros o O. unfold wells_of in O. apply in_flat_map in O. destruct O as ([o'| |] & O1 & O2); [|destruct O2|destruct O2]. destruct O2 as [->|[]].
    destruct (M o O1) as (m & -> & IM). apply existsb_exists. exists m. split; [exact IM|apply Nat.eqb_refl]. }
  clear W M. induction (wells_of (items data)) as [|o r IH]; [reflexivity|]. cbn [filter]. rewrite (K o (or_introl eq_refl)). f_equal. apply IH. intros o' O'. apply K. right. exact O'.
Qed.
Lemma seen_after : forall geometry data colors lines arrows data2 colors2 lines2 arrows2 h s h1 s2 h2, plot geometry data colors lines arrows h = (s, h1) ->
  plot geometry data2 colors2 lines2 arrows2 h1 = (s2, h2) ->
  forall o, In o (seen s h2 (ids (sc_actors s))) <-> In (AWell o) (items data) /\ ~ In (AWell o) (items data2).
Proof.
  intros g data colors lines arrows data2 colors2 lines2 arrows2 h s h1 s2 h2 H H2 o.
  destruct (ids_old _ _ _ _ _ _ _ _ H) as (R1 & N1 & M1 & K1). destruct (ids_old _ _ _ _ _ _ _ _ H2) as (R2 & N2 & M2 & K2).
  destruct (plot_scene _ _ _ _ _ _ _ _ H) as (_ & _ & _ & _ & _ & W & _). unfold seen. rewrite W, filter_In.
  assert (IW : In o (wells_of (items data)) <-> In (AWell o) (items data)).
  { unfold wells_of. rewrite in_flat_map. split; [intros ([o'| |] & O1 & O2); [|destruct O2|destruct O2]; destruct O2 as [->|[]]; exact O1|intros O; exists (AWell o); split; [exact O|left; reflexivity]]. }
  rewrite IW. split.
  - intros [O E]. split; [exact O|]. intros O2. destruct (M2 o O2) as (m & EM & IM). rewrite EM in E. apply existsb_exists in E. destruct E as (i & I1 & I2). apply Nat.eqb_eq in I2. subst i.
    specialize (R1 m I1). specialize (R2 m IM). lia.
  - intros [O NO]. split; [exact O|]. rewrite (K2 o NO). destruct (M1 o O) as (m & -> & IM). apply existsb_exists. exists m. split; [exact IM|apply Nat.eqb_refl].
Qed.
Lemma nth_combine (A B : Type) : forall (l : list A) (k : list B) i a b, nth_error l i = Some a -> nth_error k i = Some b -> nth_error (combine l k) i = Some (a, b).
Proof.
  induction l as [|x l IH]; intros [|y k] [|i] a b H K; cbn in *; try discriminate; [congruence|]. apply IH; assumption.
Qed.
Lemma panel_spec : forall s a out, panel s a = Some out -> length (fst (survey_vertical_section s (match a with Some x => x | None => 0%R end))) = length (sv_nev s) ->
  exists x, a = Some x /\ fst out = (x * (180 / PI))%R /\ length (snd out) = 4 /\
  forall row col, In row [1; 2] -> In col [1; 2] -> exists t, In t (snd out) /\ tr_row t = row /\ tr_col t = col /\ length (tr_points t) = length (sv_nev s) /\
    forall i p v, nth_error (sv_nev s) i = Some p -> nth_error (fst (survey_vertical_section s x)) i = Some v ->
      nth_error (tr_points t) i = Some (shown_at row col v p).
Proof.
  intros s [x|] out H L; [|discriminate]. unfold panel in H. cbv zeta in H. remember (fst (survey_vertical_section s x)) as sec eqn:ES. injection H as <-. exists x. split; [reflexivity|]. split; [cbn [fst]; unfold degrees; try reflexivity; field; apply PI_neq0|]. split; [reflexivity|].
  cbn [snd]. intros row col [<-|[<-|[]]] [<-|[<-|[]]].
  - eexists. split; [left; reflexivity|]. split; [reflexivity|]. split; [reflexivity|]. cbn [tr_points]. split; [apply map_length|]. intros i p v P _. rewrite nth_error_map, P. reflexivity.
  - eexists. split; [right; left; reflexivity|]. split; [reflexivity|]. split; [reflexivity|]. cbn [tr_points].
    split; [etransitivity; [apply combine_length|rewrite map_length]; lia|]. intros i p v P V. rewrite <- ES in V. apply nth_combine; [exact V|]. rewrite nth_error_map, P. reflexivity.
  - eexists. split; [right; right; right; left; reflexivity|]. split; [reflexivity|]. split; [reflexivity|]. cbn [tr_points]. split; [apply map_length|]. intros i p v P _. rewrite nth_error_map, P. reflexivity.
  - eexists. split; [right; right; left; reflexivity|]. split; [reflexivity|]. split; [reflexivity|]. cbn [tr_points]. split; [apply map_length|]. intros i p v P _. rewrite nth_error_map, P. reflexivity.
Qed.
Lemma panel_views : forall h rows deg sx sn unit s a out, Survey h rows deg sx sn unit = Some s -> panel s a = Some out ->
  exists x, a = Some x /\ fst out = (x * (180 / PI))%R /\ length (snd out) = 4%nat /\
  forall row col, In row [1; 2]%nat -> In col [1; 2]%nat -> exists t, In t (snd out) /\ tr_row t = row /\ tr_col t = col /\ length (tr_points t) = length (sv_nev s) /\
    forall i p, nth_error (sv_nev s) i = Some p -> exists v, nth_error (fst (survey_vertical_section s x)) i = Some v /\
      nth_error (tr_points t) i = Some (shown_at row col v p).
Proof.
  intros h rows deg sx sn unit s a out HS H.
  assert (L : forall x, length (fst (survey_vertical_section s x)) = length (sv_nev s)).
  { intros x. destruct (vs_survey_first _ _ _ _ _ _ _ x HS) as [L _]. rewrite L. destruct (Survey_xyz_len _ _ _ _ _ _ _ HS) as [_ L2]. rewrite L2, (Survey_rows _ _ _ _ _ _ _ HS), map_length. reflexivity. }
  destruct (panel_spec s a out H (L _)) as (x & A & B & C & D). exists x. split; [exact A|]. split; [exact B|]. split; [exact C|].
  intros row col R1 C1. destruct (D row col R1 C1) as (t & T1 & T2 & T3 & T4 & T5). exists t. repeat (split; [assumption|]).
  intros i p P. destruct (nth_error (fst (survey_vertical_section s x)) i) as [v|] eqn:V.
  - exists v. split; [reflexivity|]. apply T5; assumption.
  - exfalso. apply nth_error_None in V. rewrite L in V. assert (nth_error (sv_nev s) i <> None) as Z by congruence. apply nth_error_Some in Z. lia.
Qed.
