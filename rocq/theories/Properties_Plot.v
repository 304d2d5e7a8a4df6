(** C171: what plot adds to a scene; the panel figure of a survey. *)
Require Import Reals ZArith Bool String List Lra Lia.
Require Import Verif.Base Verif.NumPy Verif.M_Utils Verif.M_Survey Verif.M_Mesh Verif.M_Plot Verif.Spec_Plot.
Require Import Verif.P_Survey4 Verif.P_Plot.
Import ListNotations.
Open Scope list_scope.

(** * C171 *)
Theorem C171_scene : forall geometry data colors lines arrows h s h', plot geometry data colors lines arrows h = (s, h') -> exists l,
  sc_actors s = l ++ extra lines ++ extra arrows /\ length l = length (items data) /\
  (forall i x, nth_error (items data) i = Some x -> exists a c, nth_error l i = Some a /\ coloured colors i c /\ drawn_as geometry c x a) /\
  NoDup (ids l) /\ sc_wells s = wells_of (items data) /\
  forall o i, last_place (items data) o i -> exists id v f c, nth_error l i = Some (VedoMesh id v f c) /\ sh_mesh h' o = Some id.
Proof. exact plot_scene. Qed.
Print Assumptions C171_scene.
Theorem C171_seen : forall geometry data colors lines arrows h s h', plot geometry data colors lines arrows h = (s, h') ->
  seen s h' (ids (sc_actors s)) = wells_of (items data).
Proof. exact seen_all. Qed.
Print Assumptions C171_seen.
(** a second plot takes its wells away from the pointer of the first *)
Theorem C171_second_plot_refuted : forall geometry data colors lines arrows data2 colors2 lines2 arrows2 h s h1 s2 h2, plot geometry data colors lines arrows h = (s, h1) ->
  plot geometry data2 colors2 lines2 arrows2 h1 = (s2, h2) ->
  forall o, In o (seen s h2 (ids (sc_actors s))) <-> In (AWell o) (items data) /\ ~ In (AWell o) (items data2).
Proof. exact seen_after. Qed.
Print Assumptions C171_second_plot_refuted.
(** three items and two colours; then one of the wells again *)
Example C171_case : let g := fun _ : nat => ([] : list V3, [] : list face) in
  exists s h1 s2 h2, plot g (Many [AWell 7; AThing 3; AWell 8]) ["red"; "blue"]%string (Some 9%nat) None (mkShared (fun _ => None) 0) = (s, h1) /\
    plot g (One (AWell 7)) [] None None h1 = (s2, h2) /\
    sc_actors s = [VedoMesh 0 [] [] (Some "red"%string); Thing 3; VedoMesh 1 [] [] None; Thing 9] /\
    seen s h1 (ids (sc_actors s)) = [7%nat; 8%nat] /\ seen s h2 (ids (sc_actors s)) = [8%nat].
Proof. do 4 eexists. split; [reflexivity|]. split; [reflexivity|]. repeat split; reflexivity. Qed.
Theorem C171_panel : forall h rows deg sx sn unit s a out, Survey h rows deg sx sn unit = Some s -> panel s a = Some out ->
  exists x, a = Some x /\ fst out = (x * (180 / PI))%R /\ length (snd out) = 4%nat /\
  forall row col, In row [1; 2]%nat -> In col [1; 2]%nat -> exists t, In t (snd out) /\ tr_row t = row /\ tr_col t = col /\ length (tr_points t) = length (sv_nev s) /\
    forall i p, nth_error (sv_nev s) i = Some p -> exists v, nth_error (fst (survey_vertical_section s x)) i = Some v /\
      nth_error (tr_points t) i = Some (shown_at row col v p).
Proof. exact panel_views. Qed.
Print Assumptions C171_panel.
Example C171_panel_case : exists s out, Survey ex_header ex_rows false vzero vzero "meters" = Some s /\ panel s (Some 1%R) = Some out.
Proof. destruct ex_survey as [s H]. exists s. eexists. split; [exact H|reflexivity]. Qed.
