(** What a shipped model computes once it is opened. *)
Require Import Reals ZArith Lra Bool String List.
Require Import Verif.Base Verif.NumPy Verif.M_Utils Verif.M_Error Verif.M_Weights Verif.M_Bundle Verif.M_Models Verif.Spec_Models Verif.P_Models.
Import ListNotations.
Local Open Scope R_scope.

Lemma regular_errors : forall tree rates az h l name m, regular_model name -> open_model tree name = Yaml m ->
  exists rate, assumed_tortuosity m rate /\
    error_model tree rates az h l name =
      yaml_tool_error az rate (Some PI) (if string_dec name "ISCWSA MWD Rev4" then true else false) h l (tf_codes m).
Proof.
  intros tree rates az h l name m (A & NM & NI & NG) O.
  destruct (opened_yaml tree name A NM NG) as (m' & O' & K & E1 & E2 & E3 & E4 & E5 & _).
  rewrite O in O'. injection O' as <-.
  assert (R4 : is_rev4 name = if string_dec name "ISCWSA MWD Rev4" then true else false).
  { destruct (string_dec name "ISCWSA MWD Rev4") as [E|E]; [apply rev4_iff; assumption|].
    apply not_true_is_false. intro H. apply E. apply rev4_iff; assumption. }
  assert (T : tort_missing m = false) by (apply not_true_is_false; rewrite E4; exact NI).
  unfold error_model. rewrite O, R4. unfold yaml_model_error. cbv zeta. rewrite (E5 NI).
  replace (180 * (PI / 180)) with PI by field. unfold tort_missing in T. unfold assumed_tortuosity.
  destruct (tf_tort m) as [r| |]; cbn [tortuosity_of].
  - exists r. split; reflexivity.
  - exists (PI / 180 / 100 * 3.281). split; [field; lra|reflexivity].
  - exists 0. rewrite T. split; [|reflexivity]. split; [reflexivity|]. intros c C.
    assert (U : uses_tortuosity (c_function c) = false).
    { apply not_true_is_false. intro U. assert (X : existsb (fun c => uses_tortuosity (c_function c)) (tf_codes m) = true) by (apply existsb_exists; eauto). congruence. }
    unfold uses_tortuosity in U. apply orb_false_iff in U. destruct U as [U U3]. apply orb_false_iff in U. destruct U as [U1 U2].
    apply String.eqb_neq in U1, U2, U3. cbn. intuition congruence.
Qed.
