(** C153: the older class for the MWD models against the tool models. *)
Require Import Reals ZArith Ascii String List Bool Arith Lra Lia.
Require Import Verif.Base Verif.NumPy Verif.M_Error Verif.M_Weights Verif.Spec_Weights.
Require Import Verif.M_Bundle Verif.M_Models Verif.Spec_Models Verif.M_Legacy Verif.Spec_Legacy Verif.P_Legacy.
Import ListNotations.
Local Open Scope R_scope.

(** * C153 *)
Theorem C153_rev4 : forall tree rates az h l t, error_model tree rates az h l "ISCWSA MWD Rev4" = Totals t ->
  iscwsa_mwd az "ISCWSA MWD Rev4" "iscwsa_mwd_rev4" h l = Covs (t_all t).
Proof. exact legacy_same_rev4. Qed.
Print Assumptions C153_rev4.
Example C153_rev4_case : exists t, error_model [] (fun _ _ => None) "grid" plumb slant "ISCWSA MWD Rev4" = Totals t.
Proof. destruct rev4_regular as (A & B & C). exact (slant_usable _ A B C). Qed.
Theorem C153_rev5 : forall tree rates az h l t name, rev5_name name -> error_model tree rates az h l name = Totals t ->
  (forall s, nth_error l 1 = Some s -> ~ vertical h s) ->
  exists covs e, iscwsa_mwd az name "iscwsa_mwd_rev5" h l = Covs covs /\
    call_func az 0.000572615 false h l "DEC-OH" "AZ" 0.003665191429188092 "global" = Made e /\
    t_all t = map2 madd covs (map (mscale (1 - dec_ratio * dec_ratio)) (er_cov_NEV e)).
Proof. exact legacy_rev5_declination. Qed.
Print Assumptions C153_rev5.
Example C153_rev5_case : rev5_name "ISCWSA MWD Rev5.11" /\
  (exists t, error_model [] (fun _ _ => None) "grid" plumb slant "ISCWSA MWD Rev5.11" = Totals t) /\
  (forall s, nth_error slant 1 = Some s -> ~ vertical plumb s).
Proof.
  split; [left; reflexivity|]. split; [destruct rev5_regular as (A & B & C); exact (slant_usable _ A B C)|].
  intros s H. injection H as <-. unfold vertical, plumb; simpl. lra.
Qed.
Theorem C153_rev5_refuted : exists h l t covs, error_model [] (fun _ _ => None) "grid" h l "ISCWSA MWD Rev5.11" = Totals t /\
  iscwsa_mwd "grid" "ISCWSA MWD Rev5.11" "iscwsa_mwd_rev5" h l = Covs covs /\ covs <> t_all t.
Proof. exact legacy_rev5_differs. Qed.
Print Assumptions C153_rev5_refuted.
Theorem C153_second_station : forall az tort tort' name h l s0 s code mag p e, rev5_name name -> nth_error l 0 = Some s0 -> nth_error l 1 = Some s ->
  vertical h s -> call_func az tort false h l code "ABXY_TI2" mag p = Made e ->
  exists e', legacy_func az tort' name h l (mkCode code "ABXY_TI2" mag p) = Made e' /\
    let d := mkV 0 ((w_md s - w_md s0) / 2 * mag * cos (w_azt s) / h_G h) 0 in
    (exists v, nth_error (er_e_NEV e') 1 = Some v /\ nth_error (er_e_NEV e) 1 = Some (vadd v d)) /\
    (exists v, nth_error (er_e_NEV_star e') 1 = Some v /\ nth_error (er_e_NEV_star e) 1 = Some (vadd v d)) /\
    forall k, k <> 1%nat -> nth_error (er_e_NEV e') k = nth_error (er_e_NEV e) k /\ nth_error (er_e_NEV_star e') k = nth_error (er_e_NEV_star e) k.
Proof. exact legacy_second_vertical. Qed.
Print Assumptions C153_second_station.
Example C153_second_station_case : rev5_name "ISCWSA MWD Rev5" /\ nth_error plunge 0 = Some (mkWS 0 0 0 0 0 0) /\
  nth_error plunge 1 = Some (mkWS 100 0 0 0 0 100) /\ vertical plumb (mkWS 100 0 0 0 0 100) /\
  exists e, call_func "grid" 0.000572615 false plumb plunge "ABXY-TI2S" "ABXY_TI2" 0.002 "systematic" = Made e.
Proof.
  split; [right; reflexivity|]. split; [reflexivity|]. split; [reflexivity|]. split; [unfold vertical, plumb; simpl; lra|]. exact plunge_error.
Qed.
Theorem C153_other_models : forall az name model h l, model <> "iscwsa_mwd_rev4"%string -> model <> "iscwsa_mwd_rev5"%string ->
  iscwsa_mwd az name model h l = LegacyRaise.
Proof. exact legacy_other_model. Qed.
Print Assumptions C153_other_models.
