(** Property theorem C121: what a survey adds does not change the uncertainty of
    what was surveyed before. *)
Require Import Reals ZArith Lra Psatz Lia Bool String List.
Require Import Verif.Base Verif.NumPy Verif.M_Utils Verif.M_Error Verif.Spec Verif.Spec_Error Verif.M_Weights Verif.Spec_Weights
  Verif.Spec_Causal.
Require Import Verif.P_Error2 Verif.P_Weights13 Verif.P_Weights15 Verif.P_Causal3 Verif.P_Causal4.
Import ListNotations.
Local Open Scope R_scope.

(** * C121 *)
Theorem C121_one_source : forall az t rev4 h l m code func mag p e e' k,
  call_func az t rev4 h l code func mag p = Made e -> call_func az t rev4 h (l ++ m) code func mag p = Made e' ->
  (k < length l)%nat ->
  ((S k < length l)%nat \/ (forall s, nth_error l k = Some s -> ~ vertical h s) \/ ~ drops_end func) ->
  nth_error (er_cov_NEV e) k = nth_error (er_cov_NEV e') k.
Proof. exact call_causal. Qed.
Print Assumptions C121_one_source.
Theorem C121_model : forall az tort mi rev4 h l m codes t', (3 <= length l)%nat ->
  yaml_tool_error az tort mi rev4 h (l ++ m) codes = Totals t' ->
  exists t, yaml_tool_error az tort mi rev4 h l codes = Totals t /\
  forall k, (k < length l)%nat ->
    ((S k < length l)%nat \/ (forall s, nth_error l k = Some s -> ~ vertical h s) \/
     (forall c, In c codes -> ~ drops_end (c_function c))) ->
    same_at k t t'.
Proof. exact yaml_prefix. Qed.
Print Assumptions C121_model.
Theorem C121_json : forall rev4 mi sv more terms terms' t', (0 < length sv)%nat ->
  Forall2 (same_term (length sv) (length more)) terms terms' ->
  json_tool_error rev4 mi (sv ++ more) terms' = Some t' ->
  exists t, json_tool_error rev4 mi sv terms = Some t /\
  forall k, (k < length sv)%nat -> same_at k t t'.
Proof. exact json_causal. Qed.
Print Assumptions C121_json.
Theorem C121_vertical_end : forall az t rev4 h l x m code func mag p e e' k a b,
  drops_end func ->
  call_func az t rev4 h l code func mag p = Made e ->
  call_func az t rev4 h (l ++ x :: m) code func mag p = Made e' ->
  length l = S (S k) -> nth_error l k = Some a -> nth_error l (S k) = Some b -> vertical h b ->
  exists v, dot v v = (1/2 * (w_md b - w_md a) * angle_of func h mag) ^ 2 /\
  (p = "random"%string -> exists c, nth_error (er_cov_NEV e) (S k) = Some c /\ nth_error (er_cov_NEV e') (S k) = Some (madd c (outer v v))) /\
  (p <> "random"%string -> exists u, nth_error (er_cov_NEV e) (S k) = Some (outer u u) /\
     nth_error (er_cov_NEV e') (S k) = Some (outer (vadd u v) (vadd u v))).
Proof. exact vertical_end. Qed.
Print Assumptions C121_vertical_end.
Theorem C121_vertical_end_refuted :
  exists t t', yaml_tool_error "true" 0 None true plumb [hanging 0; hanging 100; hanging 300] [mkCode "a" "XYM3" 2 "random"] = Totals t /\
  yaml_tool_error "true" 0 None true plumb [hanging 0; hanging 100; hanging 300; hanging 400] [mkCode "a" "XYM3" 2 "random"] = Totals t' /\
  ~ same_at 2 t t'.
Proof. exact vertical_model_refuted. Qed.
Print Assumptions C121_vertical_end_refuted.
Theorem C121_two_stations_refuted :
  call_func "true" 0 true plumb [hanging 0; hanging 100] "a" "ABIXY_TI2" 1 "systematic" = Raises /\
  exists e, call_func "true" 0 true plumb [hanging 0; hanging 100; hanging 200] "a" "ABIXY_TI2" 1 "systematic" = Made e.
Proof. exact two_stations_refuted. Qed.
Print Assumptions C121_two_stations_refuted.
(** a vertical well continued by a deviated station, with a bias of the z
    accelerometer, a misalignment and an interval term: the model covers the
    longer survey; its last three vertical stations; and a term of a JSON model *)
Definition leaning : wstation := mkWS 400 (PI/6) (PI/3) (PI/3) (PI/3) 380.
Example C121_case :
  let codes := [mkCode "ABZ" "ABZ" 1 "systematic"; mkCode "XYM3" "XYM3" 2 "random"; mkCode "ABIXY_TI2" "ABIXY_TI2" 1 "within_pad"] in
  (exists t', yaml_tool_error "true" 0 (Some 2) true plumb ([hanging 0; hanging 100; hanging 300] ++ [leaning]) codes = Totals t') /\
  (forall c, In c [mkCode "ABZ" "ABZ" 1 "systematic"] -> ~ drops_end (c_function c)) /\
  drops_end "XYM3" /\ vertical plumb (hanging 300) /\ ~ vertical plumb leaning /\
  same_term 2 1 (mkTerm "a" 1 "Random" "m" (Some [mkV 1 0 0; mkV 0 1 0])) (mkTerm "a" 1 "Random" "m" (Some [mkV 1 0 0; mkV 0 1 0; mkV 0 0 1])) /\
  exists t, json_tool_error true 2 [mkSt 0 0 0; mkSt 100 1 1; mkSt 200 1 1] [mkTerm "a" 1 "Random" "m" (Some [mkV 1 0 0; mkV 0 1 0; mkV 0 0 1])] = Some t.
Proof.
  intro codes. pose proof PI_RGT_0 as PP. pose proof PI_4 as P4. split.
  { apply yaml_iff. split.
    - intros m [= <-] s [<-|[<-|[<-|[<-|[]]]]]; cbn; lra.
    - assert (S : forall s, In s ([hanging 0; hanging 100; hanging 300] ++ [leaning]) -> 0 <= sin (w_inc s)).
      { intros s [<-|[<-|[<-|[<-|[]]]]]; cbn; rewrite ?sin_0; try lra. apply sin_ge_0; lra. }
      intros c [<-|[<-|[<-|[]]]]; (apply plain_ok; [exact slanted_sensible|cbn; tauto|cbn; tauto|cbn; lia|exact S|auto]). }
  split. { intros c [<-|[]] D. unfold drops_end in D. cbn in D. intuition discriminate. }
  split; [left; reflexivity|]. split; [unfold vertical, plumb, hanging; cbn; lra|].
  split. { unfold vertical, plumb, leaning. cbn. pose proof PI2_3_2 as P3. unfold PI2 in P3. lra. }
  split. { repeat split. right. exists [mkV 1 0 0; mkV 0 1 0], [mkV 0 0 1]. auto. }
  destruct (json_tool_error true 2 _ _) as [t|] eqn:E; [exists t; reflexivity|]. exfalso.
  apply json_fails in E. destruct E as [(s & H & L)|(a & t & b & H & W & _)].
  - destruct H as [<-|[<-|[<-|[]]]]; cbn in L; lra.
  - destruct a as [|x a]; injection H as A H; [rewrite <- A in W; discriminate W|]. destruct a; discriminate H.
Qed.
