(** Property theorems C152: the shipped gyro models with their formulas. *)
Require Import Reals ZArith Ascii String List Bool Arith Lra Lia Permutation.
Require Import Verif.Base Verif.NumPy Verif.Spec Verif.M_Error Verif.M_Weights Verif.M_FormulaData Verif.M_Formulas Verif.Spec_Formulas.
Require Import Verif.M_Bundle Verif.M_Models Verif.Spec_Models Verif.P_Models Verif.P_Models2 Verif.M_FormulaModels Verif.P_FormulaModels.
Import ListNotations.
Local Open Scope R_scope.

(** * C152 *)
Theorem C152_usable : forall tree az h lat l name, some_order tree -> In name (map fst gyro_models) ->
  h_G h <> 0 -> -90 < lat < 90 -> (forall s, In s l -> 0 <= w_inc s <= PI) ->
  ((exists t, formula_error_model tree az h lat l name = Totals t) <->
   name <> "CB_Film_GMS"%string /\ (forall s, In s l -> w_inc s < gyro_limit name * (PI / 180)) /\
   (name = "CB_Film_GSS"%string -> forall s, In s (tl l) -> 0 < w_inc s) /\
   (name = "GYRO-NS-CT"%string -> forall s, In s (tl l) -> w_inc s <> PI / 2)).
Proof. exact gyro_formulas_usable. Qed.
Print Assumptions C152_usable.
Theorem C152_left_out : forall rev4 max_inc h lat l m, In m json_models -> l <> [] ->
  json_tool_error rev4 max_inc (map survey_rad l) (json_terms (json_rates h lat l) m)
  = json_tool_error rev4 max_inc (map survey_rad l)
      (filter (fun t => negb (mem (tm_name t) left_out_terms)) (json_terms (json_rates h lat l) m)).
Proof. exact left_out_nothing. Qed.
Print Assumptions C152_left_out.
Theorem C152_which : map (fun m => (jm_file m, filter (fun n => mem n left_out_terms) (map jt_name (jm_terms m)))) json_models
  = [("CB_Film_GMS.json", ["XCLA"; "XCLH"; "GZ-GD"]); ("CB_Film_GMS_Fl.json", ["XCLA"; "XCLH"; "GZ-GD"]);
     ("CB_Film_GSS.json", ["XCLA"; "XCLH"; "GZ-GD"]); ("CB_Film_GSS_Fl.json", ["XCLA"; "XCLH"; "GZ-GD"]);
     ("GYRO-MWD.json", ["XYM3E"; "XYM4E"; "XCLA"; "XCLH"; "GXY-RN"]); ("GYRO-MWD_Fl.json", ["XYM3E"; "XYM4E"; "XCLA"; "XCLH"; "GXY-RN"]);
     ("GYRO-NS-CT.json", ["XYM3E"; "XYM4E"; "XCLA"; "XCLH"; "GXY-RN"; "GXY-GD"; "GXY-GRW"]);
     ("GYRO-NS-CT_Fl.json", ["XYM3E"; "XYM4E"; "XCLA"; "XCLH"; "GXY-RN"; "GXY-GD"; "GXY-GRW"]);
     ("GYRO-NS.json", ["XYM3E"; "XYM4E"; "XCLA"; "XCLH"; "GXY-RN"]); ("GYRO-NS_Fl.json", ["XYM3E"; "XYM4E"; "XCLA"; "XCLH"; "GXY-RN"])]%string.
Proof. exact left_out_where. Qed.
Print Assumptions C152_which.
(** the directories of the repository, a well that turns from vertical to one radian:
    the gyro is usable, the film is not, as its second station is vertical *)
Definition turning : list wstation := [mkWS 0 0 0 0 0 0; mkWS 100 0 0 0 0 100; mkWS 900 1 1 1 1 800].
Definition usual : header := mkHeader 9.8 50000 1 0.0001.
Example C152_case : some_order iscwsa_json /\ In "GYRO-NS"%string (map fst gyro_models) /\
  (exists t, formula_error_model iscwsa_json "true" usual 60 turning "GYRO-NS" = Totals t) /\
  ~ (exists t, formula_error_model iscwsa_json "true" usual 60 turning "CB_Film_GSS" = Totals t).
Proof.
  assert (O : some_order iscwsa_json).
  { exists iscwsa_json. split; [apply Permutation_refl|]. induction iscwsa_json; constructor; auto. }
  pose proof PI2_3_2 as P. unfold PI2 in P.
  assert (B : forall s, In s turning -> 0 <= w_inc s <= PI) by (intros s [<-|[<-|[<-|[]]]]; simpl; lra).
  split; [exact O|]. split; [simpl; tauto|]. split.
  - apply gyro_formulas_usable; auto; [simpl; tauto|simpl; lra|lra|].
    split; [discriminate|]. split; [|split; discriminate].
    intros s [<-|[<-|[<-|[]]]]; simpl; unfold gyro_limit; destruct (string_dec "GYRO-NS" "GYRO-NS-CT"); try discriminate; lra.
  - intros H. apply gyro_formulas_usable in H; auto; [|simpl; tauto|simpl; lra|lra].
    destruct H as (_ & _ & H & _). specialize (H eq_refl (mkWS 100 0 0 0 0 100)). simpl in H. specialize (H (or_introl eq_refl)). lra.
Qed.
