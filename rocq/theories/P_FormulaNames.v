(** Proofs about the names in a formula. *)
Require Import Reals ZArith Ascii String List Bool Arith Lra Lia.
Require Import Verif.Base Verif.NumPy Verif.M_Error Verif.M_Weights Verif.M_Formulas.
Local Open Scope R_scope.
Lemma formula_names : forall h lat s,
  formula_value h lat s "MD" = Some (Some (w_md s)) /\ formula_value h lat s "Inc" = Some (Some (w_inc s)) /\
  formula_value h lat s "AzT" = Some (Some (w_azt s)) /\ formula_value h lat s "AzM" = Some (Some (w_azm s)) /\
  formula_value h lat s "Az" = Some (Some (w_azg s)) /\ formula_value h lat s "TVD" = Some (Some (w_tvd s)) /\
  formula_value h lat s "Gfield" = Some (Some (h_G h)) /\ formula_value h lat s "Dip" = Some (Some (h_dip h)) /\
  (h_btotal h <> 0 -> formula_value h lat s "BField" = Some (Some (h_btotal h))) /\
  (h_btotal h = 0 -> formula_value h lat s "BField" = Some (Some 50000)) /\
  formula_value h lat s "EarthRate" = Some (Some 0.262516) /\
  formula_value h lat s "Latitude" = Some (Some (lat * (PI / 180))) /\ formula_value h lat s "RAD" = Some (Some (PI / 180)).
Proof.
  intros h lat s. 
  assert (B : formula_value h lat s "BField" = Some (Some (if Req_EM_T (h_btotal h) 0 then 50000 else h_btotal h))) by reflexivity.
  repeat match goal with |- _ /\ _ => split end; try reflexivity; intros Z; rewrite B; destruct (Req_EM_T (h_btotal h) 0); congruence.
Qed.
