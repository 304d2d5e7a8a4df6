(** C151, powers in formulas. *)
Require Import Reals ZArith Ascii String List Bool Arith Lra Lia.
Require Import Verif.Base Verif.NumPy Verif.M_Error Verif.M_Weights Verif.M_Interpreter Verif.M_FormulaData Verif.M_Formulas Verif.P_Powers.
Import ListNotations.
Local Open Scope R_scope.

Theorem C151_power_whole : forall x k, fpow x (INR k) = Some (x ^ k).
Proof. exact power_whole. Qed.
Print Assumptions C151_power_whole.
Theorem C151_power_inverse : forall x k, (0 < k)%nat -> fpow x (- INR k) = if Req_EM_T x 0 then None else Some (/ x ^ k).
Proof. exact power_inverse. Qed.
Print Assumptions C151_power_inverse.
Example C151_power_inverse_case : fpow 2 (- INR 3) = Some (/ 2 ^ 3).
Proof. rewrite power_inverse by lia. destruct (Req_EM_T 2 0); [lra|reflexivity]. Qed.
Theorem C151_power_real : forall x y, 0 < x -> fpow x y = Some (Rpower x y).
Proof. exact power_real. Qed.
Print Assumptions C151_power_real.
Example C151_power_real_case : 0 < 1 / 2.
Proof. lra. Qed.
Theorem C151_power_negative : forall x y, x < 0 -> (forall k, y <> IZR k) -> fpow x y = None.
Proof. exact power_negative. Qed.
Print Assumptions C151_power_negative.
Example C151_power_negative_case : forall k, 1 / 2 <> IZR k.
Proof. intros k E. assert (0 < k < 1)%Z by (split; apply lt_IZR; lra). lia. Qed.
Theorem C151_power_reading : forall h lat s,
  formula_value h lat s "MD ** 2 * TVD" = Some (Some (w_md s ^ 2 * w_tvd s)) /\
  formula_value h lat s "TVD * MD ** 2 + Inc" = Some (Some (w_tvd s * w_md s ^ 2 + w_inc s)) /\
  formula_value h lat s "-MD ** 2" = Some (Some (- (w_md s ^ 2))) /\
  formula_value h lat s "MD ** 2 ** 3" = Some (Some (w_md s ^ 8)) /\
  formula_value h lat s "MD ** -1 * TVD" = Some (if Req_EM_T (w_md s) 0 then None else Some (/ w_md s * w_tvd s)).
Proof. exact power_reading. Qed.
Print Assumptions C151_power_reading.
