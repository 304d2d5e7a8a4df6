(** Powers in the formulas of JSON tool models. *)
Require Import Reals ZArith Ascii String List Bool Arith Lra Lia.
Require Import Verif.Base Verif.NumPy Verif.P_Trig Verif.M_Error Verif.M_Weights Verif.M_Interpreter Verif.M_FormulaData Verif.M_Formulas Verif.P_Formulas.
Import ListNotations.
Local Open Scope R_scope.

Lemma floor_whole : forall k, rfloor (IZR k) = k.
Proof. intro k. apply rfloor_unique; rewrite ?plus_IZR; lra. Qed.
Lemma power_whole : forall x k, fpow x (INR k) = Some (x ^ k).
Proof.
  intros x k. unfold fpow. rewrite INR_IZR_INZ, floor_whole. destruct (Req_EM_T _ _); [|congruence].
  destruct (Rle_dec 0 _) as [_|N]; [rewrite Nat2Z.id; reflexivity|exfalso; apply N, IZR_le; lia].
Qed.
Lemma power_inverse : forall x k, (0 < k)%nat -> fpow x (- INR k) = if Req_EM_T x 0 then None else Some (/ x ^ k).
Proof.
  intros x k K. unfold fpow. rewrite INR_IZR_INZ, <- opp_IZR, floor_whole. destruct (Req_EM_T _ _); [|congruence].
  destruct (Rle_dec 0 _) as [L|_]; [exfalso; apply le_IZR in L; lia|]. rewrite Z.opp_involutive, Nat2Z.id. unfold fdiv.
  destruct (Req_EM_T x 0) as [->|N].
  - rewrite pow_ne_zero by lia. destruct (Req_EM_T 0 0); [reflexivity|congruence].
  - pose proof (pow_nonzero x k N). destruct (Req_EM_T (x ^ k) 0); [contradiction|]. f_equal. field. auto.
Qed.
Lemma power_real : forall x y, 0 < x -> fpow x y = Some (Rpower x y).
Proof.
  intros x y P. unfold fpow. destruct (Req_EM_T y _) as [E|_].
  - set (k := rfloor y) in *. destruct (Rle_dec 0 y) as [L|L].
    + rewrite E. f_equal. rewrite E in L. apply le_IZR in L. rewrite <- Rpower_pow by exact P. rewrite INR_IZR_INZ, Z2Nat.id by exact L. reflexivity.
    + rewrite E in L |- *. assert (Q : (k < 0)%Z) by (apply lt_IZR; lra). pose proof (pow_lt x (Z.to_nat (- k)) P).
      rewrite fdiv_ok by lra. f_equal. rewrite <- Rpower_pow by exact P. rewrite INR_IZR_INZ, Z2Nat.id by lia. rewrite opp_IZR, Rpower_Ropp. field.
      unfold Rpower. apply Rgt_not_eq, exp_pos.
  - destruct (Rlt_dec 0 x); [reflexivity|contradiction].
Qed.
Lemma power_negative : forall x y, x < 0 -> (forall k, y <> IZR k) -> fpow x y = None.
Proof.
  intros x y N W. unfold fpow. destruct (Req_EM_T y _) as [E|_]; [exfalso; exact (W _ E)|]. destruct (Rlt_dec 0 x); [lra|]. destruct (Req_EM_T x 0); [lra|reflexivity].
Qed.
(** which numbers a power applies to *)
Lemma power_reading : forall h lat s,
  formula_value h lat s "MD ** 2 * TVD" = Some (Some (w_md s ^ 2 * w_tvd s)) /\
  formula_value h lat s "TVD * MD ** 2 + Inc" = Some (Some (w_tvd s * w_md s ^ 2 + w_inc s)) /\
  formula_value h lat s "-MD ** 2" = Some (Some (- (w_md s ^ 2))) /\
  formula_value h lat s "MD ** 2 ** 3" = Some (Some (w_md s ^ 8)) /\
  formula_value h lat s "MD ** -1 * TVD" = Some (if Req_EM_T (w_md s) 0 then None else Some (/ w_md s * w_tvd s)).
Proof.
  intros h lat s.
  assert (P2 : fpow (w_md s) 2 = Some (w_md s ^ 2)) by (rewrite <- power_whole; f_equal; cbn; lra).
  assert (P3 : fpow 2 3 = Some 8) by (replace 3 with (INR 3) by (cbn; lra); rewrite power_whole; f_equal; lra).
  assert (P8 : fpow (w_md s) 8 = Some (w_md s ^ 8)) by (rewrite <- power_whole; f_equal; cbn; lra).
  assert (P1 : fpow (w_md s) (- (1)) = if Req_EM_T (w_md s) 0 then None else Some (/ w_md s)).
  { replace (- (1)) with (- INR 1) by (cbn; lra). rewrite power_inverse by lia. destruct (Req_EM_T (w_md s) 0); [reflexivity|]. rewrite pow_1. reflexivity. }
  split; [|split; [|split; [|split]]]; ev.
  - rewrite P2. reflexivity.
  - rewrite P2. reflexivity.
  - rewrite P2. reflexivity.
  - rewrite P3, P8. reflexivity.
  - rewrite P1. destruct (Req_EM_T (w_md s) 0); reflexivity.
Qed.
