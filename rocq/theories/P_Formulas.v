(** The formulas of the shipped JSON models against the weight functions. *)
Require Import Reals ZArith Ascii String List Bool Arith Lra Lia.
Require Import Verif.Base Verif.NumPy Verif.M_Error Verif.M_Weights Verif.M_DmsText Verif.M_Text Verif.M_Rewrite.
Require Import Verif.P_Trig Verif.M_Interpreter Verif.M_FormulaData Verif.M_Formulas Verif.Spec_Formulas.
Import ListNotations.
Local Open Scope R_scope.

Ltac each H := unfold json_formulas in H; repeat (apply in_inv in H; destruct H as [<-|H]); try (apply in_nil in H; contradiction).
(** the name of the function of a term *)
Ltac name_in H :=
  match type of H with context [f_function ?T] => let g := eval cbv in (f_function T) in change (f_function T) with g in H end.
Ltac name_of :=
  match goal with |- context [f_function ?T] => let g := eval cbv in (f_function T) in change (f_function T) with g end.
Ltac ev := cbv -[sin cos tan PI fdiv tan_ fpow Rplus Rmult Rdiv Rminus Ropp IZR Rabs sqrt Rmax Rmin Req_EM_T Rlt_dec Rle_dec
  w_md w_inc w_azt w_azm w_azg w_tvd h_G h_dip h_btotal asin acos atan exp ln].

Lemma fdiv_eq a b a' b' : a = a' -> b = b' -> fdiv a b = fdiv a' b'.
Proof. intros -> ->. reflexivity. Qed.
Lemma fdiv_ok a b : b <> 0 -> fdiv a b = Some (a / b).
Proof. intros N. unfold fdiv. destruct (Req_EM_T b 0); congruence. Qed.
Lemma fdiv_bad a : fdiv a 0 = None.
Proof. unfold fdiv. destruct (Req_EM_T 0 0); congruence. Qed.
Lemma sqrt2_nz : sqrt 2 <> 0.
Proof. apply Rgt_not_eq, sqrt_lt_R0. lra. Qed.
Lemma tan_co x : tan_ (PI / 2 - x) = fdiv (cos x) (sin x).
Proof. unfold tan_. rewrite sin_shift, cos_shift. reflexivity. Qed.

(** the weight functions under the names of the JSON files *)
Definition row_weights : list (string * weight) :=
  [("ABXY-TI1", w_ABXY_TI1); ("ABZ", w_ABZ); ("AMID", w_AMID); ("ASIXY-TI1", w_ASIXY_TI1); ("ASIXY-TI2", w_ASIXY_TI2);
   ("ASIXY-TI3", w_ASIXY_TI3); ("ASIZ", w_ASIZ); ("ASXY-TI1", w_ASXY_TI1); ("ASXY-TI2", w_ASXY_TI2);
   ("ASXY-TI3", w_ASXY_TI3); ("ASZ", w_ASZ); ("AZ", w_AZ); ("CNI", w_CNI); ("DBH", w_DBH); ("DREF", w_DREF);
   ("DSF", w_DSF); ("DST", w_DST); ("MBIXY-TI1", w_MBIXY_TI1); ("MBIXY-TI2", w_MBIXY_TI2); ("MBXY-TI1", w_MBXY_TI1);
   ("MBXY-TI2", w_MBXY_TI2); ("MBZ", w_MBZ); ("MDI", w_MDI); ("MSIXY-TI1", w_MSIXY_TI1); ("MSIXY-TI2", w_MSIXY_TI2);
   ("MSIXY-TI3", w_MSIXY_TI3); ("MSXY-TI1", w_MSXY_TI1); ("MSXY-TI2", w_MSXY_TI2); ("MSXY-TI3", w_MSXY_TI3);
   ("MSZ", w_MSZ); ("SAG", w_SAG); ("SAGE", w_SAGE); ("XYM1", w_XYM1); ("XYM2", w_XYM2); ("ABXY-TI2", w_ABXY_TI2);
   ("CNA", w_CNA); ("XYM3", w_XYM3); ("XYM4", w_XYM4)]%string.

Lemma quarter_pow x : fpow x (25 / 100) = if Rlt_dec x 0 then None else Some (if Req_EM_T x 0 then 0 else Rpower x (1 / 4)).
Proof.
  unfold fpow.
  assert (F : rfloor (25 / 100) = 0%Z).
  { apply rfloor_unique; simpl; lra. }
  rewrite F. destruct (Req_EM_T (25 / 100) (IZR 0)); [simpl in *; lra|].
  replace (25 / 100) with (1 / 4) by lra.
  destruct (Rlt_dec 0 x), (Rlt_dec x 0), (Req_EM_T x 0); try lra; auto.
  destruct (Rlt_dec 0 (1 / 4)); auto; lra.
Qed.

Lemma vrow (a b c a' b' c' : R) : a = a' -> b = b' -> c = c' -> Some (Some (mkV a b c)) = Some (Some (mkV a' b' c')).
Proof. intros -> -> ->. reflexivity. Qed.
(** equal denominators are written in the same way *)
Ltac denominators :=
  repeat match goal with
  | |- context [fdiv ?a ?b] =>
      match goal with
      | |- context [fdiv ?a' ?b'] => first [constr_eq b b'; fail 1 | replace b' with b by ring]
      end
  end.
Ltac divisions :=
  denominators;
  repeat match goal with
  | |- context [fdiv ?a ?b] =>
      let E := fresh "E" in
      unfold fdiv; destruct (Req_EM_T b 0) as [E|E]; try reflexivity; try (exfalso; now apply E)
  end.
Ltac row :=
  ev; try (destruct (Rlt_dec 2 0); [lra|]); try (destruct (Req_EM_T (h_btotal _) 0); [contradiction|]); try (destruct (tan_ (h_dip _)); try reflexivity);
  repeat rewrite ?(fdiv_ok _ 2 ltac:(lra)), ?(fdiv_ok _ (sqrt 2) sqrt2_nz);
  try reflexivity; divisions; apply vrow; try reflexivity; try ring; try (apply (f_equal2 Rdiv); ring); try (field; repeat split; auto using sqrt2_nz; lra).

(** the same with a denominator that is not zero *)
Ltac vrow_at V G T :=
  ev; rewrite ?(fdiv_ok _ 2 ltac:(lra)), ?T; cbv iota beta; rewrite ?tan_co; rewrite ?(fdiv_ok _ _ V); cbv iota beta;
  rewrite ?(fdiv_ok _ _ G); apply vrow; try reflexivity; field; auto.

Lemma row_same h lat s f w : In f json_formulas -> M_Weights.lookup (f_function f) row_weights = Some w -> sound_header h ->
  (In (f_function f) vertical_functions -> sin (w_inc s) <> 0) ->
  term_row h lat f s = Some (w h s).
Proof.
  intros IN W [G [B D]] V.
  assert (T : tan_ (h_dip h) = Some (sin (h_dip h) / cos (h_dip h))) by (apply fdiv_ok; auto).
  each IN; name_in W; name_in V; cbv [M_Weights.lookup row_weights String.eqb Ascii.eqb Bool.eqb] in W; try discriminate W; injection W as <-.
  all: lazymatch goal with
  | |- context [w_ABXY_TI2] => specialize (V (or_introl eq_refl)); vrow_at V G T
  | |- context [w_CNA] => specialize (V (or_intror (or_introl eq_refl))); vrow_at V G T
  | |- context [w_XYM3] => specialize (V (or_intror (or_intror (or_introl eq_refl)))); vrow_at V G T
  | |- context [w_XYM4] => specialize (V (or_intror (or_intror (or_intror (or_introl eq_refl))))); vrow_at V G T
  | |- context [w_SAGE] => ev; rewrite quarter_pow; destruct (Rlt_dec (sin (w_inc s)) 0); [reflexivity|destruct (Req_EM_T (sin (w_inc s)) 0); reflexivity]
  | |- _ => row
  end.
Qed.
