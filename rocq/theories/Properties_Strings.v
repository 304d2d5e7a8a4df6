(** Property theorems C18, C19, C54 (welleng/architecture.py). *)
Require Import Reals Lra Lia Bool String List.
Require Import Verif.M_Architecture Verif.Spec_Strings Verif.P_Strings Verif.P_Strings2.
Import ListNotations.
Open Scope R_scope.

(** * C18 *)
Theorem C18_top_down : forall c top bottom calls s,
  reached anything (new_str c TopDown top bottom) calls s -> calls <> [] ->
  map fst (a_sections s) = seq 0 (length calls) /\
  exists body t b, spans (map snd (a_sections s)) (body ++ [(t, b)]) /\
    tiles top t body /\ Forall (fun iv => snd iv <= bottom) (body ++ [(t, b)]) /\
    (t <= b -> tiles top b (body ++ [(t, b)])).
Proof. exact strings_top_down. Qed.
Print Assumptions C18_top_down.
Theorem C18_bottom_up : forall c top bottom calls s,
  reached anything (new_str c BottomUp top bottom) calls s -> calls <> [] ->
  map fst (a_sections s) = seq 0 (length calls) /\
  exists body t b, spans (map snd (a_sections s)) ((t, b) :: body) /\
    tiles b bottom body /\ Forall (fun iv => top <= fst iv) ((t, b) :: body) /\
    (t <= b -> tiles t bottom ((t, b) :: body)).
Proof. exact strings_bottom_up. Qed.
Print Assumptions C18_bottom_up.
Theorem C18_complete_top_down : forall c top bottom calls s,
  reached upright (new_str c TopDown top bottom) calls s -> calls <> [] ->
  exists ivs hi, spans (map snd (a_sections s)) ivs /\ tiles top hi ivs /\ hi <= bottom /\
    (a_complete s = true <-> hi = bottom).
Proof. exact complete_td. Qed.
Print Assumptions C18_complete_top_down.
Theorem C18_complete_bottom_up : forall c top bottom calls s,
  reached upright (new_str c BottomUp top bottom) calls s -> calls <> [] ->
  exists ivs lo, spans (map snd (a_sections s)) ivs /\ tiles lo bottom ivs /\ top <= lo /\
    (a_complete s = true <-> lo = top).
Proof. exact complete_bu. Qed.
Print Assumptions C18_complete_bottom_up.
Theorem C18_built_by_lengths : forall c top bottom calls lens,
  top < bottom -> Forall2 (sized_call c) calls lens ->
  exists s, reached anything (new_str c BottomUp top bottom) calls s /\
    (a_complete s = true <-> bottom - top <= rsum lens) /\
    forall j, (j < length lens)%nat -> exists v, lookup (length lens - 1 - j) (a_sections s) = Some v /\
      s_top v = Some (stacked top bottom (firstn (S j) lens)) /\
      s_bottom v = Some (stacked top bottom (firstn j lens)).
Proof. exact built_by_lengths. Qed.
Print Assumptions C18_built_by_lengths.
Theorem C18_any_length_refuted : exists s,
  reached anything (new_str String_ BottomUp 0 10) [neg_kw 10; neg_kw (-5)] s /\
  a_complete s = true /\ exists v, lookup 0 (a_sections s) = Some v /\ s_top v = Some 5 /\ s_bottom v = Some 0.
Proof. exact negative_length. Qed.
Print Assumptions C18_any_length_refuted.
Example C18_case : exists s, reached anything (new_str WellBore BottomUp 0 100)
  [mkSec None None (Some 30) [("id"%string, PNum 1); ("coeff_friction_sliding"%string, PNum (1/5))];
   mkSec None None (Some 90) [("id"%string, PNum 2); ("coeff_friction_sliding"%string, PNum (1/5))]] s
  /\ a_complete s = true.
Proof.
  destruct (built_by_lengths WellBore 0 100
    [mkSec None None (Some 30) [("id"%string, PNum 1); ("coeff_friction_sliding"%string, PNum (1/5))];
     mkSec None None (Some 90) [("id"%string, PNum 2); ("coeff_friction_sliding"%string, PNum (1/5))]] [30; 90])
    as (s & R & C & _).
  - lra.
  - repeat constructor; simpl; try lra; auto; intuition discriminate.
  - exists s. split; auto. apply C. simpl. lra.
Qed.

(** * C19 *)
Theorem C19_depth : forall c top bottom calls lens s md,
  Forall2 (sized_call c) calls lens -> reached anything (new_str c BottomUp top bottom) calls s ->
  a_complete s = true -> top < md <= bottom ->
  exists s' m, depth s md = inl s' /\ a_cls s' = String_ /\ a_top s' = top /\ a_bottom s' = md /\
    a_complete s' = true /\ length (a_sections s') = m /\ (0 < m <= length calls)%nat /\
    rsum (firstn (m - 1) lens) < md - top <= rsum (firstn m lens) /\
    forall j, (j < m)%nat -> exists v kw, lookup (m - 1 - j) (a_sections s') = Some v /\
      nth_error calls j = Some kw /\
      s_top v = Some (stacked top md (firstn (S j) lens)) /\
      s_bottom v = Some (stacked top md (firstn j lens)) /\
      s_length v = nth_error lens j /\
      s_other v = filter (fun kv => negb (String.eqb (fst kv) "buoyancy_factor")) (s_other (with_defaults c kw)).
Proof. exact string_depth. Qed.
Print Assumptions C19_depth.
Theorem C19_out_of_range : forall s md, ~ (a_top s < md <= a_bottom s) -> depth s md = inr AssertionError.
Proof. exact depth_range. Qed.
Print Assumptions C19_out_of_range.
Theorem C19_missing_length : forall s md k v, a_top s < md <= a_bottom s ->
  last (a_sections s) (k, v) = (k, v) -> a_sections s <> [] -> s_length v = None ->
  depth s md = inr KeyError.
Proof. exact depth_no_length. Qed.
Print Assumptions C19_missing_length.

Example C19_case : exists s s', reached anything (new_str BHA BottomUp 0 100)
  [mkSec None None (Some 30) [("od"%string, PNum 1)]; mkSec None None (Some 90) [("buoyancy_factor"%string, PNum 2)]] s
  /\ a_complete s = true /\ depth s 50 = inl s'.
Proof.
  assert (F : Forall2 (sized_call BHA)
    [mkSec None None (Some 30) [("od"%string, PNum 1)]; mkSec None None (Some 90) [("buoyancy_factor"%string, PNum 2)]] [30; 90]).
  { repeat constructor; simpl; try lra; try discriminate; auto. }
  destruct (built_by_lengths BHA 0 100 _ _ ltac:(lra) F) as (s & R & C & _).
  assert (CO : a_complete s = true) by (apply C; simpl; lra).
  destruct (string_depth _ _ _ _ _ _ 50 F R CO ltac:(lra)) as (s' & m & D & _). eauto.
Qed.

(** * C54 *)
Theorem C54_top_only : forall c top bottom kw t, s_length kw = None -> s_top kw = Some t -> t <> 0 ->
  (c = WellBore -> In "id"%string (map fst (s_other kw)) /\ In "coeff_friction_sliding"%string (map fst (s_other kw))) ->
  exists s', add_section (new_str c BottomUp top bottom) kw = (s', Some UnboundLocalError) /\
    forall calls, Forall (fun e => e <> None) (attempts s' calls).
Proof. exact top_only_kills. Qed.
Print Assumptions C54_top_only.
Theorem C54_too_deep : forall c top bottom calls s kw b,
  reached anything (new_str c TopDown top bottom) calls s ->
  s_bottom kw = Some b -> bottom < b ->
  (c = WellBore -> In "id"%string (map fst (s_other kw)) /\ In "coeff_friction_sliding"%string (map fst (s_other kw))) ->
  exists s' e, add_section s kw = (s', Some e) /\
    forall calls', Forall (fun e => e <> None) (attempts s' calls').
Proof. exact too_deep_kills. Qed.
Print Assumptions C54_too_deep.
Example C54_case : exists s e, add_section (new_str String_ TopDown 0 100)
   (mkSec None (Some 150) None []) = (s, Some e).
Proof.
  destruct (too_deep_kills String_ 0 100 [] _ (mkSec None (Some 150) None []) 150
    (reached_start _ _)) as (s & e & H & _); simpl; auto; try lra; try discriminate. eauto.
Qed.
