(** What the averages and differences of the angles are. *)
Require Import Reals List Lra Lia.
Require Import Verif.Base Verif.M_Torque Verif.P_Utils2.
Import ListNotations.
Open Scope R_scope.

Lemma prepared_angles : forall l : list R,
  length (inc_average l) = length l /\ length (delta0 l) = length l /\
  (l <> [] -> nth_error (inc_average l) 0 = Some 0 /\ nth_error (delta0 l) 0 = Some 0) /\
  forall k above below, nth_error l k = Some above -> nth_error l (S k) = Some below ->
    nth_error (inc_average l) (S k) = Some ((above + below) / 2) /\ nth_error (delta0 l) (S k) = Some (below - above).
Proof.
  intros [|x l]; [cbn; repeat split; try tauto; intros; discriminate|].
  unfold inc_average, delta0. cbn [length nth_error].
  rewrite !pairwise_length. cbn [length]. repeat split; try lia.
  all: erewrite pairwise_nth by eassumption; do 2 f_equal; lra.
Qed.
