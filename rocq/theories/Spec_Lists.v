(** Small list vocabulary used in property statements; no model is mentioned. *)
Require Import Reals ZArith List.
Import ListNotations.
Open Scope R_scope.

(** strictly increasing list of reals *)
Fixpoint strictly_increasing (l : list R) : Prop :=
  match l with
  | a :: ((b :: _) as r) => a < b /\ strictly_increasing r
  | _ => True
  end.

(** the list without its entry number k (counted from 0) *)
Fixpoint without_entry {A} (k : nat) (l : list A) : list A :=
  match l, k with
  | [], _ => []
  | _ :: r, O => r
  | a :: r, S k => a :: without_entry k r
  end.

(** keys never decrease along the list *)
Fixpoint keys_nondecreasing {A} (key : A -> Z) (l : list A) : Prop :=
  match l with
  | a :: ((b :: _) as r) => (key a <= key b)%Z /\ keys_nondecreasing key r
  | _ => True
  end.

(** [x] is the first entry of [l] with its key *)
Definition first_of_its_key {A} (key : A -> Z) (l : list A) (x : A) : Prop :=
  exists before after, l = before ++ x :: after /\ forall y, In y before -> key y <> key x.
