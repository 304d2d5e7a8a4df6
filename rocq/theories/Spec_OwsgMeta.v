(** Vocabulary for the names and the kind of a converted tool. *)
Require Import Reals ZArith Bool Ascii String List.
Require Import Verif.Base Verif.M_Owsg Verif.Spec_Owsg.
Import ListNotations.
Local Open Scope R_scope.

(** a cell with a label that reads as this key *)
Definition labelled (show : R -> string) (key_of : string -> string) (c : cell) (key : string) : Prop :=
  (exists x, c = Number x /\ key_of (show x) = key) \/ exists s, c = Words s /\ key_of s = key.
(** an entry that states a text: a text or a number other than 0 *)
Definition states (show : R -> string) (v : option cell) (s : string) : Prop :=
  s <> ""%string /\ ((exists x, v = Some (Number x) /\ x <> 0 /\ s = show x) \/ v = Some (Words s)).
(** the entry is there, and its cell is empty *)
Definition left_empty (v : option cell) : Prop := v = Some Empty.
(** the text an entry is read as, with a default for no entry, 0 and no text; a cell left
    empty is read as no text, whatever the default *)
Definition reads_as (show : R -> string) (v : option cell) (default s : string) : Prop :=
  states show v s \/ (left_empty v /\ s = ""%string) \/ (~ left_empty v /\ (forall t, ~ states show v t) /\ s = default).
(** the texts for which a kind of tool is known *)
Definition known_kind (t k : string) : Prop :=
  (In t ["MWD"; "EMS"; "Magnetic"; "MAGNETIC"; "Film MMS"; "Film MSS"]%string /\ k = "Magnetic"%string) \/
  (In t ["Gyro"; "GYRO"; "Gyroscopic"]%string /\ k = "Gyroscopic"%string) \/
  (In t ["Inertial"; "INERTIAL"; "FINDS"; "BHI RIGS"]%string /\ k = "Inertial"%string) \/
  (In t ["BLIND"; "Unknown"; "INC-ONLY"]%string /\ k = "Unknown"%string).
(** a letter and its capital; any other character stays *)
Definition capital (c d : ascii) : Prop :=
  let n := nat_of_ascii c in (97 <= n <= 122 /\ nat_of_ascii d = n - 32)%nat \/ (~ (97 <= n <= 122)%nat /\ d = c).
(** the name contains the word, in letters of any case *)
Definition mentions (w sheet : string) : Prop :=
  exists a m b, list_ascii_of_string sheet = (a ++ m ++ b)%list /\ Forall2 capital m (list_ascii_of_string w).
