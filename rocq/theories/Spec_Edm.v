(** Vocabulary of the EDM properties. *)
Require Import Reals Bool String List Sorted.
Require Import Verif.M_Edm.
Import ListNotations.
Local Open Scope nat_scope.

(** an attribute set meets a criterion *)
Definition satisfies (a : attrib) (c : criterion) : Prop := exists v, get (fst c) a = Some v /\ In v (snd c).
(** [n] is the number of criteria at the head of the list that are met *)
Definition leading_met (a : attrib) (cs : list criterion) (n : nat) : Prop :=
  n <= length cs /\ Forall (satisfies a) (firstn n cs) /\
  forall c, nth_error cs n = Some c -> ~ satisfies a c.
(** [n] is the number of criteria from the first that is met on *)
Definition from_first_met (a : attrib) (cs : list criterion) (n : nat) : Prop :=
  n <= length cs /\ Forall (fun c => ~ satisfies a c) (firstn (length cs - n) cs) /\
  forall c, 0 < n -> nth_error cs (length cs - n) = Some c -> satisfies a c.
(** how often an element is returned *)
Definition times_returned (lg : logic) (cs : list criterion) (e : element) (n : nat) : Prop :=
  match cs, lg with
  | [], _ => n = 1
  | _, AND => leading_met (snd e) cs n
  | _, OR => from_first_met (snd e) cs n
  end.
(** [rows] are the attributes of the elements with tag [t], in document order,
    each repeated the number of times it is returned *)
Inductive rows_of (lg : logic) (cs : list criterion) (t : string) : list element -> list attrib -> Prop :=
| rows_nil : rows_of lg cs t [] []
| rows_skip : forall e doc l, fst e <> t -> rows_of lg cs t doc l -> rows_of lg cs t (e :: doc) l
| rows_take : forall e doc l n, fst e = t -> times_returned lg cs e n -> rows_of lg cs t doc l ->
    rows_of lg cs t (e :: doc) (repeat (snd e) n ++ l).
(** the entry of a tag in the returned dictionary: no entry instead of an empty list *)
Definition entry (d : data) (t : string) : list attrib := match get t d with Some l => l | None => [] end.

(** the attributes of the elements with tag [t] whose attribute [k] has one of the
    values [vs], in document order *)
Definition has_value (a : attrib) (k : string) (vs : list string) : bool :=
  match get k a with Some v => existsb (String.eqb v) vs | None => false end.
Definition select (doc : list element) (t k : string) (vs : list string) : list attrib :=
  map snd (filter (fun e => String.eqb (fst e) t && has_value (snd e) k vs)%bool doc).

(** the wellbores of a document *)
Definition wellbore (doc : list element) (a : attrib) : Prop := In ("CD_WELLBORE"%string, a) doc.
(** every wellbore has an id, and no two have the same *)
Definition proper_ids (doc : list element) : Prop :=
  (forall a, wellbore doc a -> exists w, get "wellbore_id"%string a = Some w) /\
  NoDup (map (fun e => get "wellbore_id"%string (snd e))
           (filter (fun e => String.eqb (fst e) "CD_WELLBORE"%string) doc)).
Definition parent_of (doc : list element) (id p : string) : Prop :=
  exists a, wellbore doc a /\ get "wellbore_id"%string a = Some id /\ get "parent_wellbore_id"%string a = Some p.
(** the parents of [id], nearest first *)
Inductive ancestry (doc : list element) : string -> list string -> Prop :=
| anc_end : forall id, (forall p, ~ parent_of doc id p) -> ancestry doc id []
| anc_step : forall id p l, parent_of doc id p -> ancestry doc p l -> ancestry doc id (p :: l).

Local Open Scope R_scope.
(** the tie of a survey header *)
Definition tied (hs : list header) (id t : string) (v : R) : Prop :=
  exists h, In h hs /\ h_id h = id /\ h_tie h = Some (t, v).
(** the surveys reached from [id] through ties, with the depth at which each is
    tied to the next; the last one, which is tied to nothing, is not in the list *)
Inductive tie_chain (hs : list header) : string -> list (string * R) -> Prop :=
| tie_end : forall id, (forall t v, ~ tied hs id t v) -> tie_chain hs id []
| tie_step : forall id t v l, tied hs id t v -> tie_chain hs t l -> tie_chain hs id ((id, v) :: l).
(** every id names one header *)
Definition distinct_headers (hs : list header) : Prop := NoDup (map h_id hs).
(** the depths go down along the chain: from the end of the first survey through the tie depths *)
Definition descending (m : R) (l : list (string * R)) : Prop := StronglySorted Rgt (m :: map snd l).
