(** Model of welleng/architecture.py: String, WellBore, BHA. *)
Require Import Reals Bool String List Arith.
Import ListNotations.
Open Scope R_scope.

(** any other keyword value (friction, id, grade, ...) *)
Inductive pval := PNum (r : R) | PStr (s : string).

(** A section dictionary: its three geometric keys, each present (a finite
    number) or absent, and all other keys in order.  The keyword arguments of
    add_section have the same shape.  Simplification: 'top', 'bottom' and
    'length' are never passed as None, strings or nan. *)
Record section := mkSec {
  s_top : option R; s_bottom : option R; s_length : option R;
  s_other : list (string * pval)
}.

Inductive cls := String_ | WellBore | BHA.
Inductive method := TopDown | BottomUp.
Inductive exn := KeyError | AssertionError | UnboundLocalError.

(** welleng/architecture.py:22-34 the object's attributes; [a_sections] is the
    insertion-ordered dict with integer keys *)
Record str := mkStr {
  a_cls : cls; a_method : method; a_top : R; a_bottom : R;
  a_sections : list (nat * section); a_complete : bool
}.

(** welleng/architecture.py:9-34 __init__ (the method has been checked by its type) *)
Definition new_str (c : cls) (m : method) (top bottom : R) : str :=
  mkStr c m top bottom [] false.

(** dict lookup and assignment *)
Fixpoint lookup {A} (k : nat) (d : list (nat * A)) : option A :=
  match d with
  | [] => None
  | (k', v) :: r => if Nat.eqb k k' then Some v else lookup k r
  end.
Fixpoint assign {A} (k : nat) (v : A) (d : list (nat * A)) : list (nat * A) :=
  match d with
  | [] => [(k, v)]
  | (k', v') :: r => if Nat.eqb k k' then (k, v) :: r else (k', v') :: assign k v r
  end.
Fixpoint assign_s {A} (k : string) (v : A) (d : list (string * A)) : list (string * A) :=
  match d with
  | [] => [(k, v)]
  | (k', v') :: r => if String.eqb k k' then (k, v) :: r else (k', v') :: assign_s k v r
  end.

(** welleng/architecture.py:91-92 and 156-157: keyword values override *)
Definition orelse {A} (a b : option A) : option A := match a with Some _ => a | None => b end.
Definition override (base kw : section) : section :=
  mkSec (orelse (s_top kw) (s_top base)) (orelse (s_bottom kw) (s_bottom base))
        (orelse (s_length kw) (s_length base))
        (fold_left (fun d kv => assign_s (fst kv) (snd kv) d) (s_other kw) (s_other base)).

(** sorted(items, key=...): stable; None = KeyError because a key is absent *)
Fixpoint insert_by (x : R * (nat * section)) (l : list (R * (nat * section))) :=
  match l with
  | [] => [x]
  | y :: r => if Rlt_dec (fst x) (fst y) then x :: l else y :: insert_by x r
  end.
Fixpoint keyed (key : section -> option R) (d : list (nat * section))
  : option (list (R * (nat * section))) :=
  match d with
  | [] => Some []
  | kv :: r => match key (snd kv), keyed key r with
               | Some x, Some l => Some ((x, kv) :: l)
               | _, _ => None
               end
  end.
Definition sort_by (key : section -> option R) (d : list (nat * section))
  : option (list (nat * section)) :=
  match keyed key d with
  | Some l => Some (map snd (fold_left (fun acc x => insert_by x acc) l []))
  | None => None
  end.

Fixpoint number {A} (i : nat) (l : list A) : list (nat * A) :=
  match l with [] => [] | x :: r => (i, x) :: number (S i) r end.

Definition with_sections (s : str) (d : list (nat * section)) : str :=
  mkStr (a_cls s) (a_method s) (a_top s) (a_bottom s) d (a_complete s).
Definition finish (s : str) (vs : list section) (c : bool) : str :=
  mkStr (a_cls s) (a_method s) (a_top s) (a_bottom s) (number 0 vs) (a_complete s || c).

Definition req (x y : R) : bool := if Req_EM_T x y then true else false.
Definition rle (x y : R) : bool := if Rle_dec x y then true else false.

(** welleng/architecture.py:107-112 the checks of add_section_top_down; [prev]
    is the section before (None for the first) *)
Fixpoint check_top_down (top bottom : R) (prev : option section) (vs : list section) : option exn :=
  match vs with
  | [] => None
  | v :: r =>
    match (match prev with None => Some top | Some p => s_bottom p end) with
    | None => Some KeyError
    | Some want =>
      match s_top v with
      | None => Some KeyError
      | Some t =>
        if req t want then
          match s_bottom v with
          | None => Some KeyError
          | Some b => if rle b bottom then check_top_down top bottom (Some v) r
                      else Some AssertionError
          end
        else Some AssertionError
      end
    end
  end.

(** welleng/architecture.py:72-117 add_section_top_down *)
Definition add_top_down (s : str) (kw : section) : str * option exn :=
  let n := length (a_sections s) in
  match (match a_sections s with
         | [] => Some (a_top s)
         | _ => match lookup (n - 1) (a_sections s) with
                | Some sec => s_bottom sec
                | None => None
                end
         end) with
  | None => (s, Some KeyError)
  | Some top =>
    let d := assign n (override (mkSec (Some top) None None []) kw) (a_sections s) in
    match sort_by s_top d with
    | None => (with_sections s d, Some KeyError)
    | Some d' =>
      let vs := map snd d' in
      match check_top_down (a_top s) (a_bottom s) None vs with
      | Some e => (with_sections s d', Some e)
      | None =>
        (finish s vs (match s_bottom (last vs kw) with
                      | Some b => req b (a_bottom s)
                      | None => false
                      end), None)
      end
    end
  end.

(** welleng/architecture.py:173-179 the checks of add_section_bottom_up *)
Fixpoint check_bottom_up (top bottom : R) (vs : list section) : option exn :=
  match vs with
  | [] => None
  | v :: r =>
    match (match r with [] => Some bottom | n :: _ => s_top n end) with
    | None => Some KeyError
    | Some want =>
      match s_bottom v with
      | None => Some KeyError
      | Some b =>
        if req b want then
          match s_top v with
          | None => Some KeyError
          | Some t => if rle top t then check_bottom_up top bottom r else Some AssertionError
          end
        else Some AssertionError
      end
    end
  end.

(** bool(kwargs.get(k)): present and non-zero *)
Definition truthy (o : option R) : option R :=
  match o with Some x => if req x 0 then None else Some x | None => None end.

(** welleng/architecture.py:119-184 add_section_bottom_up *)
Definition add_bottom_up (s : str) (kw : section) : str * option exn :=
  let n := length (a_sections s) in
  match (match a_sections s with
         | [] => Some (a_bottom s)
         | _ => match lookup 0 (a_sections s) with
                | Some sec => s_top sec
                | None => None
                end
         end) with
  | None => (s, Some KeyError)
  | Some bottom =>
    (* lines 140-149: the value of the local variable top *)
    match (match truthy (s_length kw) with
           | Some len => inl (Some (if Rlt_dec (bottom - len) (a_top s) then a_top s else bottom - len))
           | None =>
             match truthy (s_top kw) with
             | Some _ => inl None                       (* top never assigned *)
             | None => match lookup 0 (a_sections s) with
                       | Some sec => match s_top sec with
                                     | Some _ => inl (Some (a_top s))
                                     | None => inr KeyError
                                     end
                       | None => inr KeyError
                       end
             end
           end) with
    | inr e => (s, Some e)
    | inl None => (with_sections s (assign n (mkSec None None None []) (a_sections s)),
                   Some UnboundLocalError)
    | inl (Some top) =>
      let d := assign n (override (mkSec (Some top) (Some bottom) None []) kw) (a_sections s) in
      match sort_by s_bottom d with
      | None => (with_sections s d, Some KeyError)
      | Some d' =>
        let vs := map snd d' in
        match check_bottom_up (a_top s) (a_bottom s) vs with
        | Some e => (with_sections s d', Some e)
        | None =>
          (finish s vs (match s_top (hd kw vs) with
                        | Some t => req t (a_top s)
                        | None => false
                        end), None)
        end
      end
    end
  end.

Definition has_key (k : string) (d : list (string * pval)) : bool :=
  existsb (fun kv => String.eqb (fst kv) k) d.

(** welleng/architecture.py:59-70 add_section: class-specific checks, dispatch *)
Definition add_section (s : str) (kw : section) : str * option exn :=
  let go kw := match a_method s with
               | TopDown => add_top_down s kw
               | BottomUp => add_bottom_up s kw
               end in
  match a_cls s with
  | WellBore =>
    if has_key "id" (s_other kw) && has_key "coeff_friction_sliding" (s_other kw)
    then go kw else (s, Some AssertionError)
  | BHA =>
    go (if has_key "density" (s_other kw) then kw
        else mkSec (s_top kw) (s_bottom kw) (s_length kw)
                   (s_other kw ++ [("density"%string, PNum (785/100))]))
  | String_ => go kw
  end.

(** welleng/architecture.py:47-50 the parameters passed on by depth() *)
Definition depth_params (sec : section) : list (string * pval) :=
  filter (fun kv => negb (String.eqb (fst kv) "buoyancy_factor")) (s_other sec).

(** welleng/architecture.py:44-55 the loop of depth() over the reversed sections *)
Fixpoint depth_loop (top : R) (rsecs : list (nat * section)) (s : str) : str + exn :=
  match rsecs with
  | [] => inl s
  | (_, sec) :: r =>
    match s_length sec with
    | None => inr KeyError
    | Some len =>
      match add_section s (mkSec None None (Some len) (depth_params sec)) with
      | (_, Some e) => inr e
      | (s', None) =>
        match lookup 0 (a_sections s') with
        | None => inr KeyError
        | Some s0 => match s_top s0 with
                     | None => inr KeyError
                     | Some t => if req t top then inl s' else depth_loop top r s'
                     end
        end
      end
    end
  end.

(** welleng/architecture.py:36-57 depth *)
Definition depth (s : str) (md : R) : str + exn :=
  if Rlt_dec (a_top s) md then
    if Rle_dec md (a_bottom s) then
      depth_loop (a_top s) (rev (a_sections s)) (new_str String_ BottomUp (a_top s) md)
    else inr AssertionError
  else inr AssertionError.
