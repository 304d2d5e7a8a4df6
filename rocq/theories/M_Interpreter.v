(** Model of welleng/errors/interpreter.py: the whitelist on expression trees
    and the evaluation of a validated tree.

    The parser (ast.parse) is not modelled: the trees range over everything it
    can produce.  Values, the numpy operators and the behaviour of called objects
    are arbitrary parameters. *)
Require Import Bool String List.
Import ListNotations.
Open Scope string_scope.
Open Scope list_scope.

(** literal constants of python *)
Inductive constant :=
| CInt (z : BinNums.Z) | CFloat (repr : string) | CComplex (repr : string)
| CStr (s : string) | CBytes (s : string) | CBool (b : bool) | CNone | CEllipsis.
(** operators: the whitelisted ones and any other class (Mod, FloorDiv, BitOr, Not ...) *)
Inductive oper := Add | Sub | Mult | Div | Pow | USub | UAdd | OtherOp (cls : string).
(** expression nodes of python's ast module; [Other cls kids] is a node of any
    other class (Attribute, Subscript, Lambda, Compare, BoolOp, IfExp, Starred,
    JoinedStr, NamedExpr, comprehensions, keyword ...) with its children *)
Inductive node :=
| BinOp (l : node) (op : oper) (r : node)
| UnaryOp (op : oper) (e : node)
| Constant (c : constant)
| Name (id : string)                      (* ctx = Load *)
| Call (f : node) (args : list node) (keywords : list (string * node))
| Other (cls : string) (kids : list node).

(** interpreter.py:71-78 _ALLOWED_NODES *)
Definition allowed_oper (o : oper) : bool := match o with OtherOp _ => false | _ => true end.
(** interpreter.py:79-81 _ALLOWED_FUNCS *)
Definition allowed_funcs : list string :=
  ["sin"; "cos"; "tan"; "asin"; "acos"; "atan"; "abs"; "sqrt"; "exp"; "log"; "pi"; "maximum"; "minimum"].
Definition mem (x : string) (l : list string) : bool := existsb (String.eqb x) l.

(** interpreter.py:84-96, the body of the loop of _validate for one node.
    Operators are nodes too: they are checked with the node that carries them. *)
Definition check (n : node) : bool :=
  match n with
  | BinOp _ o _ => allowed_oper o
  | UnaryOp o _ => allowed_oper o
  | Constant _ => true
  | Name id => negb (String.eqb id "__builtins__")
  | Call f _ _ =>
      match f with
      | Name id => mem id allowed_funcs
      | _ => false
      end
  | Other _ _ => false
  end.
(** ast.walk: every node of the tree (the order does not matter for acceptance);
    a keyword argument is a node of class keyword with the value below it *)
Fixpoint walk (n : node) : list node :=
  n :: match n with
       | BinOp l _ r => walk l ++ walk r
       | UnaryOp _ e => walk e
       | Constant _ => []
       | Name _ => []
       | Call f a k => walk f ++ flat_map walk a ++ flat_map (fun kv => Other "keyword" [snd kv] :: walk (snd kv)) k
       | Other _ l => flat_map walk l
       end.
(** interpreter.py:84-96 _validate: true = no exception *)
Definition validate (n : node) : bool := forallb check (walk n).

(** ** Evaluation (interpreter.py:99-129) *)
(** [lookup ns x]: dictionaries as association lists, first match *)
Fixpoint lookup {V : Type} (x : string) (ns : list (string * V)) : option V :=
  match ns with
  | [] => None
  | (k, v) :: r => if String.eqb x k then Some v else lookup x r
  end.
(** interpreter.py:117-124: the function table, updated with the bindings *)
Definition table_names : list string :=
  ["sin"; "cos"; "tan"; "asin"; "acos"; "atan"; "abs"; "sqrt"; "exp"; "log"; "maximum"; "minimum"; "pi"].
Definition namespace {V : Type} (table : string -> V) (bindings : list (string * V)) : list (string * V) :=
  bindings ++ map (fun x => (x, table x)) table_names.

(** what evaluation can do: a value or an exception, and the calls it made *)
Inductive outcome (V : Type) := Value (v : V) | NameError (x : string) | Raised.
Arguments Value {V}. Arguments NameError {V}. Arguments Raised {V}.
(** the python semantics that the confinement does not depend on *)
Record machine (V : Type) := mkMachine {
  m_const : constant -> V;
  m_bin : oper -> V -> V -> option V;               (* None = exception *)
  m_un : oper -> V -> option V;
  m_call : V -> list V -> option V                  (* calling an object *)
}.
Arguments m_const {V}. Arguments m_bin {V}. Arguments m_un {V}. Arguments m_call {V}.

Section Eval.
Context {V : Type} (m : machine V) (ns : list (string * V)).
(** a call made by the evaluation: the called object and its arguments *)
Definition trace := list (V * list V).
Fixpoint eval (n : node) : outcome V * trace :=
  match n with
  | BinOp l o r =>
      match eval l with
      | (Value a, t1) =>
          match eval r with
          | (Value b, t2) =>
              (match m_bin m o a b with Some v => Value v | None => Raised end, t1 ++ t2)
          | (e, t2) => (e, t1 ++ t2)
          end
      | (e, t1) => (e, t1)
      end
  | UnaryOp o e =>
      match eval e with
      | (Value a, t) => (match m_un m o a with Some v => Value v | None => Raised end, t)
      | r => r
      end
  | Constant c => (Value (m_const m c), [])
  | Name x => match lookup x ns with Some v => (Value v, []) | None => (NameError x, []) end
  | Call f args _ =>
      match eval f with
      | (Value g, t0) =>
          let '(r, t) :=
            (fix evals (l : list node) : (list V + outcome V) * trace :=
               match l with
               | [] => (inl [], [])
               | a :: rest =>
                   match eval a with
                   | (Value v, t1) =>
                       match evals rest with
                       | (inl vs, t2) => (inl (v :: vs), t1 ++ t2)
                       | (inr e, t2) => (inr e, t1 ++ t2)
                       end
                   | (e, t1) => (inr e, t1)
                   end
               end) args in
          match r with
          | inl vs => (match m_call m g vs with Some v => Value v | None => Raised end, t0 ++ t ++ [(g, vs)])
          | inr e => (e, t0 ++ t)
          end
      | r => r
      end
  | Other _ _ => (Raised, [])       (* not reached: the validator refuses these *)
  end.
End Eval.
(** interpreter.py:99-129 evaluate_formula on a parsed string: None = ValueError of
    the validator *)
Definition evaluate_formula {V : Type} (m : machine V) (table : string -> V) (bindings : list (string * V))
  (n : node) : option (outcome V * trace) :=
  if validate n then Some (eval m (namespace table bindings) n) else None.
