(** Vocabulary of the formula-interpreter properties. *)
Require Import Bool String List.
Require Import Verif.M_Interpreter.
Import ListNotations.

(** the five arithmetic operators and the two signs *)
Definition binary (o : oper) : Prop := o = Add \/ o = Sub \/ o = Mult \/ o = Div \/ o = Pow.
Definition arithmetic (o : oper) : Prop := binary o \/ o = USub \/ o = UAdd.
(** a formula built only from constants, names, arithmetic and direct calls of
    whitelisted functions, without keyword arguments *)
Inductive confined : node -> Prop :=
| conf_const : forall c, confined (Constant c)
| conf_name : forall x, x <> "__builtins__"%string -> confined (Name x)
| conf_bin : forall l o r, arithmetic o -> confined l -> confined r -> confined (BinOp l o r)
| conf_un : forall o e, arithmetic o -> confined e -> confined (UnaryOp o e)
| conf_call : forall f args, In f allowed_funcs -> Forall confined args -> confined (Call (Name f) args []).
(** [x] occurs as a name in the tree *)
Definition occurs (x : string) (n : node) : Prop := In (Name x) (walk n).
