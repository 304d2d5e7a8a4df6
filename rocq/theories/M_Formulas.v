(** The formulas of a JSON tool model as numbers: parsing (the arithmetic part of
    Python's grammar), numpy's operations at one station, and the term they make.
    welleng/errors/interpreter.py:99-129, welleng/errors/tool_errors.py:289-361. *)
Require Import Reals ZArith Ascii String List Bool Arith.
Require Import Verif.Base Verif.NumPy Verif.M_Error Verif.M_Weights Verif.M_DmsText Verif.M_Text Verif.M_Rewrite.
Require Import Verif.M_Interpreter Verif.M_FormulaData.
Import ListNotations.
Open Scope list_scope.

(** ** ast.parse(s, mode='eval') for names, integers and decimals without exponent,
    + - * / **, brackets and calls; None stands for anything else.  Of that, a
    syntax error or a tree that _validate refuses is an exception too; simplification:
    number literals with exponents, and texts in quotes, are left out. *)
Inductive token := TName (s : text) | TInt (s : text) | TFloat (s : text) | TSign (c : ascii) | TPow.
Definition between (lo hi : nat) (c : ascii) : bool :=
  ((lo <=? nat_of_ascii c) && (nat_of_ascii c <=? hi))%nat%bool.
Definition digit (c : ascii) : bool := between 48 57 c.
Definition letter (c : ascii) : bool := (between 65 90 c || between 97 122 c || Ascii.eqb c "_")%bool.
Fixpoint span (p : ascii -> bool) (s : text) : text * text :=
  match s with
  | [] => ([], [])
  | c :: r => if p c then let '(a, b) := span p r in (c :: a, b) else ([], s)
  end.
Definition starts (p : ascii -> bool) (s : text) : bool := match s with c :: _ => p c | [] => false end.
(** Lib/tokenize, for those tokens *)
Fixpoint lex (fuel : nat) (s : text) : option (list token) :=
  match fuel, s with
  | _, [] => Some []
  | O, _ => None
  | S fuel, c :: r =>
    if (Ascii.eqb c " " || Ascii.eqb c "009")%bool then lex fuel r
    else if letter c then
      let '(w, r') := span (fun c => letter c || digit c)%bool s in option_map (cons (TName w)) (lex fuel r')
    else if digit c then
      let '(w, r') := span digit s in
      let '(t, r'') :=
        match r' with
        | d :: q => if Ascii.eqb d "." then let '(f, q') := span digit q in (TFloat (w ++ d :: f), q') else (TInt w, r')
        | [] => (TInt w, r')
        end in
      if starts (fun c => letter c || Ascii.eqb c ".")%bool r'' then None else option_map (cons t) (lex fuel r'')
    else if existsb (Ascii.eqb c) ["+"; "-"; "/"; "("; ")"; ","]%char then option_map (cons (TSign c)) (lex fuel r)
    else if Ascii.eqb c "*" then
      if starts (Ascii.eqb "*") r then option_map (cons TPow) (lex fuel (tl r)) else option_map (cons (TSign c)) (lex fuel r)
    else None
  end.
Definition int_value (s : text) : Z :=
  fold_left (fun z c => (10 * z + Z.of_nat (nat_of_ascii c - 48))%Z) s 0%Z.
Definition is_sign (c : ascii) (t : token) : bool := match t with TSign d => Ascii.eqb c d | _ => false end.
(** Python's grammar: sum, term, factor, power, primary and atom *)
Fixpoint p_sum (n : nat) (ts : list token) : option (node * list token) :=
  match n with
  | O => None
  | S n => match p_term n ts with Some (l, r) => p_sums n l r | None => None end
  end
with p_sums (n : nat) (l : node) (ts : list token) : option (node * list token) :=
  match n with
  | O => None
  | S n =>
    match ts with
    | t :: r =>
      if is_sign "+" t then match p_term n r with Some (x, r') => p_sums n (BinOp l Add x) r' | None => None end
      else if is_sign "-" t then match p_term n r with Some (x, r') => p_sums n (BinOp l Sub x) r' | None => None end
      else Some (l, ts)
    | [] => Some (l, ts)
    end
  end
with p_term (n : nat) (ts : list token) : option (node * list token) :=
  match n with
  | O => None
  | S n => match p_factor n ts with Some (l, r) => p_terms n l r | None => None end
  end
with p_terms (n : nat) (l : node) (ts : list token) : option (node * list token) :=
  match n with
  | O => None
  | S n =>
    match ts with
    | t :: r =>
      if is_sign "*" t then match p_factor n r with Some (x, r') => p_terms n (BinOp l Mult x) r' | None => None end
      else if is_sign "/" t then match p_factor n r with Some (x, r') => p_terms n (BinOp l Div x) r' | None => None end
      else Some (l, ts)
    | [] => Some (l, ts)
    end
  end
with p_factor (n : nat) (ts : list token) : option (node * list token) :=
  match n with
  | O => None
  | S n =>
    match ts with
    | t :: r =>
      if is_sign "-" t then match p_factor n r with Some (x, r') => Some (UnaryOp USub x, r') | None => None end
      else if is_sign "+" t then match p_factor n r with Some (x, r') => Some (UnaryOp UAdd x, r') | None => None end
      else p_power n ts
    | [] => None
    end
  end
with p_power (n : nat) (ts : list token) : option (node * list token) :=
  match n with
  | O => None
  | S n =>
    match p_atom n ts with
    | Some (x, r) =>
      match p_calls n x r with
      | Some (b, TPow :: r') => match p_factor n r' with Some (e, r'') => Some (BinOp b Pow e, r'') | None => None end
      | o => o
      end
    | None => None
    end
  end
with p_calls (n : nat) (f : node) (ts : list token) : option (node * list token) :=
  match n with
  | O => None
  | S n =>
    match ts with
    | t :: r =>
      if is_sign "(" t then
        match p_args n r with Some (args, r') => p_calls n (Call f args []) r' | None => None end
      else Some (f, ts)
    | [] => Some (f, ts)
    end
  end
with p_args (n : nat) (ts : list token) : option (list node * list token) :=
  match n with
  | O => None
  | S n =>
    match ts with
    | t :: r =>
      if is_sign ")" t then Some ([], r)
      else match p_sum n ts with
           | Some (x, u :: r') =>
             if is_sign ")" u then Some ([x], r')
             else if is_sign "," u then match p_args n r' with Some (xs, q) => Some (x :: xs, q) | None => None end
             else None
           | _ => None
           end
    | [] => None
    end
  end
with p_atom (n : nat) (ts : list token) : option (node * list token) :=
  match n with
  | O => None
  | S n =>
    match ts with
    | TName s :: r => Some (Name (string_of_list_ascii s), r)
    | TInt s :: r => Some (Constant (CInt (int_value s)), r)
    | TFloat s :: r => Some (Constant (CFloat (string_of_list_ascii s)), r)
    | t :: r =>
      if is_sign "(" t then
        match p_sum n r with
        | Some (x, u :: r') => if is_sign ")" u then Some (x, r') else None
        | _ => None
        end
      else None
    | [] => None
    end
  end.
Definition parse (s : text) : option node :=
  match lex (length s) s with
  | Some ts => match p_sum (10 * length ts + 10) ts with Some (n, []) => Some n | _ => None end
  | None => None
  end.

Local Open Scope R_scope.

(** ** numpy at one station: a number, None for inf or nan, or a function.  An operation
    on inf or nan is None too: of the operations here only a quotient by inf and a
    maximum or minimum with inf would be finite *)
Inductive value := Num (x : option R) | Fn (name : string).
(** a decimal: its digits over a power of ten *)
Definition decimal (s : text) : R :=
  let '(a, b) := span digit s in
  match b with
  | _ :: f => IZR (int_value (a ++ f)) / IZR (10 ^ Z.of_nat (length f))
  | [] => IZR (int_value a)
  end.
Definition np_const (c : constant) : value :=
  match c with
  | CInt z => Num (Some (IZR z))
  | CFloat s => Num (Some (decimal (lit s)))
  | _ => Num None
  end.
(** x ** y: nan for a negative x unless y is whole; 0 ** y is inf for y < 0 *)
Definition fpow (x y : R) : option R :=
  if Req_EM_T y (IZR (rfloor y)) then
    if Rle_dec 0 y then Some (x ^ Z.to_nat (rfloor y)) else fdiv 1 (x ^ Z.to_nat (- rfloor y))
  else if Rlt_dec 0 x then Some (Rpower x y)
  else if Req_EM_T x 0 then (if Rlt_dec 0 y then Some 0 else None)
  else None.
Definition num2 (f : R -> R -> option R) (a b : value) : option value :=
  match a, b with Num x, Num y => Some (Num (bind x (fun x => bind y (f x)))) | _, _ => None end.
Definition np_bin (o : oper) : value -> value -> option value :=
  match o with
  | Add => num2 (fun x y => Some (x + y))
  | Sub => num2 (fun x y => Some (x - y))
  | Mult => num2 (fun x y => Some (x * y))
  | Div => num2 fdiv
  | Pow => num2 fpow
  | _ => fun _ _ => None
  end.
Definition np_un (o : oper) (a : value) : option value :=
  match o, a with
  | USub, Num x => Some (Num (bind x (fun x => Some (- x))))
  | UAdd, Num x => Some (Num x)
  | _, _ => None
  end.
(** the ufuncs of one argument *)
Definition ufunc (name : string) : option (R -> option R) :=
  if String.eqb name "sin" then Some (fun x => Some (sin x))
  else if String.eqb name "cos" then Some (fun x => Some (cos x))
  else if String.eqb name "tan" then Some tan_
  else if String.eqb name "asin" then
    Some (fun x => if Rle_dec (-1) x then if Rle_dec x 1 then Some (asin x) else None else None)
  else if String.eqb name "acos" then
    Some (fun x => if Rle_dec (-1) x then if Rle_dec x 1 then Some (acos x) else None else None)
  else if String.eqb name "atan" then Some (fun x => Some (atan x))
  else if String.eqb name "abs" then Some (fun x => Some (Rabs x))
  else if String.eqb name "sqrt" then Some (fun x => if Rlt_dec x 0 then None else Some (sqrt x))
  else if String.eqb name "exp" then Some (fun x => Some (exp x))
  else if String.eqb name "log" then Some (fun x => if Rlt_dec 0 x then Some (ln x) else None)
  else None.
(** a wrong number of arguments, or calling a number, is an exception *)
Definition np_call (f : value) (args : list value) : option value :=
  match f, args with
  | Fn name, [Num x] => match ufunc name with Some g => Some (Num (bind x g)) | None => None end
  | Fn name, [Num x; Num y] =>
      if String.eqb name "maximum" then num2 (fun x y => Some (Rmax x y)) (Num x) (Num y)
      else if String.eqb name "minimum" then num2 (fun x y => Some (Rmin x y)) (Num x) (Num y)
      else None
  | _, _ => None
  end.
Definition np : machine value := mkMachine value np_const np_bin np_un np_call.
(** interpreter.py:117-123 *)
Definition np_table (x : string) : value := if String.eqb x "pi" then Num (Some PI) else Fn x.
(** tool_errors.py:305-322 the bindings at one station; the latitude in degrees *)
Definition bindings (h : header) (lat : R) (s : wstation) : list (string * value) :=
  map (fun p => (fst p, Num (Some (snd p))))
  [("MD", w_md s); ("Inc", w_inc s); ("AzT", w_azt s); ("AzM", w_azm s); ("Az", w_azg s); ("TVD", w_tvd s);
   ("Gfield", h_G h); ("Dip", h_dip h); ("BField", if Req_EM_T (h_btotal h) 0 then 50000 else h_btotal h);
   ("EarthRate", 0.262516); ("Latitude", lat * (PI / 180)); ("RAD", PI / 180)]%string.
(** evaluate_formula at one station: None = exception.  A formula whose value is a
    function is one here; in python it raises later, and outside the try. *)
Definition formula_value (h : header) (lat : R) (s : wstation) (formula : string) : option (option R) :=
  match parse (rewrite_excel (lit formula)) with
  | None => None
  | Some n =>
      match evaluate_formula np np_table (bindings h lat s) n with
      | Some (Value (Num x), _) => Some x
      | _ => None
      end
  end.
(** tool_errors.py:323-352 the three formulas of a term at one station: None = an
    exception, Some None = a value is inf or nan *)
Definition term_row (h : header) (lat : R) (f : formulas) (s : wstation) : option (option V3) :=
  match formula_value h lat s (f_depth f), formula_value h lat s (f_inc f), formula_value h lat s (f_azi f) with
  | Some d, Some i, Some a => Some (bind d (fun d => bind i (fun i => bind a (fun a => Some (mkV d i a)))))
  | _, _, _ => None
  end.
(** tool_errors.py:289-361 _call_interpreter with mag already multiplied by its unit:
    the formulas are evaluated once for all stations, so they fail for all or for none
    (no stations: nothing to add up either way) *)
Definition interpreted (rev4 : bool) (h : header) (lat : R) (l : list wstation) (f : formulas)
  (code : string) (mag : R) (propagation : string) : M_Weights.outcome :=
  match seq_opt (map (term_row h lat f) l) with
  | None =>
      of_generate (generate_error (drdp rev4 (map survey_rad l)) code
                     (map (vscale mag) (repeat vzero (length l))) propagation None)
  | Some rows =>
      match seq_opt rows with
      | None => NotFinite
      | Some dpde =>
          of_generate (generate_error (drdp rev4 (map survey_rad l)) code (map (vscale mag) dpde) propagation None)
      end
  end.
