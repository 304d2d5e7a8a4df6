(** Model of the weight functions of /repo/welleng/errors/tool_errors.py (lines
    430-1918) and of ToolError for the models listed in tool_codes/*.yaml.

    A number that python would compute as inf or nan is [None]; np.nan_to_num
    with posinf=neginf=0.0 turns it into 0.  [tan(x)] is sin x / cos x and
    [None] where cos x = 0 (python gives about 1.6e16 there, a rounding effect).
    A row (depth, inclination, azimuth) is a [V3]. *)
Require Import Reals Bool String List.
Require Import Verif.Base Verif.NumPy Verif.M_Utils Verif.M_Error.
Import ListNotations.
Local Open Scope R_scope.

Definition fdiv (a b : R) : option R := if Req_EM_T b 0 then None else Some (a / b).
Definition bind {A B : Type} (o : option A) (f : A -> option B) : option B :=
  match o with Some a => f a | None => None end.
Definition nan0 (o : option R) : R := match o with Some a => a | None => 0 end.
Definition tan_ (x : R) : option R := fdiv (sin x) (cos x).

Local Notation "x <- e ; f" := (bind e (fun x => f)) (at level 60, e at level 59, right associativity).

(** the attributes of survey.header used here (survey.py:380-399, 446-462);
    dip and vertical_inc_limit in radians *)
Record header := mkHeader { h_G : R; h_btotal : R; h_dip : R; h_limit : R }.

(** one station of the survey: md, inc_rad, azi_mag_rad, azi_true_rad,
    azi_grid_rad, tvd *)
Record wstation := mkWS {
  w_md : R; w_inc : R; w_azm : R; w_azt : R; w_azg : R; w_tvd : R
}.
(** error.py:183-187: a row of survey_rad *)
Definition survey_rad (s : wstation) : station := mkSt (w_md s) (w_inc s) (w_azt s).

(** tool_errors.py:430-447 _funky_denominator *)
Definition funky (s : wstation) : R :=
  1 - (sin (w_inc s)) ^ 2 * (sin (w_azm s)) ^ 2.

Definition weight := header -> wstation -> option V3.

(** ** Weights that depend on one station only *)

(** tool_errors.py:451-455 DREF *)
Definition w_DREF : weight := fun h s => Some (mkV 1 0 0).
(** tool_errors.py:458-465 DSF: [1,0,0] times the row of survey_rad *)
Definition w_DSF : weight := fun h s =>
  Some (mkV (1 * w_md s) (0 * w_inc s) (0 * w_azt s)).
(** tool_errors.py:468-476 DST *)
Definition w_DST : weight := fun h s =>
  Some (mkV (w_tvd s * w_md s) (0 * w_inc s) (0 * w_azt s)).

(** tool_errors.py:126 ACCURACY *)
Definition accuracy : R := 1 / 1000000.

(** the factor tan(dip) cos(inc) + sin(inc) cos(azi_mag) of several weights *)
Definition dipterm (t : R) (s : wstation) : R :=
  t * cos (w_inc s) + sin (w_inc s) * cos (w_azm s).

(** tool_errors.py:479-500 ABIZ *)
Definition w_ABIZ : weight := fun h s =>
  q <- fdiv (funky s) (h_G h) ;
  let denom := if Rlt_dec accuracy q then q else accuracy in
  t <- tan_ (h_dip h) ;
  i <- fdiv (- sin (w_inc s)) (h_G h) ;
  a <- fdiv (sin (w_inc s) * cos (w_inc s) * sin (w_azm s) * dipterm t s) denom ;
  Some (mkV 0 i a).

(** tool_errors.py:503-523 ABIXY_TI1 *)
Definition w_ABIXY_TI1 : weight := fun h s =>
  t <- tan_ (h_dip h) ;
  i <- fdiv (- cos (w_inc s)) (h_G h) ;
  a <- fdiv (cos (w_inc s) ^ 2 * sin (w_azm s) * dipterm t s) (h_G h * funky s) ;
  Some (mkV 0 i a).

(** tool_errors.py:526-538 ABXY_TI1 *)
Definition w_ABXY_TI1 : weight := fun h s =>
  t <- tan_ (h_dip h) ;
  i <- fdiv (- cos (w_inc s)) (h_G h) ;
  a <- fdiv (cos (w_inc s) * t * sin (w_azm s)) (h_G h) ;
  Some (mkV 0 i a).

(** tool_errors.py:541-563 the weights of ABIXY_TI2; tan(pi/2 - inc) is
    cos/sin here *)
Definition w_ABIXY_TI2 : weight := fun h s =>
  Some (mkV 0 0 (nan0 (
    t <- tan_ (h_dip h) ;
    c <- fdiv (cos (w_inc s)) (sin (w_inc s)) ;
    fdiv (- (t * cos (w_azm s) - c)) (h_G h * funky s)))).

(** tool_errors.py:634-650 the weights of ABXY_TI2 *)
Definition w_ABXY_TI2 : weight := fun h s =>
  Some (mkV 0 0 (nan0 (
    t <- tan_ (h_dip h) ;
    c <- fdiv (cos (w_inc s)) (sin (w_inc s)) ;
    fdiv (c - t * cos (w_azm s)) (h_G h)))).

(** tool_errors.py:720-732 AMID *)
Definition w_AMID : weight := fun h s =>
  Some (mkV 0 0 (sin (w_inc s) * sin (w_azm s))).

(** tool_errors.py:735-744 ABZ *)
Definition w_ABZ : weight := fun h s =>
  t <- tan_ (h_dip h) ;
  i <- fdiv (- sin (w_inc s)) (h_G h) ;
  a <- fdiv (sin (w_inc s) * t * sin (w_azm s)) (h_G h) ;
  Some (mkV 0 i a).

(** tool_errors.py:747-763 ASXY_TI1 *)
Definition w_ASXY_TI1 : weight := fun h s =>
  t <- tan_ (h_dip h) ;
  Some (mkV 0 (sin (w_inc s) * cos (w_inc s) / sqrt 2)
          (sin (w_inc s) * - t * cos (w_inc s) * sin (w_azm s) / sqrt 2)).

(** tool_errors.py:766-790 ASIXY_TI1 *)
Definition w_ASIXY_TI1 : weight := fun h s =>
  t <- tan_ (h_dip h) ;
  a <- fdiv (- (sin (w_inc s) * cos (w_inc s) ^ 2 * sin (w_azm s) * dipterm t s)) (sqrt 2 * funky s) ;
  Some (mkV 0 (sin (w_inc s) * cos (w_inc s) / sqrt 2) a).

(** tool_errors.py:793-807 ASXY_TI2 *)
Definition w_ASXY_TI2 : weight := fun h s =>
  t <- tan_ (h_dip h) ;
  Some (mkV 0 (sin (w_inc s) * cos (w_inc s) / 2)
          (sin (w_inc s) * - t * cos (w_inc s) * sin (w_azm s) / 2)).

(** tool_errors.py:810-833 ASIXY_TI2 *)
Definition w_ASIXY_TI2 : weight := fun h s =>
  t <- tan_ (h_dip h) ;
  a <- fdiv (- (sin (w_inc s) * cos (w_inc s) ^ 2 * sin (w_azm s) * dipterm t s)) (2 * funky s) ;
  Some (mkV 0 (sin (w_inc s) * cos (w_inc s) / 2) a).

(** tool_errors.py:836-846 ASXY_TI3 *)
Definition w_ASXY_TI3 : weight := fun h s =>
  t <- tan_ (h_dip h) ;
  Some (mkV 0 0 ((sin (w_inc s) * t * cos (w_azm s) - cos (w_inc s)) / 2)).

(** tool_errors.py:849-863 ASIXY_TI3 *)
Definition w_ASIXY_TI3 : weight := fun h s =>
  t <- tan_ (h_dip h) ;
  a <- fdiv (t * sin (w_inc s) * cos (w_azm s) - cos (w_inc s)) (2 * funky s) ;
  Some (mkV 0 0 a).

(** tool_errors.py:866-880 ASZ *)
Definition w_ASZ : weight := fun h s =>
  t <- tan_ (h_dip h) ;
  Some (mkV 0 (- sin (w_inc s) * cos (w_inc s))
          (sin (w_inc s) * t * cos (w_inc s) * sin (w_azm s))).

(** tool_errors.py:883-906 ASIZ *)
Definition w_ASIZ : weight := fun h s =>
  t <- tan_ (h_dip h) ;
  a <- fdiv (sin (w_inc s) * cos (w_inc s) ^ 2 * sin (w_azm s) * dipterm t s) (funky s) ;
  Some (mkV 0 (- sin (w_inc s) * cos (w_inc s)) a).

(** tool_errors.py:917-929 the weights of CNA (posinf=1, neginf=-1; the
    inclination is not negative) *)
Definition w_CNA : weight := fun h s =>
  Some (mkV 0 0 (match fdiv 1 (sin (w_inc s)) with Some a => a | None => 1 end)).

(** tool_errors.py:995-1005 CNI *)
Definition w_CNI : weight := fun h s => Some (mkV 0 1 0).

(** tool_errors.py:1010-1020 MBXY_TI1 *)
Definition w_MBXY_TI1 : weight := fun h s =>
  a <- fdiv (- cos (w_inc s) * sin (w_azm s)) (h_btotal h * cos (h_dip h)) ;
  Some (mkV 0 0 a).
(** tool_errors.py:1023-1039 MBIXY_TI1 *)
Definition w_MBIXY_TI1 : weight := fun h s =>
  a <- fdiv (- cos (w_inc s) * sin (w_azm s)) (h_btotal h * cos (h_dip h) * funky s) ;
  Some (mkV 0 0 a).
(** tool_errors.py:1042-1055 MBXY_TI2 *)
Definition w_MBXY_TI2 : weight := fun h s =>
  a <- fdiv (cos (w_azm s)) (h_btotal h * cos (h_dip h)) ;
  Some (mkV 0 0 a).
(** tool_errors.py:1058-1074 MBIXY_TI2 *)
Definition w_MBIXY_TI2 : weight := fun h s =>
  a <- fdiv (cos (w_azm s)) (h_btotal h * cos (h_dip h) * funky s) ;
  Some (mkV 0 0 a).
(** tool_errors.py:1077-1085 MBZ *)
Definition w_MBZ : weight := fun h s =>
  a <- fdiv (- sin (w_inc s) * sin (w_azm s)) (h_btotal h * cos (h_dip h)) ;
  Some (mkV 0 0 a).

(** tool_errors.py:1088-1110 MFI *)
Definition w_MFI : weight := fun h s =>
  t <- tan_ (h_dip h) ;
  q <- fdiv (- sin (w_inc s) * sin (w_azm s) * dipterm t s) (funky s) ;
  a <- fdiv q (h_btotal h) ;
  Some (mkV 0 0 a).

(** tool_errors.py:1113-1129 MSXY_TI1 *)
Definition w_MSXY_TI1 : weight := fun h s =>
  t <- tan_ (h_dip h) ;
  Some (mkV 0 0 (sin (w_inc s) * sin (w_azm s) * dipterm t s / sqrt 2)).
(** tool_errors.py:1132-1148 MSXY_TI2 *)
Definition w_MSXY_TI2 : weight := fun h s =>
  t <- tan_ (h_dip h) ;
  Some (mkV 0 0 (sin (w_azm s) * (t * sin (w_inc s) * cos (w_inc s)
                  - cos (w_inc s) * cos (w_inc s) * cos (w_azm s) - cos (w_azm s)) / 2)).
(** tool_errors.py:1151-1165 MSXY_TI3 *)
Definition w_MSXY_TI3 : weight := fun h s =>
  t <- tan_ (h_dip h) ;
  Some (mkV 0 0 ((cos (w_inc s) * cos (w_azm s) * cos (w_azm s)
                  - cos (w_inc s) * sin (w_azm s) * sin (w_azm s)
                  - t * sin (w_inc s) * cos (w_azm s)) / 2)).
(** tool_errors.py:1168-1192 MSIXY_TI1 *)
Definition w_MSIXY_TI1 : weight := fun h s =>
  t <- tan_ (h_dip h) ;
  a <- fdiv (sin (w_inc s) * sin (w_azm s) * dipterm t s) (sqrt 2 * funky s) ;
  Some (mkV 0 0 a).
(** tool_errors.py:1195-1219 MSIXY_TI2 *)
Definition w_MSIXY_TI2 : weight := fun h s =>
  t <- tan_ (h_dip h) ;
  a <- fdiv (sin (w_azm s) * (t * sin (w_inc s) * cos (w_inc s)
              - cos (w_inc s) ^ 2 * cos (w_azm s) - cos (w_azm s))) (2 * funky s) ;
  Some (mkV 0 0 a).
(** tool_errors.py:1222-1246 MSIXY_TI3 *)
Definition w_MSIXY_TI3 : weight := fun h s =>
  t <- tan_ (h_dip h) ;
  a <- fdiv (cos (w_inc s) * cos (w_azm s) ^ 2 - cos (w_inc s) * sin (w_azm s) ^ 2
             - t * sin (w_inc s) * cos (w_azm s)) (2 * funky s) ;
  Some (mkV 0 0 a).
(** tool_errors.py:1249-1260 MSZ *)
Definition w_MSZ : weight := fun h s =>
  t <- tan_ (h_dip h) ;
  Some (mkV 0 0 (- (sin (w_inc s) * cos (w_azm s) + t * cos (w_inc s))
                 * sin (w_inc s) * sin (w_azm s))).

(** tool_errors.py:1263-1268 AZ *)
Definition w_AZ : weight := fun h s => Some (mkV 0 0 1).
(** tool_errors.py:1271-1281 DBH and 1306-1315 DBHR *)
Definition w_DBH : weight := fun h s =>
  a <- fdiv 1 (h_btotal h * cos (h_dip h)) ;
  Some (mkV 0 0 a).
(** tool_errors.py:1284-1303 MDI *)
Definition w_MDI : weight := fun h s =>
  t <- tan_ (h_dip h) ;
  a <- fdiv (- sin (w_inc s) * sin (w_azm s)
             * (cos (w_inc s) - t * sin (w_inc s) * cos (w_azm s))) (funky s) ;
  Some (mkV 0 0 a).
(** tool_errors.py:1318-1327 AMIL *)
Definition w_AMIL : weight := fun h s =>
  a <- fdiv (- sin (w_inc s) * sin (w_azm s)) (h_btotal h * cos (h_dip h)) ;
  Some (mkV 0 0 a).

(** tool_errors.py:1330-1337 SAG *)
Definition w_SAG : weight := fun h s => Some (mkV 0 (sin (w_inc s)) 0).
(** tool_errors.py:1340-1347 SAGE: x ** 0.25 is nan for x < 0 *)
Definition w_SAGE : weight := fun h s =>
  let x := sin (w_inc s) in
  if Rlt_dec x 0 then None
  else Some (mkV 0 (if Req_EM_T x 0 then 0 else Rpower x (1/4)) 0).
(** tool_errors.py:1350-1357 XYM1 *)
Definition w_XYM1 : weight := fun h s => Some (mkV 0 (Rabs (sin (w_inc s))) 0).
(** tool_errors.py:1360-1368 XYM2 *)
Definition w_XYM2 : weight := fun h s => Some (mkV 0 0 (-1)).
(** tool_errors.py:1371-1388 the weights of XYM3 *)
Definition w_XYM3 : weight := fun h s =>
  Some (mkV 0 (Rabs (cos (w_inc s)) * cos (w_azt s))
          (nan0 (fdiv (- (Rabs (cos (w_inc s)) * sin (w_azt s))) (sin (w_inc s))))).
(** tool_errors.py:1489-1506 the weights of XYM4 *)
Definition w_XYM4 : weight := fun h s =>
  Some (mkV 0 (Rabs (cos (w_inc s)) * sin (w_azt s))
          (nan0 (fdiv (Rabs (cos (w_inc s)) * cos (w_azt s)) (sin (w_inc s))))).

(** ** From weights to an Error object *)

(** what a weight function returns: an Error, None (unknown propagation), an
    exception, or arrays with an inf or nan *)
Inductive outcome := Made (e : error) | ReturnsNone | Raises | NotFinite.

Fixpoint seq_opt {A : Type} (l : list (option A)) : option (list A) :=
  match l with
  | [] => Some []
  | o :: r => a <- o ; m <- seq_opt r ; Some (a :: m)
  end.

Definition of_generate (o : option error) : outcome :=
  match o with Some e => Made e | None => ReturnsNone end.

(** the common ending: e_DIA = dpde * mag; _generate_error(code, e_DIA, ...) *)
Definition simple_error (w : weight) (rev4 : bool) (h : header) (l : list wstation)
  (code : string) (mag : R) (propagation : string) : outcome :=
  match seq_opt (map (w h) l) with
  | None => NotFinite
  | Some dpde =>
      of_generate (generate_error (drdp rev4 (map survey_rad l)) code (map (vscale mag) dpde)
                     propagation None)
  end.

(** ** Vertical stations (e.g. tool_errors.py:1391-1425) *)

(** the rows selected by [sing] are replaced: e_NEV[sing] = e_NEV_sing[sing] *)
Definition is_sing (h : header) (s : wstation) : bool :=
  if Rlt_dec (w_inc s) (h_limit h) then true else false.
Fixpoint replace_sing (h : header) (l : list wstation) (e sing : list V3) : list V3 :=
  match l, e, sing with
  | s :: l, a :: e, b :: sing => (if is_sing h s then b else a) :: replace_sing h l e sing
  | _, _, _ => []
  end.
Fixpoint triplewise {A B : Type} (f : A -> A -> A -> B) (l : list A) : list B :=
  match l with
  | a :: ((b :: c :: _) as r) => f a b c :: triplewise f r
  | _ => []
  end.
(** np.vstack((zeros, rows of the interior stations, zeros)) *)
Definition vstacked (f : wstation -> wstation -> wstation -> V3) (l : list wstation) : list V3 :=
  vzero :: triplewise f l ++ [vzero].
Definition set_nth {A : Type} (n : nat) (v : A) (l : list A) : list A :=
  firstn n l ++ match skipn n l with [] => [] | _ :: r => v :: r end.
Definition md_of (l : list wstation) (k : nat) : R := nth k (map w_md l) 0.

(** the ending with e_NEV and e_NEV_star given *)
Definition given_error (rev4 : bool) (l : list wstation) (code : string)
  (e_DIA : list V3) (propagation : string) (p : list V3 * list V3) : outcome :=
  of_generate (generate_error (drdp rev4 (map survey_rad l)) code e_DIA propagation (Some p)).

(** the common shape of XYM3, XYM4, ABXY_TI2, ABIXY_TI2 and CNA: [sing] and
    [star] are the arrays for the vertical stations *)
Definition sing_error (w : weight) (sing star : list V3) (rev4 : bool) (h : header)
  (l : list wstation) (code : string) (mag : R) (propagation : string) : outcome :=
  match seq_opt (map (w h) l) with
  | None => NotFinite
  | Some dpde =>
      let e_DIA := map (vscale mag) dpde in
      if existsb (is_sing h) l then
        let d := drdp rev4 (map survey_rad l) in
        given_error rev4 l code e_DIA propagation
          (replace_sing h l (e_NEV d e_DIA) sing, replace_sing h l (e_NEV_star d e_DIA) star)
      else simple_error w rev4 h l code mag propagation
  end.

(** tool_errors.py:1371-1424 XYM3 *)
Definition XYM3 (rev4 : bool) (h : header) (l : list wstation) (code : string) (mag : R)
  (propagation : string) : outcome :=
  sing_error w_XYM3
    (vstacked (fun a b c => mkV (1/2 * (w_md c - w_md a) * mag) 0 0) l)
    (vstacked (fun a b c => mkV (1/2 * (w_md b - w_md a) * mag) 0 0) l)
    rev4 h l code mag propagation.
(** tool_errors.py:1489-1542 XYM4 *)
Definition XYM4 (rev4 : bool) (h : header) (l : list wstation) (code : string) (mag : R)
  (propagation : string) : outcome :=
  sing_error w_XYM4
    (vstacked (fun a b c => mkV 0 (1/2 * (w_md c - w_md a) * mag) 0) l)
    (vstacked (fun a b c => mkV 0 (1/2 * (w_md b - w_md a) * mag) 0) l)
    rev4 h l code mag propagation.

(** tool_errors.py:569-627, 656-713: the arrays of ABIXY_TI2 and ABXY_TI2;
    [special] = row 1 gets its own east component (always in ABIXY_TI2, unless
    rev4 in ABXY_TI2) *)
Definition ab_sing (h : header) (l : list wstation) (mag : R) (special : bool) : list V3 :=
  let rows := vstacked (fun a b c =>
    mkV (1/2 * (w_md c - w_md a) * - sin (w_azt b) * mag / h_G h)
        (1/2 * (w_md c - w_md a) * cos (w_azt b) * mag / h_G h) 0) l in
  if special then
    let r1 := nth 1 rows vzero in
    set_nth 1 (mkV (vx r1)
      ((md_of l 2 + md_of l 1 - 2 * md_of l 0) / 2 * mag * cos (nth 1 (map w_azt l) 0) / h_G h)
      (vz r1)) rows
  else rows.
Definition ab_star (h : header) (l : list wstation) (mag : R) (special : bool) : list V3 :=
  let rows := vstacked (fun a b c =>
    mkV (1/2 * (w_md b - w_md a) * - sin (w_azt b) * mag / h_G h)
        (1/2 * (w_md b - w_md a) * cos (w_azt b) * mag / h_G h) 0) l in
  if special then
    let r1 := nth 1 rows vzero in
    set_nth 1 (mkV (vx r1)
      ((md_of l 1 - md_of l 0) * mag * (cos (nth 1 (map w_azt l) 0) / h_G h))
      (vz r1)) rows
  else rows.
(** md[2] does not exist for fewer than three stations: IndexError.  G = 0 counts
    as not finite although python survives it when only station 0 is vertical. *)
Definition ab_error (w : weight) (special : bool) (rev4 : bool) (h : header) (l : list wstation)
  (code : string) (mag : R) (propagation : string) : outcome :=
  if existsb (is_sing h) l then
    if (special && Nat.ltb (length l) 3)%bool then Raises
    else if Req_EM_T (h_G h) 0 then NotFinite
    else sing_error w (ab_sing h l mag special) (ab_star h l mag special) rev4 h l code mag propagation
  else simple_error w rev4 h l code mag propagation.
(** tool_errors.py:541-631 ABIXY_TI2 *)
Definition ABIXY_TI2 (rev4 : bool) := ab_error w_ABIXY_TI2 true rev4.
(** tool_errors.py:634-717 ABXY_TI2 *)
Definition ABXY_TI2 (rev4 : bool) := ab_error w_ABXY_TI2 (negb rev4) rev4.

(** tool_errors.py:917-987 CNA: the azimuth is looked up as
    survey.azi_<azi_reference>_rad, which exists for 'true' and 'grid' only *)
Definition CNA (azi_reference : string) (rev4 : bool) (h : header) (l : list wstation)
  (code : string) (mag : R) (propagation : string) : outcome :=
  if existsb (is_sing h) l then
    match (if String.eqb azi_reference "true" then Some w_azt
           else if String.eqb azi_reference "grid" then Some w_azg else None) with
    | None => Raises
    | Some azi =>
        sing_error w_CNA
          (vstacked (fun a b c => mkV (1/2 * (w_md c - w_md a) * - sin (azi b) * mag)
                                      (1/2 * (w_md c - w_md a) * cos (azi b) * mag) 0) l)
          (vstacked (fun a b c => mkV (1/2 * (w_md b - w_md a) * - sin (azi b) * mag)
                                      (1/2 * (w_md b - w_md a) * cos (azi b) * mag) 0) l)
          rev4 h l code mag propagation
    end
  else simple_error w_CNA rev4 h l code mag propagation.

(** ** Weights with a factor for short intervals *)

(** np.amax((1, sqrt(10 / delta_md))); None = inf or nan *)
Definition interval_coeff (delta_md : R) : option R :=
  if Rlt_dec 0 delta_md then Some (Rmax 1 (sqrt (10 / delta_md))) else None.
Definition coeffs (l : list wstation) : option (list R) :=
  seq_opt (pairwise (fun a b => interval_coeff (w_md b - w_md a)) l).

(** tool_errors.py:1427-1463 the rows 1: of the weights of XYM3E *)
Definition w_XYM3E (h : header) (s : wstation) (c : R) : option V3 :=
  let i := Rabs (cos (w_inc s) * cos (w_azt s) * c) in
  if is_sing h s then Some (mkV 0 i c)
  else a <- fdiv (- Rabs (cos (w_inc s)) * sin (w_azt s)) (sin (w_inc s)) ;
       Some (mkV 0 i (a * c)).
Definition north_only (v : V3) : V3 := mkV (vx v) 0 0.
(** tool_errors.py:1427-1486 XYM3E; md[-2] needs two stations *)
Definition XYM3E (rev4 : bool) (h : header) (l : list wstation) (code : string) (mag : R)
  (propagation : string) : outcome :=
  if Nat.ltb (length l) 2 then Raises else
  match cs <- coeffs l ; seq_opt (map2 (w_XYM3E h) (tl l) cs) with
  | None => NotFinite
  | Some rows =>
      let e_DIA := map (vscale mag) (vzero :: rows) in
      let d := drdp rev4 (map survey_rad l) in
      let e := e_NEV d e_DIA in
      let e' := e_NEV_star d e_DIA in
      if existsb (is_sing h) l then
        given_error rev4 l code e_DIA propagation
          (replace_sing h l e (map north_only e), replace_sing h l e' (map north_only e'))
      else of_generate (generate_error d code e_DIA propagation None)
  end.

(** tool_errors.py:1560-1579 the rows 1: of the weights of XYM4E *)
Definition w_XYM4E (h : header) (s : wstation) (c : R) : option V3 :=
  Some (mkV 0 (cos (w_inc s) * sin (w_azt s) * c)
          (nan0 (a <- fdiv (cos (w_inc s) * cos (w_azt s)) (sin (w_inc s)) ; Some (a * c)))).
(** tool_errors.py:1545-1606 XYM4E *)
Definition XYM4E (rev4 : bool) (h : header) (l : list wstation) (code : string) (mag : R)
  (propagation : string) : outcome :=
  if Nat.ltb (length l) 2 then Raises else
  match cs <- coeffs l ; seq_opt (map2 (w_XYM4E h) (tl l) cs) with
  | None => NotFinite
  | Some rows =>
      let e_DIA := map (vscale mag) (vzero :: rows) in
      let d := drdp rev4 (map survey_rad l) in
      if existsb (is_sing h) l then
        match XYM3E rev4 h l code mag propagation with
        | Made x =>
            given_error rev4 l code e_DIA propagation
              (replace_sing h l (e_NEV d e_DIA) (map (fun v => mkV 0 (vx v) 0) (er_e_NEV x)),
               replace_sing h l (e_NEV_star d e_DIA) (map (fun v => mkV 0 (vx v) 0) (er_e_NEV_star x)))
        | ReturnsNone => Raises
        | o => o
        end
      else of_generate (generate_error d code e_DIA propagation None)
  end.

(** tool_errors.py:1739-1769 the rows 1: of the weights of XYM3L *)
Definition w_XYM3L (s : wstation) (c : R) : option V3 :=
  Some (mkV 0 (Rabs (cos (w_inc s)) * cos (w_azt s) * c)
          (nan0 (a <- fdiv (sin (w_azt s)) (sin (w_inc s)) ;
                 Some (- Rabs (cos (w_inc s)) * a * c)))).
(** tool_errors.py:1778-1814: the arrays for vertical stations, along one axis:
    [ax x] puts x on the north (XYM3L) or east (XYM4L) axis; [cs] are the factors
    of the stations 1..; [c1] is the factor used in row 1 *)
Definition last_interval (l : list wstation) : R :=
  last (pairwise (fun a b => w_md b - w_md a) l) 0.
Definition long_sing (ax : R -> V3) (l : list wstation) (cs : list R) (c1 mag : R) : list V3 :=
  let rows := vzero :: map2 (fun c d => ax (c * d / 2 * mag)) cs
                         (triplewise (fun a b c => w_md c - w_md a) l) ++ [vzero] in
  let rows := set_nth 1 (ax (c1 * (md_of l 2 + md_of l 1 - 2 * md_of l 0) / 2 * mag)) rows in
  set_nth (length l - 1) (ax (last cs 0 * last_interval l / 2 * mag)) rows.
Definition long_star (ax : R -> V3) (l : list wstation) (mag : R) : list V3 :=
  set_nth 1 (ax ((md_of l 1 - md_of l 0) * mag))
    (vzero :: pairwise (fun a b => ax ((w_md b - w_md a) / 2 * mag)) l).
Definition on_north (x : R) : V3 := mkV x 0 0.
Definition on_east (x : R) : V3 := mkV 0 x 0.

(** tool_errors.py:1730-1824 XYM3L *)
Definition XYM3L (rev4 : bool) (h : header) (l : list wstation) (code : string) (mag : R)
  (propagation : string) : outcome :=
  if Nat.ltb (length l) 2 then Raises else
  match coeffs l with
  | None => NotFinite
  | Some cs =>
  match seq_opt (map2 w_XYM3L (tl l) cs) with
  | None => NotFinite
  | Some rows =>
      let e_DIA := map (vscale mag) (nth 0 rows vzero :: rows) in
      let d := drdp rev4 (map survey_rad l) in
      if existsb (is_sing h) l then
        if Nat.ltb (length l) 3 then Raises else
        given_error rev4 l code e_DIA propagation
          (replace_sing h l (e_NEV d e_DIA) (long_sing on_north l cs (nth 1 cs 0) mag),
           replace_sing h l (e_NEV_star d e_DIA) (long_star on_north l mag))
      else of_generate (generate_error d code e_DIA propagation None)
  end
  end.

(** tool_errors.py:1837-1859 the weights of XYM4L; row 0 has the factor 1 *)
Definition w_XYM4L (s : wstation) (c : R) : option V3 :=
  Some (mkV 0 (Rabs (cos (w_inc s)) * sin (w_azt s) * c)
          (nan0 (a <- fdiv (Rabs (cos (w_inc s)) * cos (w_azt s)) (sin (w_inc s)) ; Some (a * c)))).
(** tool_errors.py:1827-1918 XYM4L; the propagation argument is replaced *)
Definition XYM4L (rev4 : bool) (h : header) (l : list wstation) (code : string) (mag : R)
  (propagation : string) : outcome :=
  match coeffs l with
  | None => NotFinite
  | Some cs =>
  match seq_opt (map2 w_XYM4L l (1 :: cs)) with
  | None => NotFinite
  | Some rows =>
      let e_DIA := map (vscale mag) rows in
      let d := drdp rev4 (map survey_rad l) in
      if existsb (is_sing h) l then
        if Nat.ltb (length l) 3 then Raises else
        given_error rev4 l code e_DIA "random"
          (replace_sing h l (e_NEV d e_DIA) (long_sing on_east l cs (nth 0 cs 0) mag),
           replace_sing h l (e_NEV_star d e_DIA) (long_star on_east l mag))
      else of_generate (generate_error d code e_DIA "random" None)
  end
  end.

(** ** Course length terms *)

(** tool_errors.py:1630-1645 the azimuth change in [-pi, pi) and manage_sing *)
Definition wrapped (d : R) : R := rmod (d + PI) (2 * PI) - PI.
Definition xcla_turn (h : header) (a b : wstation) : R :=
  if is_sing h a then 0
  else Rabs (sin (w_inc b) * sin (Rabs (wrapped (w_azt b - w_azt a)))).
(** tool_errors.py:1627-1674 XCLA, rows 1: *)
Definition w_XCLA (tortuosity : R) (h : header) (a b : wstation) : V3 :=
  let d := w_md b - w_md a in
  let m := d * Rmax (xcla_turn h a b) (tortuosity * d) in
  mkV (m * - sin (w_azt b)) (m * cos (w_azt b)) 0.
(** tool_errors.py:1677-1727 XCLH, rows 1: *)
Definition w_XCLH (tortuosity : R) (a b : wstation) : V3 :=
  let d := w_md b - w_md a in
  let m := d * Rmax (Rabs (w_inc b - w_inc a)) (tortuosity * d) in
  mkV (m * cos (w_inc b) * cos (w_azt b)) (m * cos (w_inc b) * sin (w_azt b))
      (m * - sin (w_inc b)).
(** e_DIA itself is passed as e_NEV and as e_NEV_star *)
Definition xcl_error (rows : list V3) (rev4 : bool) (l : list wstation) (code : string)
  (mag : R) (propagation : string) : outcome :=
  let e := map (vscale mag) (match l with [] => [] | _ => vzero :: rows end) in
  given_error rev4 l code e propagation (e, e).
Definition XCLA (tortuosity : R) (rev4 : bool) (h : header) (l : list wstation) (code : string)
  (mag : R) (propagation : string) : outcome :=
  xcl_error (pairwise (w_XCLA tortuosity h) l) rev4 l code mag propagation.
Definition XCLH (tortuosity : R) (rev4 : bool) (h : header) (l : list wstation) (code : string)
  (mag : R) (propagation : string) : outcome :=
  xcl_error (pairwise (w_XCLH tortuosity) l) rev4 l code mag propagation.
(** tool_errors.py:1609-1624 XCL *)
Definition XCL (tortuosity : R) (rev4 : bool) (h : header) (l : list wstation) (code : string)
  (mag : R) (propagation : string) : outcome :=
  if String.eqb code "XCLA" then XCLA tortuosity rev4 h l code mag propagation
  else XCLH tortuosity rev4 h l code mag propagation.

(** ** The dispatch *)

(** tool_errors.py:361-427 the entries of func_dict with a weight of their own *)
Definition simple_weights : list (string * weight) :=
  [("ABXY_TI1", w_ABXY_TI1); ("ABZ", w_ABZ); ("AMIL", w_AMIL);
   ("ASXY_TI1", w_ASXY_TI1); ("ASXY_TI2", w_ASXY_TI2); ("ASXY_TI3", w_ASXY_TI3);
   ("ASZ", w_ASZ); ("DBH", w_DBH); ("AZ", w_AZ); ("DREF", w_DREF); ("DSF", w_DSF);
   ("DST", w_DST); ("MBXY_TI1", w_MBXY_TI1); ("MBXY_TI2", w_MBXY_TI2); ("MBZ", w_MBZ);
   ("MSXY_TI1", w_MSXY_TI1); ("MSXY_TI2", w_MSXY_TI2); ("MSXY_TI3", w_MSXY_TI3);
   ("MSZ", w_MSZ); ("SAG", w_SAG); ("XYM1", w_XYM1); ("SAGE", w_SAGE);
   ("ASIXY_TI1", w_ASIXY_TI1); ("ASIXY_TI2", w_ASIXY_TI2); ("ASIXY_TI3", w_ASIXY_TI3);
   ("ABIXY_TI1", w_ABIXY_TI1); ("ABIZ", w_ABIZ); ("ASIZ", w_ASIZ);
   ("MBIXY_TI1", w_MBIXY_TI1); ("MBIXY_TI2", w_MBIXY_TI2); ("MDI", w_MDI);
   ("MFI", w_MFI); ("MSIXY_TI1", w_MSIXY_TI1); ("MSIXY_TI2", w_MSIXY_TI2);
   ("MSIXY_TI3", w_MSIXY_TI3); ("DBHR", w_DBH); ("AMID", w_AMID); ("CNI", w_CNI)]%string.
Fixpoint lookup {A : Type} (k : string) (d : list (string * A)) : option A :=
  match d with
  | [] => None
  | (k', v) :: r => if String.eqb k k' then Some v else lookup k r
  end.

(** tool_errors.py:280-287 call_func: an unknown name is an AssertionError *)
Definition call_func (azi_reference : string) (tortuosity : R) (rev4 : bool) (h : header)
  (l : list wstation) (code func : string) (mag : R) (propagation : string) : outcome :=
  let is s := String.eqb func s in
  match lookup func simple_weights with
  | Some w => simple_error w rev4 h l code mag propagation
  | None =>
      if is "XYM2"%string then simple_error w_XYM2 rev4 h l code mag "systematic"
      else if is "XYM3"%string then XYM3 rev4 h l code mag propagation
      else if is "XYM4"%string then XYM4 rev4 h l code mag propagation
      else if is "ABXY_TI2"%string then ABXY_TI2 rev4 h l code mag propagation
      else if is "ABIXY_TI2"%string then ABIXY_TI2 rev4 h l code mag propagation
      else if is "XCL"%string then XCL tortuosity rev4 h l code mag propagation
      else if is "XCLA"%string then XCLA tortuosity rev4 h l code mag propagation
      else if is "XCLH"%string then XCLH tortuosity rev4 h l code mag propagation
      else if is "XYM3L"%string then XYM3L rev4 h l code mag propagation
      else if is "XYM4L"%string then XYM4L rev4 h l code mag propagation
      else if is "XYM3E"%string then XYM3E rev4 h l code mag propagation
      else if is "XYM4E"%string then XYM4E rev4 h l code mag propagation
      else if is "CNA"%string then CNA azi_reference rev4 h l code mag propagation
      else Raises
  end.

(** one entry of the 'codes' section of a tool model *)
Record code_entry := mkCode {
  c_name : string; c_function : string; c_magnitude : R; c_propagation : string
}.

Inductive total_outcome := Totals (t : totals) | TotalsRaise | TotalsNotFinite.

(** an exception of a weight function, or a None (AttributeError in the
    summation, tool_errors.py:258), prevents any result *)
Definition fails (o : outcome) : bool :=
  match o with Raises | ReturnsNone => true | _ => false end.
Definition not_finite (o : outcome) : bool :=
  match o with NotFinite => true | _ => false end.
Definition made (o : outcome) : option error :=
  match o with Made e => Some e | _ => None end.

(** tool_errors.py:206-268 ToolError for a model of tool_codes/*.yaml;
    [max_inc] is None when the header has no "Inclination Range Max" *)
Definition yaml_tool_error (azi_reference : string) (tortuosity : R) (max_inc : option R)
  (rev4 : bool) (h : header) (l : list wstation) (codes : list code_entry) : total_outcome :=
  if match max_inc with
     | None => true
     | Some m => forallb (fun s => if Rlt_dec (w_inc s) m then true else false) l
     end
  then
    let os := map (fun c => call_func azi_reference tortuosity rev4 h l (c_name c)
                              (c_function c) (c_magnitude c) (c_propagation c)) codes in
    if existsb fails os then TotalsRaise
    else if existsb not_finite os then TotalsNotFinite
    else match tool_totals (length l) (map made os) with
         | Some t => Totals t
         | None => TotalsRaise
         end
  else TotalsRaise.
