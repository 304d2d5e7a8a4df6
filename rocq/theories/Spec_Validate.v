(** Vocabulary for the comparison of computed covariances with an example workbook. *)
Require Import Reals ZArith Ascii String List Bool.
Require Import Verif.Base Verif.NumPy Verif.M_Utils Verif.M_Text Verif.M_Ingest Verif.Spec_Ingest Verif.M_Validate.
Import ListNotations.
Open Scope list_scope.
Local Open Scope nat_scope.

(** the covariances in the order NN, EE, VV, NE, NV, EV *)
Definition components (m : M3) : list R :=
  [vx (r1 m); vy (r2 m); vz (r3 m); vy (r1 m); vz (r1 m); vz (r2 m)].
(** every value is within [tol] of its target *)
Definition within_abs (tol : R) (target : list ext) (values : list R) : Prop :=
  Forall2 (fun t a => exists r, t = Fin r /\ (Rabs (a - r) <= tol)%R) target values.
(** every value with a target other than zero is within that part of its target;
    a target that is zero or not a number is left out *)
Definition within_rel (tol : R) (target : list ext) (values : list R) : Prop :=
  Forall2 (fun t a => t = NaN \/ exists r, t = Fin r /\ (r = 0 \/ Rabs (a - r) <= tol * Rabs r)%R) target values.
Definition accepted (tol_rel tol_abs : R) (target : list ext) (values : list R) : Prop :=
  within_abs tol_abs target values \/ ((0 <= tol_rel)%R /\ within_rel tol_rel target values).
(** one target stands for all six *)
Definition targets (given full : list ext) : Prop :=
  (length given = 6 /\ full = given) \/ exists t, given = [t] /\ full = repeat t 6.

(** ** the survey built from the workbook *)
Definition in_feet (wp : wellpath) : Prop := exists u, wp_units wp = lit "ft" ++ u.
Definition metres_per_unit (wp : wellpath) (s : R) : Prop := (in_feet wp /\ s = wp_ft_to_m wp) \/ (~ in_feet wp /\ s = 1%R).
Definition describes_input (wp : wellpath) (model : text) (s : R) (i : survey_input) : Prop :=
  si_name i = wp_name wp /\ si_latitude i = wp_latitude wp /\ si_g i = wp_g wp /\ si_btotal i = wp_btotal wp /\
  si_dip i = wp_dip wp /\ si_declination i = wp_declination wp /\ si_model i = model /\
  length (si_md i) = length (wp_stations wp) /\ length (si_inc i) = length (wp_stations wp) /\ length (si_azi i) = length (wp_stations wp) /\
  (forall k md inc azi rest, nth_error (wp_stations wp) k = Some (Fin md :: inc :: azi :: rest) ->
     nth_error (si_md i) k = Some (Fin (md * s)) /\ nth_error (si_inc i) k = Some inc /\ nth_error (si_azi i) k = Some azi).

(** ** the rows compared *)
Definition close_to (m x : R) : Prop := (Rabs (m - x) <= 1 / 10 ^ 8 + 1 / 10 ^ 5 * Rabs x)%R.
(** the first station near the depth [x] *)
Definition station_at (c : computed) (x : R) (i : nat) : Prop :=
  (exists m, nth_error (cp_md c) i = Some m /\ close_to m x) /\
  forall j m, j < i -> nth_error (cp_md c) j = Some m -> ~ close_to m x.
Definition modelled (c : computed) (n : text) : Prop := exists covs, dget text_eqb n (cp_errors c) = Some covs.
Definition comparable (c : computed) (s : R) (v : validation) : Prop :=
  modelled c (vl_source v) /\ exists x i, vl_md v = Fin x /\ station_at c (x * s) i.
Definition describes_source (tol_rel tol_abs : R) (c : computed) (s : R) (v : validation) (o : source_compare) : Prop :=
  sc_code o = vl_source v /\ sc_md o = vl_md v /\ sc_diagnostic o = vl_diagnostic v /\ sc_calculated o = vl_calculated v /\
  exists x i covs m full, vl_md v = Fin x /\ station_at c (x * s) i /\
    dget text_eqb (vl_source v) (cp_errors c) = Some covs /\ nth_error covs i = Some m /\
    sc_welleng o = components m /\ targets (vl_calculated v) full /\
    (sc_ok o = true <-> accepted tol_rel tol_abs full (components m)).
Definition describes_total (tol_rel tol_abs s : R) (c : computed) (md : ext) (nev : list ext) (k : nat) (o : totals_compare) : Prop :=
  exists m, nth_error (cp_total c) k = Some m /\
    (forall x, md = Fin x -> tc_md o = Fin (x * s)) /\ tc_workbook o = nev /\ tc_welleng o = components m /\
    (tc_ok o = true <-> accepted tol_rel tol_abs nev (components m)).
(** targets that can be compared at all *)
Definition usable (given : list ext) : Prop := length given = 6 \/ exists t, given = [t] /\ (t = NaN \/ t = Fin 0).

(** ** alphabetical order, by the numbers of the characters *)
Definition before (a b : text) : Prop :=
  (exists x, x <> [] /\ b = a ++ x) \/
  exists p x y a' b', a = p ++ x :: a' /\ b = p ++ y :: b' /\ nat_of_ascii x < nat_of_ascii y.
Fixpoint alphabetical (l : list text) : Prop :=
  match l with [] => True | a :: r => (forall b, In b r -> before a b) /\ alphabetical r end.

(** ** concrete workbooks for the claims that fail *)
Definition term_cells : list cell :=
  [Blank; Blank; Blank; Num 1; S_ "ABZ"; Blank; S_ "ABZ"; Blank; Blank; Num 1; S_ "m"; S_ "R"].
Definition station_cells (md : R) : list cell := [Blank; Blank; Blank; Blank; Num md; Num 0; Num 0; Num 0].
Definition total_cells (md nn : R) : list cell := [Num md; Num nn; Num 0; Num 0; Num 0; Num 0; Num 0].
Definition names : list cell := map S_ ["NN"; "EE"; "VV"; "NE"; "NV"; "EV"]%string.
(** two stations at 0 and 30 m, the totals and the rows of the Validation sheet as given *)
Definition book (totals checks : list (list cell)) : list (text * sheet) :=
  [(lit "Model", mkSheet [term_cells] []);
   (lit "Wellpath", mkSheet ([Blank] :: [Blank] :: map station_cells [0; 30]%R) []);
   (lit "TOTALS", mkSheet ([Blank] :: (S_ "Md" :: names) :: totals) []);
   (lit "Validation", mkSheet ([Blank] :: ([S_ "MD"; S_ "Source"] ++ names ++ names) :: checks) [])].
(** an error model that gives the covariance NN the value [x] at 30 m and nothing at 0 m *)
Definition constant_engine (x : R) (i : survey_input) : option computed :=
  Some (mkComputed [0; 30]%R [(lit "ABZ", [mzero; mkM (mkV x 0 0) vzero vzero])] [mzero; mkM (mkV x 0 0) vzero vzero]).

(** ** the errors reported *)
Definition greatest (e : R) (P : R -> Prop) : Prop := P e /\ forall x, P x -> (x <= e)%R.
Definition absolute_difference (target values : list R) (x : R) : Prop :=
  exists k t v, nth_error target k = Some t /\ nth_error values k = Some v /\ x = Rabs (v - t).
Definition relative_difference (target values : list R) (x : R) : Prop :=
  exists k t v, nth_error target k = Some t /\ nth_error values k = Some v /\ t <> 0%R /\ x = (Rabs (v - t) / Rabs t)%R.
Definition errors_of (target values : list R) (abs rel : ext) : Prop :=
  (exists a, abs = Fin a /\ greatest a (absolute_difference target values)) /\
  ((Forall (fun t => t = 0%R) target /\ rel = Fin 0) \/ exists e, rel = Fin e /\ greatest e (relative_difference target values)).
