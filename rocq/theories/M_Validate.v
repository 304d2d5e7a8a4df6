(** Model of /repo/welleng/errors/iscwsa_validate.py: comparing the covariances
    computed for an example workbook with the values in it.  The survey and its
    error model are a parameter ([engine]; None = an exception): they are modelled in
    M_Survey and M_Error.  The computed covariances are finite numbers. *)
Require Import Reals ZArith Ascii String List Bool.
Require Import Verif.Base Verif.NumPy Verif.M_Utils Verif.M_DmsText Verif.M_Text Verif.M_Ingest.
Import ListNotations.
Open Scope list_scope.
Local Open Scope nat_scope.

(** ** numbers that may be infinite or undefined *)
(** x * s *)
Definition scaled_by (s : R) (x : ext) : ext :=
  match x with
  | Fin r => Fin (r * s)%R
  | NaN => NaN
  | PInf => if Rlt_dec 0 s then PInf else if Rlt_dec s 0 then NInf else NaN
  | NInf => if Rlt_dec 0 s then NInf else if Rlt_dec s 0 then PInf else NaN
  end.
(** np.abs(a - t) *)
Definition gap (a : R) (t : ext) : ext :=
  match t with Fin r => Fin (Rabs (a - r)) | PInf | NInf => PInf | NaN => NaN end.
(** np.abs(x) > 0 *)
Definition nonzero (x : ext) : bool :=
  match x with Fin r => if Req_EM_T r 0 then false else true | PInf | NInf => true | NaN => false end.
(** np.abs(a - t) / np.abs(t) where [nonzero t] *)
Definition relative_gap (a : R) (t : ext) : ext :=
  match t with Fin r => Fin (Rabs (a - r) / Rabs r) | _ => NaN end.
(** np.max: undefined if one of them is; None = ValueError *)
Definition emax2 (x y : ext) : ext :=
  match x, y with
  | NaN, _ | _, NaN => NaN
  | PInf, _ | _, PInf => PInf
  | NInf, z | z, NInf => z
  | Fin a, Fin b => Fin (Rmax a b)
  end.
Definition np_max (l : list ext) : option ext :=
  match l with [] => None | x :: r => Some (fold_left emax2 r x) end.
(** x <= tol *)
Definition at_most (x : ext) (tol : R) : bool :=
  match x with Fin r => if Rle_dec r tol then true else false | NInf => true | PInf | NaN => false end.

(** line 183: np.max(np.abs(packed - target)) with numpy's broadcasting; None = ValueError *)
Definition abs_error (target : list ext) (packed : list R) : option ext :=
  if Nat.eqb (length target) (length packed)
  then np_max (map (fun tp => gap (snd tp) (fst tp)) (combine target packed))
  else match target with [t] => np_max (map (fun p => gap p t) packed) | _ => None end.
(** iscwsa_validate.py:139-144 _relative_error; None = IndexError *)
Definition relative_error (expected : list ext) (actual : list R) : option ext :=
  if existsb nonzero expected then
    if Nat.eqb (length expected) (length actual)
    then np_max (map (fun tp => relative_gap (snd tp) (fst tp)) (filter (fun tp => nonzero (fst tp)) (combine expected actual)))
    else None
  else Some (Fin 0).
(** lines 176-178 and 204-207 *)
Definition pack (m : M3) : list R :=
  [vx (r1 m); vy (r2 m); vz (r3 m); vy (r1 m); vz (r1 m); vz (r2 m)].

(** ** the survey *)
(** lines 107-136 _build_survey: what is handed to SurveyHeader and Survey (the
    convergence is 0 and the azimuths refer to true north) *)
Record survey_input := mkInput {
  si_name : text; si_latitude : ext; si_g : ext; si_btotal : ext; si_dip : ext; si_declination : ext;
  si_md : list ext; si_inc : list ext; si_azi : list ext; si_model : text
}.
(** what is read from the survey: depths, the covariances of each error source, their sum *)
Record computed := mkComputed { cp_md : list R; cp_errors : list (text * list M3); cp_total : list M3 }.
(** lines 132 and 165 *)
Definition depth_scale (wp : wellpath) : R := if starts_with (lit "ft") (wp_units wp) then wp_ft_to_m wp else 1%R.
(** None = IndexError: no stations *)
Definition build_survey (wp : wellpath) (model : text) : option survey_input :=
  match wp_stations wp with
  | [] => None
  | _ =>
      Some (mkInput (wp_name wp) (wp_latitude wp) (wp_g wp) (wp_btotal wp) (wp_dip wp) (wp_declination wp)
              (map (fun s => scaled_by (depth_scale wp) (nth 0 s NaN)) (wp_stations wp))
              (map (fun s => nth 1 s NaN) (wp_stations wp)) (map (fun s => nth 2 s NaN) (wp_stations wp)) model)
  end.

(** ** comparison *)
Record source_compare := mkSource {
  sc_code : text; sc_md : ext; sc_diagnostic : list ext; sc_calculated : list ext; sc_welleng : list R;
  sc_abs : ext; sc_rel : ext; sc_ok : bool
}.
Record totals_compare := mkTotals {
  tc_md : ext; tc_workbook : list ext; tc_welleng : list R; tc_abs : ext; tc_rel : ext; tc_ok : bool
}.
Record report := mkReport { rp_sources : list source_compare; rp_totals : list totals_compare; rp_missing : list text }.

(** np.isclose(a, b) with its default tolerances, a finite *)
Definition isclose (a : R) (b : ext) : bool :=
  match b with Fin r => if Rle_dec (Rabs (a - r)) (1 / 10 ^ 8 + 1 / 10 ^ 5 * Rabs r) then true else false | _ => false end.
(** the first place where [p] holds *)
Fixpoint first_where {A : Type} (p : A -> bool) (l : list A) : option nat :=
  match l with [] => None | a :: r => if p a then Some 0 else option_map S (first_where p r) end.
(** lines 183-186: absolute error, relative error, verdict; None = an exception *)
Definition judge (tol_rel tol_abs : R) (target : list ext) (packed : list R) : option (ext * ext * bool) :=
  match abs_error target packed, relative_error target packed with
  | Some a, Some r => Some (a, r, (at_most a tol_abs || at_most r tol_rel)%bool)
  | _, _ => None
  end.
(** lines 169-198, one row of the Validation sheet; None = an exception *)
Definition compare_source (tol_rel tol_abs scale : R) (c : computed) (v : validation) : option (list source_compare) :=
  match dget text_eqb (vl_source v) (cp_errors c) with
  | None => Some []
  | Some covs =>
      match first_where (fun m => isclose m (scaled_by scale (vl_md v))) (cp_md c) with
      | None => Some []
      | Some i =>
          match nth_error covs i with
          | None => None
          | Some m =>
              match judge tol_rel tol_abs (vl_calculated v) (pack m) with
              | None => None
              | Some (a, r, ok) =>
                  Some [mkSource (vl_source v) (vl_md v) (vl_diagnostic v) (vl_calculated v) (pack m) a r ok]
              end
          end
      end
  end.
(** lines 200-214: the rows of the TOTALS sheet, by their number; None = an exception *)
Fixpoint compare_totals (tol_rel tol_abs scale : R) (total : list M3) (mds : list ext) (nevs : list (list ext)) {struct mds} : option (list totals_compare) :=
  match mds with
  | [] => Some []
  | md :: mds' =>
      match nevs, total with
      | nev :: nevs', m :: total' =>
          match judge tol_rel tol_abs nev (pack m), compare_totals tol_rel tol_abs scale total' mds' nevs' with
          | Some (a, r, ok), Some l => Some (mkTotals (scaled_by scale md) nev (pack m) a r ok :: l)
          | _, _ => None
          end
      | _, _ => None
      end
  end.
(** comparison of texts by their characters, sorted() of a set *)
Fixpoint text_leb (a b : text) : bool :=
  match a, b with
  | [], _ => true
  | _, [] => false
  | x :: a', y :: b' => if Ascii.eqb x y then text_leb a' b' else Nat.ltb (nat_of_ascii x) (nat_of_ascii y)
  end.
Fixpoint insert_text (x : text) (l : list text) : list text :=
  match l with
  | [] => [x]
  | y :: r => if text_eqb x y then l else if text_leb x y then x :: l else y :: insert_text x r
  end.
Definition sorted_set (l : list text) : list text := fold_right insert_text [] l.
(** iscwsa_validate.py:147-224 validate_workbook, given the sheets of the workbook; None = an exception *)
Definition validate_workbook (engine : survey_input -> option computed) (py : python) (wb : list (text * sheet))
    (model : text) (tol_rel tol_abs : R) : option report :=
  match load_iscwsa_example py wb with
  | None => None
  | Some ex =>
      match build_survey (ex_wellpath ex) model with
      | None => None
      | Some inp =>
          match engine inp with
          | None => None
          | Some c =>
              let scale := depth_scale (ex_wellpath ex) in
              let missing := sorted_set (filter (fun n => match dget text_eqb n (cp_errors c) with Some _ => false | None => true end)
                                           (map tm_code (ex_terms ex))) in
              match all_some (map (compare_source tol_rel tol_abs scale c) (ex_validation ex)),
                    compare_totals tol_rel tol_abs scale (cp_total c) (cs_md (ex_totals ex)) (cs_nev (ex_totals ex)) with
              | Some s, Some t => Some (mkReport (concat s) t missing)
              | _, _ => None
              end
          end
      end
  end.
(** lines 65-70 source_pass_fail *)
Definition source_pass_fail (r : report) : list (text * bool) :=
  fold_left (fun d s => dput text_eqb (sc_code s)
      (match dget text_eqb (sc_code s) d with Some b => (b && sc_ok s)%bool | None => sc_ok s end) d) (rp_sources r) [].
(** lines 247-248 of main: the exit code *)
Definition exit_code (r : report) : nat :=
  if Nat.eqb (length (filter (fun cb => negb (snd cb)) (source_pass_fail r))) 0 then 0 else 1.
