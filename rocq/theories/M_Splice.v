(** Model of /repo/welleng/survey.py: SurveyData (3070-3157), splice_surveys
    (3160-3189), the radius and covariance attributes of a survey
    (_get_radius 838-845, the part of _get_errors after the error model,
    958-974) and the covariance and radius loop of interpolate_survey
    (2772-2816). *)
Require Import Reals ZArith Bool String List.
Require Import Verif.Base Verif.NumPy Verif.M_Utils Verif.M_Survey.
Import ListNotations.
Open Scope R_scope.

(** a survey with its covariances and radii *)
Record sdata := mkSD {
  sd_survey : survey;
  sd_cov_nev : option (list M3);
  sd_cov_hla : option (list M3);
  sd_radius : list R
}.

(** welleng/survey.py:838-845 _get_radius: default, one value (also a list of
    one), or one value per station; None = AssertionError.  An empty list is
    never as long as md here (a survey has two stations). *)
Definition get_radius (n : nat) (radius : option (list R)) : option (list R) :=
  match radius with
  | None => Some (repeat (3048 / 10000) n)
  | Some [r] => Some (repeat r n)
  | Some l => if Nat.eqb (length l) n then Some l else None
  end.

(** welleng/survey.py:958-974 _get_errors with error_model None: covariances
    passed to the constructor, rotated by NEV_to_HLA / HLA_to_NEV with the rows
    (survey_rad); start_cov_nev is added to every row. *)
Definition rotate_rows (f : R -> R -> M3 -> M3) (rows : list station) (c : list M3) : list M3 :=
  map (fun p => f (st_inc (fst p)) (st_azi (fst p)) (snd p)) (combine rows c).
Definition given_covariances (rows : list station) (nev hla : option (list M3))
  (start : option M3) : option (list M3) * option (list M3) :=
  let '(nev, hla) :=
    match nev, hla with
    | Some c, None => (Some c, Some (rotate_rows NEV_to_HLA_cov rows c))
    | None, Some c => (Some (rotate_rows HLA_to_NEV_cov rows c), Some c)
    | _, _ => (nev, hla)
    end in
  match start, nev with
  | Some m, Some c =>
      let c' := map (fun x => madd x m) c in
      (Some c', Some (rotate_rows NEV_to_HLA_cov rows c'))
  | _, _ => (nev, hla)
  end.

(** the outcomes of splice_surveys *)
Inductive splice_result :=
  | SpliceOk (d : sdata)
  | SpliceIndex          (* IndexError: empty list *)
  | SpliceAttribute      (* AttributeError *)
  | SpliceType           (* TypeError: None is not subscriptable *)
  | SpliceAssertion.     (* AssertionError of the Survey constructor *)

(** welleng/survey.py:3089-3092, 3109-3117: the attribute azi_<reference>_rad of
    a survey; there is no azi_magnetic_rad *)
Definition named_azimuths (ref : azi_ref) (s : survey) : option (list R) :=
  match ref with
  | RefTrue => Some (sv_azi_true s)
  | RefGrid => Some (map st_azi (sv_rows s))
  | RefMagnetic => None
  end.

(** the attributes of a SurveyData object *)
Record joined := mkJoined {
  jn_header : header;
  jn_md : list R;
  jn_inc : list R;
  jn_azi : list R;
  jn_start_nev : V3;
  jn_start_xyz : V3;
  jn_cov_nev : option (list M3);
  jn_cov_hla : option (list M3);
  jn_radius : list R
}.

(** welleng/survey.py:3077-3097 SurveyData.__init__; start_nev and start_xyz are
    the first n/e/tvd and x/y/z of the survey *)
Definition survey_data (d : sdata) : option joined :=
  let s := sd_survey d in
  match named_azimuths (h_ref (sv_header s)) s with
  | None => None
  | Some azi =>
      Some (mkJoined (sv_header s) (map st_md (sv_rows s)) (map st_inc (sv_rows s)) azi
              (hd vzero (sv_nev s)) (hd vzero (sv_xyz s))
              (sd_cov_nev d) (sd_cov_hla d) (sd_radius d))
  end.

(** hstack of flattened covariances, reshaped to (-1, 3, 3) (lines 3118-3129) *)
Definition join_cov (a b : option (list M3)) : list M3 + splice_result :=
  match a, b with
  | None, _ => inr SpliceAttribute
  | Some _, None => inr SpliceType
  | Some x, Some y => inl (x ++ tl y)
  end.

(** welleng/survey.py:3099-3130 append_survey *)
Definition append_survey (j : joined) (d : sdata) : joined + splice_result :=
  let s := sd_survey d in
  match named_azimuths (h_ref (jn_header j)) s with
  | None => inr SpliceAttribute
  | Some azi =>
      match join_cov (jn_cov_nev j) (sd_cov_nev d) with
      | inr e => inr e
      | inl nev =>
          match join_cov (jn_cov_hla j) (sd_cov_hla d) with
          | inr e => inr e
          | inl hla =>
              inl (mkJoined (jn_header j)
                     (jn_md j ++ tl (map st_md (sv_rows s)))
                     (jn_inc j ++ tl (map st_inc (sv_rows s)))
                     (jn_azi j ++ tl azi)
                     (jn_start_nev j) (jn_start_xyz j)
                     (Some nev) (Some hla)
                     (jn_radius j ++ tl (sd_radius d)))
          end
      end
  end.
Fixpoint append_all (j : joined) (l : list sdata) : joined + splice_result :=
  match l with
  | [] => inl j
  | d :: r => match append_survey j d with
              | inr e => inr e
              | inl j' => append_all j' r
              end
  end.

(** welleng/survey.py:3132-3157 get_survey: deg=False and the default unit *)
Definition get_survey (j : joined) : splice_result :=
  let rows := combine (combine (jn_md j) (jn_inc j)) (jn_azi j) in
  match Survey (jn_header j) rows false (jn_start_xyz j) (jn_start_nev j) "meters" with
  | None => SpliceAssertion
  | Some s =>
      match get_radius (length rows) (Some (jn_radius j)) with
      | None => SpliceAssertion
      | Some r =>
          let '(nev, hla) := given_covariances (sv_rows s) (jn_cov_nev j) (jn_cov_hla j) None in
          SpliceOk (mkSD s nev hla r)
      end
  end.

(** welleng/survey.py:3160-3189 splice_surveys on a list *)
Definition splice_surveys (l : list sdata) : splice_result :=
  match l with
  | [] => SpliceIndex
  | d :: r =>
      match survey_data d with
      | None => SpliceAttribute
      | Some j =>
          match append_all j r with
          | inr e => e
          | inl j' => get_survey j'
          end
      end
  end.

(** welleng/survey.py:2776-2808 interpolate_survey, the loop over the mds of the
    new survey.  [i] is the number of stations of the old survey met so far
    (i + 1 of the code); None = IndexError, or nothing met yet (the code then
    reads the last element, but the first md is always a station).
    Result: radius and covariance at each md. *)
Definition cov_step (mds : list R) (covs : list M3) (i : nat) (md : R) : option M3 :=
  match nth_error mds i, nth_error covs i with
  | Some m, Some c =>
      if Nat.ltb i (length mds - 1) then
        match nth_error mds (S i), nth_error covs (S i) with
        | Some m', Some c' => Some (madd c (mscale ((md - m) / (m' - m)) (msub c' c)))
        | _, _ => None
        end
      else Some c
  | _, _ => None
  end.
Definition in_mds (mds : list R) (md : R) : bool :=
  existsb (fun m => if Req_EM_T m md then true else false) mds.
Fixpoint carry_covariances (mds : list R) (covs : list M3) (radii : list R)
  (met : nat) (new : list R) : option (list (R * M3)) :=
  match new with
  | [] => Some []
  | md :: r =>
      let met' := if in_mds mds md then S met else met in
      match met' with
      | O => None
      | S i =>
          match nth_error radii i, cov_step mds covs i md, carry_covariances mds covs radii met' r with
          | Some q, Some c, Some l => Some ((q, c) :: l)
          | _, _, _ => None
          end
      end
  end.
