(** Vocabulary for joining surveys. *)
Require Import Reals String List.
Require Import Verif.Base Verif.NumPy Verif.Spec Verif.M_Utils Verif.M_Survey Verif.M_Splice.
Import ListNotations.
Open Scope R_scope.

(** one list per piece, laid end to end without repeating the shared station *)
Definition spliced {A B : Type} (f : A -> list B) (l : list A) : list B :=
  match l with
  | [] => []
  | d :: r => f d ++ flat_map (fun x => tl (f x)) r
  end.

Definition rows_of (d : sdata) : list station := sv_rows (sd_survey d).
Definition positions_of (d : sdata) : list V3 := sv_nev (sd_survey d).
Definition header_of (d : sdata) : header := sv_header (sd_survey d).

(** the positions follow from the rows by minimum curvature *)
Fixpoint traced (rows : list station) (nev : list V3) : Prop :=
  match rows, nev with
  | [_], [_] => True
  | a :: ((b :: _) as r), p :: ((q :: _) as l) =>
      q = vadd p (min_curve_step (st_md b - st_md a) (st_inc a) (st_azi a) (st_inc b) (st_azi b)) /\
      traced r l
  | _, _ => False
  end.

(** each piece starts at the last station of the piece before *)
Fixpoint chained (l : list sdata) : Prop :=
  match l with
  | d :: ((e :: _) as r) =>
      (exists a p, hd_error (rev (rows_of d)) = Some a /\ hd_error (rows_of e) = Some a /\
                   hd_error (rev (positions_of d)) = Some p /\ hd_error (positions_of e) = Some p) /\
      chained r
  | _ => True
  end.

(** a survey object as the constructor leaves it: two stations or more, one
    radius, position and azimuth per station, azimuths that differ by the
    convergence, covariances (if any) for every station *)
Definition built (d : sdata) : Prop :=
  let s := sd_survey d in
  let n := length (sv_rows s) in
  (2 <= n)%nat /\ length (sd_radius d) = n /\ length (sv_nev s) = n /\
  sv_azi_true s = map (fun a => st_azi a + h_convergence (sv_header s)) (sv_rows s) /\
  (forall c, sd_cov_nev d = Some c -> length c = n) /\
  (sd_cov_nev d = None <-> sd_cov_hla d = None).

(** between the covariances of two stations *)
Definition covs (d : sdata) : list M3 := match sd_cov_nev d with Some c => c | None => [] end.
Definition covs_hla (d : sdata) : list M3 := match sd_cov_hla d with Some c => c | None => [] end.

(** what a station at depth [md] gets from the stations [mds] with covariances
    [cs] and radii [rs]: the radius of the last station not below it, and the
    covariance interpolated linearly between that station and the next one (at
    the last station: its own) *)
Definition carried (mds : list R) (cs : list M3) (rs : list R) (md : R) (q : R * M3) : Prop :=
  exists k m r c, nth_error mds k = Some m /\ nth_error rs k = Some r /\ nth_error cs k = Some c /\
    m <= md /\ (forall m', nth_error mds (S k) = Some m' -> md < m') /\
    fst q = r /\
    ((S k = length mds /\ snd q = c) \/
     exists m' c', nth_error mds (S k) = Some m' /\ nth_error cs (S k) = Some c' /\
       snd q = madd (mscale ((m' - md) / (m' - m)) c) (mscale ((md - m) / (m' - m)) c')).
