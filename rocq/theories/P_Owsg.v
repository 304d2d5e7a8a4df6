(** C172: converting the workbooks of tool models. *)
Require Import Reals ZArith Bool Ascii String List Lra Lia.
Require Import Verif.Base Verif.NumPy Verif.P_Trig Verif.M_Owsg Verif.Spec_Owsg.
Import ListNotations.
Open Scope list_scope.
Local Open Scope R_scope.

Section Sheet.
  Variables (show plain : R -> string) (strip : string -> string) (read_float : string -> option R) (read_int : string -> option Z).
  Notation convert := (convert_rows show plain strip read_float read_int).
  Lemma scrub_text : forall c, text_of show c (scrub show c).
  Proof. intros [|x|s]; unfold text_of; cbn; eauto. Qed.
  Lemma text_scrub : forall c s, text_of show c s -> s = scrub show c.
  Proof. intros c s [[-> ->]|[(x & -> & ->)| ->]]; reflexivity. Qed.
  Lemma formula_text : forall c, formula_of plain strip c (formula_str plain strip c).
  Proof. intros [|x|s]; unfold formula_of; cbn; eauto. Qed.
  Lemma singular_text : forall c, singular_of show strip c (singularity show strip c).
  Proof.
    intros [|x|s]; unfold singular_of; cbn; eauto. destruct (Req_EM_T x 0) as [->|N]; [auto|]. right. left. eauto.
  Qed.
  Lemma zero_whole : forall x, (0 <= x /\ IZR (toward_zero x) <= x < IZR (toward_zero x) + 1) \/
    (x < 0 /\ IZR (toward_zero x) - 1 < x <= IZR (toward_zero x)).
  Proof.
    intro x. unfold toward_zero. destruct (Rlt_dec x 0) as [L|L].
    - right. split; [exact L|]. rewrite opp_IZR. pose proof (rfloor_spec (- x)). lra.
    - left. split; [lra|]. pose proof (rfloor_spec x). lra.
  Qed.
  Lemma factor_whole : forall c n, factor read_int c = Some n -> whole_of read_int c n.
  Proof.
    intros [|x|s] n H; cbn in H; unfold whole_of.
    - injection H as <-. auto.
    - injection H as <-. right. right. exists x. split; [reflexivity|apply zero_whole].
    - right. left. eauto.
  Qed.
  Lemma magnitude_size : forall c, size_of read_float c (fst (magnitude read_float c)).
  Proof.
    intros [|x|s]; unfold size_of; cbn; auto. right. right. exists s. split; [reflexivity|]. destruct (read_float s); cbn; auto.
  Qed.
  Lemma mode_propagates : forall p, propagates p (mode_of p).
  Proof.
    intro p. unfold mode_of. cbn [find mode_map fst snd].
    destruct (String.eqb_spec "R" p) as [<-|N1]; [constructor|]. destruct (String.eqb_spec "S" p) as [<-|N2]; [constructor|].
    destruct (String.eqb_spec "G" p) as [<-|N3]; [constructor|]. destruct (String.eqb_spec "W" p) as [<-|N4]; [constructor|].
    constructor. cbn. intuition congruence.
  Qed.
  Lemma mode_known : forall p, existsb (fun e => String.eqb (fst e) p) mode_map = true <-> In p ["R"; "S"; "G"; "W"]%string.
  Proof.
    intro p. rewrite existsb_exists. unfold mode_map. cbn. split.
    - intros (e & H & E). apply String.eqb_eq in E. subst p. intuition (subst; cbn; auto).
    - intros [<-|[<-|[<-|[<-|[]]]]]; [exists ("R", "Random")%string|exists ("S", "Systematic")%string|exists ("G", "Global")%string|exists ("W", "Well")%string]; (split; [tauto|reflexivity]).
  Qed.
  Lemma unit_known : forall u, existsb (String.eqb u) allowed_units = true <-> In u allowed_units.
  Proof.
    intro u. rewrite existsb_exists. split; [intros (x & I & E); apply String.eqb_eq in E; subst; exact I|]. intro I. exists u. split; [exact I|apply String.eqb_refl].
  Qed.
  Lemma row_term : forall r t w, convert_row show plain strip read_float read_int r = Some (t, w) ->
    term_of show plain strip read_float read_int r t /\ forall x, In x w <-> warned show read_float r x.
  Proof.
    intros r t w H. unfold convert_row in H. cbv zeta in H. pose proof (magnitude_size (r_magnitude r)) as MS.
    destruct (magnitude read_float (r_magnitude r)) as [v bad] eqn:M. cbn [fst] in MS.
    destruct (factor read_int (r_p1 r)) as [a|] eqn:A; [|discriminate]. destruct (factor read_int (r_p2 r)) as [b|] eqn:B; [|discriminate].
    destruct (factor read_int (r_p3 r)) as [c|] eqn:C; [|discriminate].
    match type of H with Some (?a, ?b) = Some _ => assert (E1 : t = a) by congruence; assert (E2 : w = b) by congruence end. subst t w. clear H. split.
    - unfold term_of; cbn. repeat split; auto using scrub_text, formula_text, singular_text, factor_whole.
      exists (scrub show (r_prop r)). split; [apply scrub_text|apply mode_propagates].
    - intro x. rewrite !in_app_iff. unfold warned. split.
      + intro H. exists (scrub show (r_code r)). split; [apply scrub_text|]. destruct H as [H|[H|H]].
        * destruct (existsb _ allowed_units) eqn:E in H; [destruct H|]. destruct H as [<-|[]]. left. exists (scrub show (r_units r)).
          split; [apply scrub_text|]. split; [|reflexivity]. intro I. apply unit_known in I. congruence.
        * destruct (existsb _ mode_map) eqn:E in H; [destruct H|]. destruct H as [<-|[]]. right. left. exists (scrub show (r_prop r)).
          split; [apply scrub_text|]. split; [|reflexivity]. intro I. apply mode_known in I. congruence.
        * destruct bad as [s|]; [|destruct H]. destruct H as [<-|[]]. right. right. exists s.
          destruct (r_magnitude r) as [|y|u]; cbn in M; try discriminate. destruct (read_float u) eqn:F; [discriminate|]. injection M as _ <-. auto.
      + intros (code & T & H). apply text_scrub in T. subst code. destruct H as [(u & T & N & ->)|[(p & T & N & ->)|(s & E & F & ->)]].
        * left. apply text_scrub in T. subst u. destruct (existsb _ allowed_units) eqn:E; [apply unit_known in E; contradiction|]. left. reflexivity.
        * right. left. apply text_scrub in T. subst p. destruct (existsb _ mode_map) eqn:E; [apply mode_known in E; contradiction|]. left. reflexivity.
        * right. right. rewrite E in M. cbn in M. rewrite F in M. injection M as _ <-. left. reflexivity.
  Qed.
  Lemma code_there : forall r, (exists x, r_no r = Number x) -> (a_term show r <-> scrub show (r_code r) <> ""%string).
  Proof.
    intros r N. unfold a_term. split.
    - intros (_ & [(x & -> & H)|(s & -> & H)]); exact H.
    - intro H. split; [exact N|]. destruct (r_code r) as [|x|s]; cbn in H; [congruence|left|right]; eauto.
  Qed.
  Lemma sheet_terms : forall rows ts ws, convert_terms show plain strip read_float read_int rows = Some (ts, ws) ->
    exists ks, picked (a_term show) rows ks /\ Forall2 (term_of show plain strip read_float read_int) ks ts /\
      forall w, In w ws <-> exists r, In r ks /\ warned show read_float r w.
  Proof.
    unfold convert_terms, term_rows. induction rows as [|r rows IH]; intros ts ws H; cbn [filter] in H.
    - injection H as <- <-. exists []. split; [constructor|]. split; [constructor|]. intro w. split; [intros []|intros (r & [] & _)].
    - destruct (numbered r) eqn:N; unfold numbered in N.
      + assert (X : exists x, r_no r = Number x) by (destruct (r_no r); try discriminate; eauto). cbn [convert_rows] in H.
        destruct (String.eqb_spec (scrub show (r_code r)) "") as [E|E].
        * destruct (IH _ _ H) as (ks & P & F & W). exists ks. split; [|auto]. constructor; [|exact P]. rewrite (code_there r X). congruence.
        * destruct (convert_row show plain strip read_float read_int r) as [[t w]|] eqn:C; [|discriminate].
          destruct (convert (filter numbered rows)) as [[ts' ws']|] eqn:R; [|discriminate]. injection H as <- <-.
          destruct (IH _ _ eq_refl) as (ks & P & F & W). destruct (row_term _ _ _ C) as [T WR]. exists (r :: ks).
          split; [constructor; [apply code_there; assumption|exact P]|]. split; [constructor; assumption|].
          intro x. rewrite in_app_iff, WR, W. cbn. split.
          -- intros [H|(k & K & H)]; eauto.
          -- intros (k & [<-|K] & H); eauto.
      + destruct (IH _ _ H) as (ks & P & F & W). exists ks. split; [|auto]. constructor; [|exact P]. intros ((x & E) & _). rewrite E in N. discriminate.
  Qed.
  (** it fails only for a factor that is a text and not a whole number *)
  Lemma sheet_fails : forall rows, convert_terms show plain strip read_float read_int rows = None <->
    exists r t, In r rows /\ a_term show r /\ In (Words t) [r_p1 r; r_p2 r; r_p3 r] /\ read_int t = None.
  Proof.
    assert (FN : forall c, factor read_int c = None <-> exists t, c = Words t /\ read_int t = None).
    { intros [|x|s]; cbn; split; try discriminate; try (intros (t & E & _); discriminate); eauto. intros (t & [= ->] & E). exact E. }
    assert (RN : forall r, convert_row show plain strip read_float read_int r = None <-> exists t, In (Words t) [r_p1 r; r_p2 r; r_p3 r] /\ read_int t = None).
    { intro r. unfold convert_row. cbv zeta. destruct (magnitude read_float (r_magnitude r)) as [v bad]. split.
      - destruct (factor read_int (r_p1 r)) as [a|] eqn:A; [destruct (factor read_int (r_p2 r)) as [b|] eqn:B; [destruct (factor read_int (r_p3 r)) as [c|] eqn:C; [discriminate|]|]|];
          intros _; [apply FN in C as (t & C & E)|apply FN in B as (t & C & E)|apply FN in A as (t & C & E)]; exists t; (split; [cbn; rewrite C; auto|exact E]).
      - intros (t & I & E). cbn in I. destruct I as [I|[I|[I|[]]]]; rewrite I; cbn [factor]; rewrite E; [reflexivity| |]; destruct (factor read_int (r_p1 r)); try reflexivity.
        destruct (factor read_int (r_p2 r)); reflexivity. }
    unfold convert_terms, term_rows. induction rows as [|r rows IH]; cbn [filter].
    - split; [discriminate|intros (r & t & [] & _)].
    - destruct (numbered r) eqn:N; unfold numbered in N.
      + assert (X : exists x, r_no r = Number x) by (destruct (r_no r); try discriminate; eauto). cbn [convert_rows].
        destruct (String.eqb_spec (scrub show (r_code r)) "") as [E|E].
        * rewrite IH. split; intros (k & t & K & T & R).
          -- exists k, t. cbn. auto.
          -- destruct K as [<-|K]; [apply code_there in T; [congruence|exact X]|]. exists k, t. auto.
        * destruct (convert_row show plain strip read_float read_int r) as [[t w]|] eqn:C.
          -- destruct (convert (filter numbered rows)) as [[ts' ws']|] eqn:R.
             ++ split; [discriminate|]. intros (k & u & K & T & I & U). exfalso. destruct K as [<-|K].
                ** assert (Z : convert_row show plain strip read_float read_int r = None) by (apply RN; eauto). congruence.
                ** assert (Z : Some (ts', ws') = None) by (apply IH; exists k, u; auto). discriminate.
             ++ split; [|reflexivity]. intros _. destruct (proj1 IH eq_refl) as (k & u & K & T & I & U). exists k, u. cbn. auto.
          -- split; [|reflexivity]. intros _. apply RN in C. destruct C as (u & I & U). exists r, u.
             split; [left; reflexivity|]. split; [apply code_there; assumption|auto].
      + rewrite IH. split; intros (k & t & K & T & R).
        * exists k, t. cbn. auto.
        * destruct K as [<-|K]; [destruct T as ((x & Y) & _); rewrite Y in N; discriminate|]. exists k, t. auto.
  Qed.
End Sheet.
Lemma degrees_iff : forall read_deg c n, degrees_of read_deg c n <-> inc_range read_deg c = Some n.
Proof.
  intros rd [|x|t] n; unfold degrees_of; cbn; split.
  - intros [(t & E & _)|(x & E & _)]; discriminate.
  - discriminate.
  - intros [(t & E & _)|(y & E & H)]; [discriminate|]. injection E as <-. f_equal. pose proof (zero_whole x) as W. apply Z.le_antisymm; apply Z.lt_succ_r; apply lt_IZR; rewrite succ_IZR; lra.
  - intro H. right. exists x. split; [reflexivity|]. assert (E : toward_zero x = n) by congruence. subst n. apply zero_whole.
  - intros [(u & E & H)|(y & E & _)]; [congruence|discriminate].
  - intro H. left. eauto.
Qed.
Lemma unstated_iff : forall read_deg c, unstated read_deg c <-> inc_range read_deg c = None.
Proof.
  intros rd [|x|t]; unfold unstated; cbn; split; auto; try discriminate.
  - intros [E|(t & E & _)]; discriminate.
  - intros [E|(u & E & H)]; congruence.
  - intro H. right. eauto.
Qed.
Lemma limits_iff : forall read_deg lo hi a b, inc_limits read_deg lo hi = (a, b) <->
  (degrees_of read_deg lo a \/ (unstated read_deg lo /\ a = 0%Z)) /\
  ((degrees_of read_deg hi b /\ b <> 0%Z) \/ ((unstated read_deg hi \/ degrees_of read_deg hi 0) /\ b = 180%Z)).
Proof.
  intros rd lo hi a b. rewrite !degrees_iff, !unstated_iff. unfold inc_limits, or_else.
  destruct (inc_range rd lo) as [n|], (inc_range rd hi) as [m|]; try destruct (Z.eqb_spec n 0); try destruct (Z.eqb_spec m 0); split; intro H;
    repeat match goal with
    | H : (_, _) = (_, _) |- _ => injection H as ? ?
    | H : _ /\ _ |- _ => destruct H
    | H : _ \/ _ |- _ => destruct H
    | H : Some _ = Some _ |- _ => injection H as ?
    end; subst; try discriminate; try congruence; try (exfalso; congruence); intuition congruence.
Qed.
Lemma limits_zero : forall read_deg lo, unstated read_deg lo -> degrees_of read_deg (Number 0) 0 /\ inc_limits read_deg lo (Number 0) = (0, 180)%Z.
Proof.
  intros rd lo U. assert (D : degrees_of rd (Number 0) 0) by (right; exists 0; split; [reflexivity|lra]). split; [exact D|].
  apply limits_iff. auto.
Qed.
(** ** files *)
Lemma range_iff : forall lo hi c, in_range lo hi c = true <-> (lo <= nat_of_ascii c <= hi)%nat.
Proof. intros. unfold in_range. rewrite andb_true_iff, !Nat.leb_le. lia. Qed.
Lemma kept_iff : forall c, kept c = true <-> plain_character c.
Proof.
  intro c. unfold kept, plain_character. cbv zeta. rewrite !orb_true_iff, !range_iff, existsb_exists. split.
  - intros [[[H|H]|H]|(x & I & E)]; auto. apply Ascii.eqb_eq in E. subst x. auto.
  - intros [H|[H|[H|H]]]; auto. right. exists c. split; [exact H|apply Ascii.eqb_refl].
Qed.
Lemma file_collision : forall s t, json_file s = json_file t <-> Forall2 alike s t.
Proof.
  assert (C : forall a b, (if kept a then a else "_"%char) = (if kept b then b else "_"%char) <-> alike a b).
  { intros a b. unfold alike. cbv zeta. pose proof (kept_iff a) as A. pose proof (kept_iff b) as B.
    destruct (kept a), (kept b); split; intro H; try tauto.
    - destruct H as [H|[[-> | H] [-> | H2]]]; tauto.
    - right. split; [left; exact H|right; intro P; apply B in P; discriminate].
    - destruct H as [->|[[H|H] _]]; [exfalso; assert (true = false -> False) by discriminate; intuition|exact H|tauto].
    - right. split; [right; intro P; apply A in P; discriminate|left; symmetry; exact H].
    - destruct H as [->|[_ [H|H]]]; [exfalso; intuition discriminate|symmetry; exact H|tauto].
    - right. split; right; intro P; [apply A in P|apply B in P]; discriminate. }
  intros s t. unfold json_file. split.
  - intro H. apply app_inv_tail in H. revert t H. induction s as [|a s IH]; intros [|b t] H; cbn in H; try discriminate; [constructor|].
    assert (H1 := f_equal (hd "_"%char) H). assert (H2 := f_equal (@tl ascii) H). cbn in H1, H2. constructor; [apply C; exact H1|apply IH; exact H2].
  - intro H. f_equal. induction H as [|a b s t AB H IH]; [reflexivity|]. cbn. apply C in AB. rewrite AB. f_equal. exact IH.
Qed.
  Lemma named_iff : forall n f, file_named n f <-> f = json_file n.
  Proof.
    intros n f. unfold file_named, json_file, safe_filename. split.
    - intros (g & -> & H). f_equal. induction H as [|c d n g CD H IH]; [reflexivity|]. cbn. f_equal; [|exact IH].
      pose proof (kept_iff c) as K. destruct (kept c), CD as [[P ->]|[P ->]]; try reflexivity; intuition discriminate.
    - intros ->. eexists. split; [reflexivity|]. induction n as [|c n IH]; cbn; constructor; [|exact IH].
      pose proof (kept_iff c) as K. destruct (kept c); [left; intuition|right; split; [intro P; apply K in P; discriminate|reflexivity]].
  Qed.
Section Book.
  Context {J W : Type}.
  Variable convert : list ascii -> list row -> option (J * W).
  Lemma name_eqb_iff : forall a b, name_eqb a b = true <-> a = b.
  Proof. intros a b. unfold name_eqb. destruct (list_eq_dec ascii_dec a b); split; congruence. Qed.
  Lemma get_put : forall V k (v : V) d k', get k' (put k v d) = if name_eqb k k' then Some v else get k' d.
  Proof.
    intros V k v d k'. induction d as [|[n x] d IH]; cbn; [reflexivity|].
    destruct (name_eqb n k) eqn:E; cbn.
    - apply name_eqb_iff in E. subst n. destruct (name_eqb k k'); reflexivity.
    - rewrite IH. destruct (name_eqb n k') eqn:E2; [|reflexivity]. destruct (name_eqb k k') eqn:E3; [|reflexivity].
      apply name_eqb_iff in E2, E3. subst. assert (name_eqb k' k' = true) by (apply name_eqb_iff; reflexivity). congruence.
  Qed.
  Lemma tool_iff : forall s, term_rows (snd s) <> [] <-> a_tool s.
  Proof.
    intros [n rows]. unfold a_tool, term_rows. cbn. split.
    - destruct (filter numbered rows) as [|r l] eqn:E; [congruence|]. intros _. assert (I : In r (filter numbered rows)) by (rewrite E; left; reflexivity).
      apply filter_In in I. destruct I as [I N]. unfold numbered in N. destruct (r_no r) as [|x|t] eqn:X; try discriminate. exists r, x. auto.
    - intros (r & x & I & N) H. assert (Z : In r (filter numbered rows)) by (apply filter_In; split; [exact I|unfold numbered; rewrite N; reflexivity]). rewrite H in Z. destruct Z.
  Qed.
  Lemma file_get : forall V (d : list (list ascii * V)) f j, file_is d f j <-> get f d = Some j.
  Proof.
    intros V d f j. unfold file_is. split.
    - intros (b & a & -> & N). induction b as [|[n x] b IH]; cbn.
      + assert (E : name_eqb f f = true) by (apply name_eqb_iff; reflexivity). rewrite E. reflexivity.
      + destruct (name_eqb n f) eqn:E; [apply name_eqb_iff in E; exfalso; apply (N (n, x)); [left; reflexivity|exact E]|].
        apply IH. intros y I. apply N. right. exact I.
    - induction d as [|[n x] d IH]; cbn; [discriminate|]. destruct (name_eqb n f) eqn:E.
      + apply name_eqb_iff in E. subst n. intros [= ->]. exists [], d. split; [reflexivity|intros y []].
      + intro H. destruct (IH H) as (b & a & -> & N). exists ((n, x) :: b), a. split; [reflexivity|].
        intros y [<-|I]; [|apply N; exact I]. cbn. intro X. apply name_eqb_iff in X. congruence.
  Qed.
  Lemma book_files : forall sheets files warns F Ws, convert_workbook convert sheets files warns = (F, Ws, true) ->
    forall f j, file_is F f j <->
    (exists s w, last_such (fun s => a_tool s /\ file_named (fst s) f) sheets s /\ convert (fst s) (snd s) = Some (j, w)) \/
    ((forall s, In s sheets -> ~ (a_tool s /\ file_named (fst s) f)) /\ file_is files f j).
  Proof.
    induction sheets as [|[name rows] sheets IH]; intros files warns F Ws H f j; cbn [convert_workbook] in H.
    - injection H as <- <-. split; [intro H; right; split; [intros s []|exact H]|].
      intros [(s & w & (b & a & E & _) & _)|[_ H]]; [destruct b; discriminate|exact H].
    - pose proof (tool_iff (name, rows)) as T. cbn [snd] in T.
      assert (Shift : forall s, last_such (fun s => a_tool s /\ file_named (fst s) f) sheets s -> last_such (fun s => a_tool s /\ file_named (fst s) f) ((name, rows) :: sheets) s).
      { intros s (b & a & -> & P). exists ((name, rows) :: b), a. split; [reflexivity|exact P]. }
      destruct (term_rows rows) as [|r0 l0].
      + assert (NT : ~ a_tool (name, rows)) by (intro A; apply T in A; congruence). rewrite (IH _ _ _ _ H f j). split.
        * intros [(s & w & L & C)|[N G]]; [left; exists s, w; auto|right; split; [|exact G]]. intros s [<-|I]; [tauto|apply N; exact I].
        * intros [(s & w & (b & a & E & P & N) & C)|[N G]].
          -- left. exists s, w. split; [|exact C]. destruct b as [|x b].
             ++ exfalso. assert (E1 := f_equal (hd s) E). cbn in E1. subst s. tauto.
             ++ exists b, a. split; [exact (f_equal (@tl _) E)|auto].
          -- right. split; [|exact G]. intros s I. apply N. right. exact I.
      + assert (AT : a_tool (name, rows)) by (apply T; discriminate). destruct (convert name rows) as [[j0 w0]|] eqn:C0; [|discriminate].
        rewrite (IH _ _ _ _ H f j), !file_get, get_put. split.
        * intros [(s & w & L & C)|[N G]]; [left; exists s, w; auto|]. destruct (name_eqb (json_file name) f) eqn:E.
          -- left. apply name_eqb_iff in E. injection G as <-. exists (name, rows), w0. split; [|exact C0]. exists [], sheets.
             split; [reflexivity|]. split; [split; [exact AT|apply named_iff; symmetry; exact E]|exact N].
          -- right. split; [|exact G]. intros s [<-|I]; [|apply N; exact I]. intros [_ X]. apply named_iff in X. cbn in X.
             assert (name_eqb (json_file name) f = true) by (apply name_eqb_iff; symmetry; exact X). congruence.
        * intros [(s & w & (b & a & E & P & N) & C)|[N G]].
          -- destruct b as [|x b].
             ++ assert (E1 := f_equal (hd s) E). assert (E2 := f_equal (@tl _) E). cbn in E1, E2. subst s a. cbn [fst snd] in *. right. split; [exact N|].
                destruct P as [_ P]. apply named_iff in P. assert (Y : name_eqb (json_file name) f = true) by (apply name_eqb_iff; symmetry; exact P).
                rewrite Y. congruence.
             ++ left. exists s, w. split; [|exact C]. exists b, a. split; [exact (f_equal (@tl _) E)|auto].
          -- right. split; [intros s I; apply N; right; exact I|]. destruct (name_eqb (json_file name) f) eqn:E; [|exact G].
             exfalso. apply name_eqb_iff in E. apply (N (name, rows)); [left; reflexivity|]. split; [exact AT|apply named_iff; symmetry; exact E].
  Qed.
  Lemma book_warnings : forall sheets files warns F Ws, convert_workbook convert sheets files warns = (F, Ws, true) ->
    forall f v, file_is Ws f v <->
    (exists s j, last_such (fun s => a_tool s /\ fst s = f) sheets s /\ convert (fst s) (snd s) = Some (j, v)) \/
    ((forall s, In s sheets -> ~ (a_tool s /\ fst s = f)) /\ file_is warns f v).
  Proof.
    induction sheets as [|[name rows] sheets IH]; intros files warns F Ws H f v; cbn [convert_workbook] in H.
    - injection H as <- <-. split; [intro H; right; split; [intros s []|exact H]|].
      intros [(s & w & (b & a & E & _) & _)|[_ H]]; [destruct b; discriminate|exact H].
    - pose proof (tool_iff (name, rows)) as T. cbn [snd] in T.
      assert (Shift : forall s, last_such (fun s => a_tool s /\ fst s = f) sheets s -> last_such (fun s => a_tool s /\ fst s = f) ((name, rows) :: sheets) s).
      { intros s (b & a & -> & P). exists ((name, rows) :: b), a. split; [reflexivity|exact P]. }
      destruct (term_rows rows) as [|r0 l0].
      + assert (NT : ~ a_tool (name, rows)) by (intro A; apply T in A; congruence). rewrite (IH _ _ _ _ H f v). split.
        * intros [(s & w & L & C)|[N G]]; [left; exists s, w; auto|right; split; [|exact G]]. intros s [<-|I]; [tauto|apply N; exact I].
        * intros [(s & w & (b & a & E & P & N) & C)|[N G]].
          -- left. exists s, w. split; [|exact C]. destruct b as [|x b].
             ++ exfalso. assert (E1 := f_equal (hd s) E). cbn in E1. subst s. tauto.
             ++ exists b, a. split; [exact (f_equal (@tl _) E)|auto].
          -- right. split; [|exact G]. intros s I. apply N. right. exact I.
      + assert (AT : a_tool (name, rows)) by (apply T; discriminate). destruct (convert name rows) as [[j0 w0]|] eqn:C0; [|discriminate].
        rewrite (IH _ _ _ _ H f v), !file_get, get_put. split.
        * intros [(s & w & L & C)|[N G]]; [left; exists s, w; auto|]. destruct (name_eqb name f) eqn:E.
          -- left. apply name_eqb_iff in E. injection G as <-. exists (name, rows), j0. split; [|exact C0]. exists [], sheets.
             split; [reflexivity|]. split; [split; [exact AT|exact E]|exact N].
          -- right. split; [|exact G]. intros s [<-|I]; [|apply N; exact I]. intros [_ X]. cbn in X.
             assert (name_eqb name f = true) by (apply name_eqb_iff; exact X). congruence.
        * intros [(s & w & (b & a & E & P & N) & C)|[N G]].
          -- destruct b as [|x b].
             ++ assert (E1 := f_equal (hd s) E). assert (E2 := f_equal (@tl _) E). cbn in E1, E2. subst s a. cbn [fst snd] in *. right. split; [exact N|].
                destruct P as [_ P]. assert (Y : name_eqb name f = true) by (apply name_eqb_iff; exact P).
                rewrite Y. congruence.
             ++ left. exists s, w. split; [|exact C]. exists b, a. split; [exact (f_equal (@tl _) E)|auto].
          -- right. split; [intros s I; apply N; right; exact I|]. destruct (name_eqb name f) eqn:E; [|exact G].
             exfalso. apply name_eqb_iff in E. apply (N (name, rows)); [left; reflexivity|]. split; [exact AT|exact E].
  Qed.
  (** a sheet that cannot be converted ends it, with the files of the sheets before it written *)
  Lemma book_stops : forall sheets files warns F Ws, convert_workbook convert sheets files warns = (F, Ws, false) <->
    exists before s after, sheets = before ++ s :: after /\ a_tool s /\ convert (fst s) (snd s) = None /\
      convert_workbook convert before files warns = (F, Ws, true).
  Proof.
    induction sheets as [|[name rows] sheets IH]; intros files warns F Ws; cbn [convert_workbook].
    - split; [discriminate|]. intros (b & s & a & E & _). destruct b; discriminate.
    - pose proof (tool_iff (name, rows)) as T. cbn [snd] in T. destruct (term_rows rows) as [|r0 l0] eqn:TR.
      + assert (NT : ~ a_tool (name, rows)) by (intro A; apply T in A; congruence). rewrite IH. split.
        * intros (b & s & a & -> & A & C & R). exists ((name, rows) :: b), s, a. cbn [convert_workbook]. rewrite TR. auto.
        * intros (b & s & a & E & A & C & R). destruct b as [|x b].
          -- exfalso. assert (E1 := f_equal (hd s) E). cbn in E1. subst s. tauto.
          -- assert (E1 := f_equal (hd s) E). assert (E2 := f_equal (@tl _) E). cbn in E1, E2. subst x. cbn [convert_workbook] in R. rewrite TR in R. exists b, s, a. auto.
      + assert (AT : a_tool (name, rows)) by (apply T; discriminate). destruct (convert name rows) as [[j0 w0]|] eqn:C0.
        * rewrite IH. split.
          -- intros (b & s & a & -> & A & C & R). exists ((name, rows) :: b), s, a. cbn [convert_workbook]. rewrite TR, C0. auto.
          -- intros (b & s & a & E & A & C & R). destruct b as [|x b].
             ++ exfalso. assert (E1 := f_equal (hd s) E). cbn in E1. subst s. cbn in C. congruence.
             ++ assert (E1 := f_equal (hd s) E). assert (E2 := f_equal (@tl _) E). cbn in E1, E2. subst x. cbn [convert_workbook] in R. rewrite TR, C0 in R. exists b, s, a. auto.
        * split.
          -- intros [= <- <-]. exists [], (name, rows), sheets. cbn. auto.
          -- intros (b & s & a & E & A & C & R). destruct b as [|x b]; [cbn in R; congruence|]. assert (E1 := f_equal (hd s) E). cbn in E1. subst x.
             cbn [convert_workbook] in R. rewrite TR, C0 in R. discriminate.
  Qed.
End Book.
Lemma file_shared : forall s t, (exists f, file_named s f /\ file_named t f) <-> Forall2 alike s t.
Proof.
  intros s t. rewrite <- file_collision. split.
  - intros (f & A & B). apply named_iff in A, B. congruence.
  - intro E. exists (json_file s). split; apply named_iff; [reflexivity|exact E].
Qed.
