(** Writing .wbp files and reading them back. *)
Require Import Reals ZArith Ascii String List Bool Lia Lra.
Require Import Verif.Base Verif.M_Text Verif.Spec_Text Verif.P_Text Verif.M_Wbp Verif.Spec_Wbp Verif.P_Wbp.
Import ListNotations.
Open Scope list_scope.
Local Open Scope nat_scope.

(** ** columns *)
Lemma repeat_end : forall n, repeat space n ++ [space] = repeat space (S n).
Proof. intros. symmetry. change (repeat space (S n)) with (space :: repeat space n). apply repeat_cons. Qed.
Lemma strip_right : forall n s, trimmed s -> strip (space :: rjust n s) = s.
Proof.
  intros n s T. unfold rjust. pose proof (strip_pad (S (n - length s)) 0 s T) as H. cbn [repeat] in H. rewrite app_nil_r in H. exact H.
Qed.
Lemma strip_left : forall n s, trimmed s -> strip (ljust n s) = s.
Proof. intros n s T. unfold ljust. exact (strip_pad 0 (n - length s) s T). Qed.
Lemma strip_left1 : forall n s, trimmed s -> strip (ljust n s ++ [space]) = s.
Proof.
  intros n s T. unfold ljust. rewrite <- app_assoc, repeat_end. exact (strip_pad 0 _ s T).
Qed.
Lemma rjust_S : forall n s, length s <= n -> rjust (S n) s = space :: rjust n s.
Proof. intros n s L. unfold rjust. rewrite Nat.sub_succ_l by auto. reflexivity. Qed.
Lemma no_colon_app : forall a b, no_colon a -> no_colon b -> no_colon (a ++ b).
Proof. intros a b A B I. apply in_app_or in I. destruct I; auto. Qed.
Lemma no_colon_spaces : forall n, no_colon (repeat space n).
Proof. intros n I. apply repeat_spec in I. discriminate. Qed.
Lemma no_colon_space : no_colon [space].
Proof. intros [I|[]]. discriminate. Qed.
Lemma no_colon_rjust : forall n s, no_colon s -> no_colon (rjust n s).
Proof. intros. apply no_colon_app; auto using no_colon_spaces. Qed.
Lemma no_colon_rstrip : forall s, no_colon s -> no_colon (rstrip s).
Proof. intros s N I. destruct (rstrip_cases s) as (n & E & _). apply N. rewrite E. apply in_or_app. auto. Qed.
Lemma no_colon_nil : no_colon []. Proof. intros []. Qed.
#[local] Hint Resolve no_colon_app no_colon_spaces no_colon_space no_colon_rjust no_colon_nil fixed_no_colon fixed_token : txt.

(** ** letter lines *)
Lemma letter_rstrip : forall a B, words B <> [] -> rstrip (a :: colon :: B) = a :: colon :: rstrip B.
Proof.
  intros a B N. change (a :: colon :: B) with ([a; colon] ++ B). rewrite rstrip_app; [reflexivity|].
  intro E. apply N. rewrite <- (words_rstrip B), E. reflexivity.
Qed.
Lemma letter_split : forall a B, a <> colon -> split_on colon (a :: colon :: B) = [a] :: split_on colon B.
Proof. intros a B N. exact (split_app colon [a] B ltac:(intros [I|[]]; congruence)). Qed.
Lemma letter_split1 : forall a B, a <> colon -> no_colon B -> split_on colon (a :: colon :: B) = [[a]; B].
Proof. intros a B N C. rewrite letter_split by auto. rewrite split_none by auto. reflexivity. Qed.
Lemma is_word_one : forall a c d w, is_word (String a EmptyString) (c :: d :: w) = false.
Proof. intros. unfold is_word, text_eqb. destruct (list_eq_dec ascii_dec (c :: d :: w) (lit (String a ""))); [discriminate|reflexivity]. Qed.
Lemma is_word_self : forall a, is_word (String a EmptyString) [a] = true.
Proof. intros. unfold is_word. apply text_eqb_refl. Qed.
Ltac letter E :=
  unfold read_line; rewrite E; rewrite ?is_word_one, ?is_word_second by reflexivity;
  rewrite ?is_word_self, ?is_word_first by reflexivity.

(** ** locations *)
Definition loc_body (q : loc) : text :=
  let '(x, y, z) := q in rjust 13 (fixed 2 x) ++ rjust 13 (fixed 2 y) ++ rjust 11 (fixed 2 z).
Lemma loc_line : forall q, location_line q = "L"%char :: colon :: loc_body q.
Proof. intros [[x y] z]. reflexivity. Qed.
Lemma loc_words : forall x y z, loc_fits (x, y, z) -> words (loc_body (x, y, z)) = [fixed 2 x; fixed 2 y; fixed 2 z].
Proof.
  intros x y z [A B]. unfold loc_body. rewrite (rjust_S 12 (fixed 2 y)) by auto. rewrite (rjust_S 10 (fixed 2 z)) by auto.
  rewrite <- app_comm_cons, words_rjust_app by (auto with txt). rewrite words_rjust_app by (auto with txt).
  rewrite words_rjust, words_token by (auto with txt). reflexivity.
Qed.
Lemma loc_no_colon : forall q, no_colon (loc_body q).
Proof. intros [[x y] z]. unfold loc_body. auto 10 with txt. Qed.
Section Reader.
Variable rd : reader.
Hypothesis Hrd : reads_numbers rd.
Lemma read_fixed : forall d x, 0 < d -> to_float rd (fixed d x) = Some (rounded d x).
Proof. intros. apply Hrd. apply fixed_decimal. auto. Qed.
Lemma read_loc_line : forall q, loc_fits q -> read_loc rd (rstrip (loc_body q)) = Some (loc_round q).
Proof.
  intros [[x y] z] F. unfold read_loc. rewrite words_rstrip, loc_words by auto. cbn [ob]. rewrite !read_fixed by auto. reflexivity.
Qed.
Lemma loc_rstrip : forall q, loc_fits q -> rstrip (location_line q) = "L"%char :: colon :: rstrip (loc_body q).
Proof. intros [[x y] z] F. rewrite loc_line. apply letter_rstrip. rewrite loc_words by auto. discriminate. Qed.
Lemma loc_split : forall q, loc_fits q -> split_on colon ("L"%char :: colon :: rstrip (loc_body q)) = [["L"%char]; rstrip (loc_body q)].
Proof. intros q F. apply letter_split1; [discriminate|]. apply no_colon_rstrip, loc_no_colon. Qed.
Lemma upd_last_app : forall {A} (f : A -> A) l x, upd_last f (l ++ [x]) = Some (l ++ [f x]).
Proof.
  intros A f l x. induction l as [|a l IH]; [reflexivity|]. cbn. rewrite IH. cbn. destruct l; reflexivity.
Qed.
Lemma line_loc : forall p c q ss s, loc_fits q -> p_flag p <> Targets -> p_steps p = ss ++ [s] ->
  read_line rd p c (rstrip (location_line q)) = Some (Next (set_tie false (set_steps (ss ++ [set_loc (loc_round q) s]) p)) c).
Proof.
  intros p c q ss s F Fl S. rewrite loc_rstrip by auto.
  destruct (words_prefix "L"%char colon (rstrip (loc_body q)) eq_refl eq_refl) as (w & ws & E). letter E.
  rewrite loc_split by auto. cbn [nth_error ob]. rewrite read_loc_line by auto. rewrite ?is_word_self, ?is_word_first by reflexivity.
  cbn [ob]. rewrite S, !upd_last_app. cbn [ob]. destruct (p_flag p); [reflexivity|congruence|reflexivity|reflexivity].
Qed.

(** ** turn points *)
Definition face_text (x : R) : text := if Rlt_dec x (-99) then fixed 2 x else fixed 3 x.
Definition turn_tail (t : turn) : text :=
  rjust 4 (if t_tie t then [] else match t_method t with Some m => m | None => lit "0" end) ++
  space :: rjust 10 (match t_target t with Some g => g | None => [] end).
Definition turn_body (t : turn) : text :=
  space :: rjust 7 (fixed 2 (t_md t)) ++ space :: rjust 7 (fixed 3 (t_azi t)) ++ space :: rjust 7 (fixed 3 (t_inc t)) ++
  space :: rjust 7 (fixed 3 (t_build t)) ++ space :: rjust 7 (fixed 3 (t_turn t)) ++ space :: rjust 7 (fixed 3 (t_dls t)) ++
  space :: rjust 7 (face_text (t_face t)) ++ space :: turn_tail t.
Lemma turn_line_body : forall t, turn_line t = "P"%char :: colon :: turn_body t.
Proof. intros t. unfold turn_line, turn_body, turn_tail, face_text. destruct (Rlt_dec (t_face t) (-99)); reflexivity. Qed.
Lemma face_token : forall x, token (face_text x) /\ no_colon (face_text x) /\ to_float rd (face_text x) = Some (face_round x).
Proof.
  intros x. unfold face_text, face_round. destruct (Rlt_dec x (-99)); (split; [|split]); auto with txt; apply read_fixed; auto.
Qed.
Lemma turn_words : forall t, words (turn_body t) =
  fixed 2 (t_md t) :: fixed 3 (t_azi t) :: fixed 3 (t_inc t) :: fixed 3 (t_build t) :: fixed 3 (t_turn t) ::
  fixed 3 (t_dls t) :: face_text (t_face t) :: words (turn_tail t).
Proof.
  intros t. unfold turn_body. rewrite words_space by reflexivity.
  rewrite !words_rjust_app by (first [reflexivity|apply fixed_token; auto|apply face_token]). reflexivity.
Qed.
Definition method_text (t : turn) : text := match t_method t with Some m => m | None => lit "0" end.
Definition target_text (t : turn) : text := match t_target t with Some m => m | None => [] end.
Lemma zero_token : token (lit "0") /\ no_colon (lit "0").
Proof. split; [split; [discriminate|repeat constructor]|]. intros [I|[]]. discriminate. Qed.
Lemma turn_no_colon : forall t, word_or_none (t_method t) -> word_or_none (t_target t) -> no_colon (turn_body t).
Proof.
  intros t M T. unfold turn_body, turn_tail.
  assert (Nm : no_colon (if t_tie t then [] else match t_method t with Some m => m | None => lit "0" end)).
  { destruct (t_tie t); [apply no_colon_nil|]. destruct (t_method t); [apply M|apply zero_token]. }
  assert (Nt : no_colon (match t_target t with Some m => m | None => [] end)).
  { destruct (t_target t); [apply T|apply no_colon_nil]. }
  assert (C : forall s, no_colon s -> no_colon (space :: s)) by (intros s H [I|I]; [discriminate|auto]).
  repeat match goal with
  | |- no_colon (_ :: _) => apply C
  | |- no_colon (_ ++ _) => apply no_colon_app
  | |- no_colon (rjust _ _) => apply no_colon_rjust
  | |- no_colon (fixed _ _) => apply fixed_no_colon; lia
  | |- no_colon (face_text _) => apply face_token
  | _ => assumption
  end.
Qed.
Lemma turn_tail_words : forall t, t_tie t = false -> word_or_none (t_method t) -> word_or_none (t_target t) ->
  words (turn_tail t) = method_text t :: match t_target t with Some g => [g] | None => [] end.
Proof.
  intros t T M G. unfold turn_tail, method_text. rewrite T. rewrite words_rjust_app; [|destruct (t_method t); [apply M|apply zero_token]|reflexivity].
  f_equal. rewrite words_rjust. destruct (t_target t); [apply words_token; apply G|reflexivity].
Qed.
Definition no_loc (s : step) : step :=
  match s with
  | Turn t => Turn (mkTurn (t_md t) (t_azi t) (t_inc t) (t_build t) (t_turn t) (t_dls t) (t_face t) (t_method t) (t_target t) (t_tie t) None)
  | Point p => Point (mkPoint (x_nums p) (x_tool p) (x_sta p) None)
  end.
Lemma token_strip : forall w, token w -> string_strip w = Some w.
Proof. intros w T. unfold string_strip. rewrite strip_token by auto. destruct T as [N _]. destruct w; [congruence|reflexivity]. Qed.
Lemma line_turn : forall p c t, step_fits (p_tie p) (Turn t) -> p_flag p <> Targets ->
  read_line rd p c (rstrip (turn_line t)) = Some (Next (set_steps (p_steps p ++ [no_loc (step_round (Turn t))]) p) c).
Proof.
  intros p c t (Tie & _ & MT) Fl.
  assert (W : word_or_none (t_method t) /\ word_or_none (t_target t)).
  { destruct (p_tie p); [destruct MT as [-> ->]; split; exact I|exact MT]. }
  rewrite turn_line_body, letter_rstrip by (rewrite turn_words; discriminate).
  destruct (words_prefix "P"%char colon (rstrip (turn_body t)) eq_refl eq_refl) as (w & ws & E). letter E.
  assert (Sp : split_on colon ("P"%char :: colon :: rstrip (turn_body t)) = [["P"%char]; rstrip (turn_body t)]).
  { apply letter_split1; [discriminate|]. apply no_colon_rstrip, turn_no_colon; apply W. }
  rewrite Sp. rewrite ?is_word_self, ?is_word_first by reflexivity.
  assert (R : read_turn rd (p_tie p) ("P"%char :: colon :: rstrip (turn_body t)) =
    Some (mkTurn (rounded 2 (t_md t)) (rounded 3 (t_azi t)) (rounded 3 (t_inc t)) (rounded 3 (t_build t))
      (rounded 3 (t_turn t)) (rounded 3 (t_dls t)) (face_round (t_face t))
      (if t_tie t then None else Some (method_text t)) (t_target t) (t_tie t) None)).
  { unfold read_turn. rewrite Sp. cbn [nth_error ob]. rewrite words_rstrip, turn_words. rewrite !read_fixed by auto.
    destruct (face_token (t_face t)) as (_ & _ & ->). cbn [ob]. rewrite Tie. destruct (p_tie p).
    - destruct MT as [_ ->]. reflexivity.
    - rewrite turn_tail_words by (auto; apply W). rewrite token_strip by (unfold method_text; destruct (t_method t); [apply W|apply zero_token]).
      destruct W as [_ W]. destruct (t_target t); [rewrite token_strip by apply W|]; reflexivity. }
  rewrite R. cbn [ob]. destruct (p_flag p); [reflexivity|congruence|reflexivity|reflexivity].
Qed.

(** ** survey points *)
Lemma words_list : forall n d (vs : list R) s, 0 < d ->
  words (flat_map (fun v => [space] ++ rjust n (fixed d v)) vs ++ space :: s) = map (fixed d) vs ++ words s.
Proof.
  intros n d vs s D. induction vs as [|v vs IH]; [apply words_space; reflexivity|].
  cbn [flat_map map app]. rewrite <- app_assoc. rewrite words_space by reflexivity.
  destruct vs as [|v' vs].
  - cbn [flat_map app]. rewrite words_rjust_app by (auto with txt). reflexivity.
  - cbn [flat_map app map] in *. rewrite words_rjust_app by (auto with txt). f_equal. rewrite <- IH. rewrite words_space by reflexivity. reflexivity.
Qed.
Lemma floats_fixed : forall d vs, 0 < d -> floats rd (map (fixed d) vs) = Some (map (rounded d) vs).
Proof. intros d vs D. induction vs as [|v vs IH]; [reflexivity|]. cbn. rewrite read_fixed by auto. cbn. rewrite IH. reflexivity. Qed.
Lemma floats_app : forall a b x y, floats rd a = Some x -> floats rd b = Some y -> floats rd (a ++ b) = Some (x ++ y).
Proof.
  induction a as [|s a IH]; intros b x y A B; cbn in *; [injection A as <-; exact B|].
  apply ob_some in A. destruct A as (v & E & A). apply ob_some in A. destruct A as (vs & E' & A). injection A as <-.
  rewrite E. cbn. rewrite (IH b vs y E' B). reflexivity.
Qed.
Definition nums_texts (p : point) : list text := map (fixed 1) (firstn 6 (x_nums p)) ++ map (fixed 2) (skipn 6 (x_nums p)).
Lemma words_ljust : forall n s, words (ljust n s) = words s.
Proof. intros. unfold ljust. apply words_tail. apply Forall_forall. intros c I. apply repeat_spec in I. subst. reflexivity. Qed.
Lemma point_words : forall p ws, Forall token ws -> x_tool p = join [space] ws -> length (x_nums p) = 9 ->
  words (point_line p) = lit "X:" :: nums_texts p ++ ws.
Proof.
  intros p ws F T L. unfold point_line, nums_texts.
  destruct (x_nums p) as [|n1 [|n2 [|n3 [|n4 [|n5 [|n6 [|n7 r]]]]]]] eqn:N; try discriminate.
  cbn [firstn skipn]. set (tail := flat_map (fun v => [space] ++ rjust 7 (fixed 2 v)) (n7 :: r) ++ [space] ++ ljust 38 (x_tool p)).
  assert (Wt : words tail = map (fixed 2) (n7 :: r) ++ ws).
  { unfold tail. etransitivity; [exact (words_list 7 2 (n7 :: r) (ljust 38 (x_tool p)) ltac:(lia))|]. rewrite words_ljust, T, words_join by auto. reflexivity. }
  assert (Ht : exists s, tail = space :: s) by (unfold tail; cbn [flat_map]; eexists; rewrite <- app_assoc; reflexivity).
  destruct Ht as (s & Et). rewrite Et in *. rewrite words_space in Wt by reflexivity.
  pose proof (words_list 8 1 [n1; n2; n3; n4; n5; n6] s ltac:(lia)) as Q. rewrite Wt in Q.
  assert (Hh : exists h, flat_map (fun v => [space] ++ rjust 8 (fixed 1 v)) [n1; n2; n3; n4; n5; n6] = space :: h) by (eexists; reflexivity).
  destruct Hh as (h & Eh). rewrite Eh in *. rewrite <- app_comm_cons in *.
  rewrite words_app; [|split; [discriminate|repeat constructor]|reflexivity]. rewrite words_space in Q by reflexivity. rewrite Q.
  rewrite <- app_assoc. reflexivity.
Qed.
Lemma point_shape : forall p, length (x_nums p) = 9 -> exists B, point_line p = "X"%char :: colon :: B /\ words B <> [].
Proof.
  intros p L. unfold point_line. destruct (x_nums p) as [|n1 r]; [discriminate|]. cbn [firstn flat_map]. eexists. split; [reflexivity|].
  cbn [app]. rewrite words_space by reflexivity. rewrite <- !app_assoc.
  match goal with |- words (rjust 8 (fixed 1 n1) ++ ?t) <> [] => set (tl := t) end.
  unfold rjust. rewrite <- app_assoc, words_spaces. destruct (fixed_token 1 n1 ltac:(lia)) as [Ne F]. destruct (fixed 1 n1) as [|c w]; [congruence|].
  inversion F; subst. cbn [app]. rewrite words_cons by auto. destruct (w ++ tl) as [|d r']; [discriminate|]. destruct (is_space d); [discriminate|].
  destruct (words (d :: r')); discriminate.
Qed.
Lemma nums_length : forall p, length (x_nums p) = 9 -> length (nums_texts p) = 9.
Proof. intros p L. unfold nums_texts. rewrite app_length, !map_length, firstn_length, skipn_length, L. reflexivity. Qed.
Lemma line_point : forall p c x ws, Forall token ws -> x_tool x = join [space] ws -> length (x_nums x) = 9 -> p_flag p <> Targets ->
  read_line rd p c (rstrip (point_line x)) =
  Some (Next (set_steps (p_steps p ++ [Point (mkPoint (map (rounded 1) (firstn 6 (x_nums x)) ++ map (rounded 2) (skipn 6 (x_nums x))) (x_tool x) None None)]) p) c).
Proof.
  intros p c x ws F T L Fl. unfold read_line. rewrite words_rstrip, (point_words x ws) by auto.
  change (lit "X:") with ["X"%char; colon]. rewrite ?is_word_one, ?is_word_second by reflexivity.
  assert (Sp : exists fs, split_on colon (rstrip (point_line x)) = ["X"%char] :: fs).
  { destruct (point_shape x L) as (B & E & N). rewrite E, letter_rstrip by auto. eexists. apply letter_split. discriminate. }
  destruct Sp as (fs & ->). rewrite ?is_word_self, ?is_word_first by reflexivity.
  assert (R : read_point rd (nums_texts x ++ ws) = Some (mkPoint (map (rounded 1) (firstn 6 (x_nums x)) ++ map (rounded 2) (skipn 6 (x_nums x))) (x_tool x) None None)).
  { unfold read_point. pose proof (nums_length x L) as NL. rewrite app_length, NL. change (9 + length ws <? 9) with false.
    rewrite firstn_app, NL, Nat.sub_diag, firstn_O, app_nil_r, firstn_all2 by lia.
    rewrite skipn_app, NL, Nat.sub_diag, skipn_all2 by lia. cbn [app skipn].
    unfold nums_texts. rewrite (floats_app _ _ _ _ (floats_fixed 1 _ ltac:(lia)) (floats_fixed 2 _ ltac:(lia))). cbn [ob]. rewrite T. reflexivity. }
  rewrite R. cbn [ob]. destruct (p_flag p); [reflexivity|congruence|reflexivity|reflexivity].
Qed.
Lemma line_station : forall p c st ss x, p_flag p <> Targets -> p_steps p = ss ++ [x] ->
  read_line rd p c (rstrip (station_line st)) =
  Some (Next (set_steps (ss ++ [set_sta (let '(md, azi, inc) := st in (rounded 2 md, rounded 3 azi, rounded 3 inc)) x]) p) c).
Proof.
  intros p c [[md azi] inc] ss x Fl S.
  assert (B : exists B, station_line (md, azi, inc) = "S"%char :: colon :: B /\ words B = [fixed 2 md; fixed 3 azi; fixed 3 inc]).
  { eexists. split; [reflexivity|]. cbn [app]. rewrite words_space by reflexivity. rewrite !words_rjust_app by (first [reflexivity|apply fixed_token; auto]).
    rewrite words_rjust, words_token by (apply fixed_token; auto). reflexivity. }
  destruct B as (B & E & W).
  assert (WL : words (station_line (md, azi, inc)) = lit "S:" :: [fixed 2 md; fixed 3 azi; fixed 3 inc]).
  { unfold station_line. change (lit "S:" ++ [space] ++ ?t) with (lit "S:" ++ space :: t). rewrite words_app; [|split; [discriminate|repeat constructor]|reflexivity].
    f_equal. cbn [app]. rewrite !words_rjust_app by (first [reflexivity|apply fixed_token; auto]). rewrite words_rjust, words_token by (apply fixed_token; auto). reflexivity. }
  unfold read_line. rewrite words_rstrip, WL. change (lit "S:") with ["S"%char; colon]. rewrite ?is_word_one, ?is_word_second by reflexivity.
  rewrite E, letter_rstrip, letter_split by (try discriminate; rewrite W; discriminate).
  rewrite ?is_word_self, ?is_word_first by reflexivity. rewrite !read_fixed by auto. cbn [ob]. rewrite S, upd_last_app. cbn [ob].
  destruct (p_flag p); [reflexivity|congruence|reflexivity|reflexivity].
Qed.

(** ** headers *)
Lemma type_keys : forall v, In v (map snd type_dict) -> exists k, get_key type_dict v = Some k /\ look k type_dict = Some v.
Proof. intros v I. cbn in I. repeat (destruct I as [<-|I]; [eexists; split; reflexivity|]). destruct I. Qed.
Lemma method_keys : forall v, In v (map snd method_dict) -> exists k, get_key method_dict v = Some k /\ look k method_dict = Some v.
Proof. intros v I. cbn in I. repeat (destruct I as [<-|I]; [eexists; split; reflexivity|]). destruct I. Qed.
Lemma dirty_keys : forall v, In v (map snd dirty_dict) -> exists k, get_key dirty_dict v = Some k /\ look k dirty_dict = Some v.
Proof. intros v I. cbn in I. repeat (destruct I as [<-|I]; [eexists; split; reflexivity|]). destruct I. Qed.
Lemma unit_keys : forall de su, exists k, unit_key depth_dict de su = Some k /\ look k depth_dict = Some (su, de).
Proof. intros [] []; eexists; split; reflexivity. Qed.
Lemma float_strip_right : forall n d x, 0 < d -> float_strip rd (space :: rjust n (fixed d x)) = Some (Some (rounded d x)).
Proof.
  intros n d x D. unfold float_strip. pose proof (fixed_token d x D) as T. rewrite strip_right by (apply token_trimmed; auto).
  destruct (fixed d x) as [|c w] eqn:E; [destruct T; congruence|]. rewrite <- E, read_fixed by auto. reflexivity.
Qed.
Lemma string_strip_right : forall n s, trimmed s -> string_strip (space :: rjust n s) = blank_none s.
Proof. intros. unfold string_strip. rewrite strip_right by auto. destruct s; reflexivity. Qed.
Theorem header_round : forall de su h, header_fits h ->
  exists line h', header_line (Some de) (Some su) h = Some line /\ rstrip line = line /\
    (exists r, line = "W"%char :: colon :: r) /\ read_header rd line = Some h' /\ header_back h h'.
Proof.
  intros de su h [Ty Me (di & Hd & Di) (si & Hs & Ts & Ls) [Tn Ln] [Tp Lp] (dl & Hdl & Ldl) (ex & Hex & Lex)].
  destruct (type_keys _ Ty) as (kt & Kt & Lt). destruct (method_keys _ Me) as (km & Km & Lm).
  destruct (dirty_keys _ Di) as (kd & Kd & Ld). destruct (unit_keys de su) as (ku & Ku & _).
  unfold header_line. rewrite Kt. cbn [ob]. rewrite Ku, Km, Hd. cbn [ob]. rewrite Kd, Hs, Hdl, Hex. cbn [ob].
  change (match h_name h with Some n => n | None => [] end) with (text_or_blank (h_name h)).
  change (match h_parent h with Some n => n | None => [] end) with (text_or_blank (h_parent h)).
  set (nm := text_or_blank (h_name h)) in *. set (pa := text_or_blank (h_parent h)) in *.
  set (P := lit "W:" ++ [kt; ku; km; kd] ++ lit "   0" ++ lit " 123").
  match goal with |- exists line _, Some ?l = _ /\ _ => set (line := l) end.
  set (S1 := rjust 7 si). set (S2 := ljust 60 nm). set (S3 := ljust 60 pa). set (S4 := rjust 6 (fixed 2 dl)). set (S5 := rjust 7 (fixed 5 ex)).
  assert (L1 : length S1 = 7) by (apply rjust_length; auto). assert (L2 : length S2 = 60) by (apply ljust_length; auto).
  assert (L3 : length S3 = 60) by (apply ljust_length; auto). assert (L4 : length S4 = 6) by (apply rjust_length; auto).
  assert (L5 : length S5 <= 8) by (unfold S5, rjust; rewrite app_length, repeat_length; lia).
  assert (LP : length P = 14) by reflexivity.
  assert (E : line = P ++ [space] ++ S1 ++ [space] ++ S2 ++ [space] ++ S3 ++ [space] ++ S4 ++ [space] ++ S5) by reflexivity.
  assert (Q1 : slice 14 22 line = space :: S1).
  { rewrite E. change (P ++ [space] ++ S1 ++ ?t) with (P ++ (space :: S1) ++ t). apply slice_mid; cbn [length]; lia. }
  assert (Q2 : slice 23 84 line = S2 ++ [space]).
  { rewrite E. replace (P ++ [space] ++ S1 ++ [space] ++ S2 ++ [space] ++ S3 ++ [space] ++ S4 ++ [space] ++ S5)
      with ((P ++ [space] ++ S1 ++ [space]) ++ (S2 ++ [space]) ++ (S3 ++ [space] ++ S4 ++ [space] ++ S5)) by (rewrite <- !app_assoc; reflexivity).
    apply slice_mid; rewrite !app_length; cbn [length]; lia. }
  assert (Q3 : slice 84 144 line = S3).
  { rewrite E. replace (P ++ [space] ++ S1 ++ [space] ++ S2 ++ [space] ++ S3 ++ [space] ++ S4 ++ [space] ++ S5)
      with ((P ++ [space] ++ S1 ++ [space] ++ S2 ++ [space]) ++ S3 ++ ([space] ++ S4 ++ [space] ++ S5)) by (rewrite <- !app_assoc; reflexivity).
    apply slice_mid; rewrite ?app_length; cbn [length]; lia. }
  assert (Q4 : slice 144 151 line = space :: S4).
  { rewrite E. replace (P ++ [space] ++ S1 ++ [space] ++ S2 ++ [space] ++ S3 ++ [space] ++ S4 ++ [space] ++ S5)
      with ((P ++ [space] ++ S1 ++ [space] ++ S2 ++ [space] ++ S3) ++ (space :: S4) ++ ([space] ++ S5)) by (rewrite <- !app_assoc; reflexivity).
    apply slice_mid; rewrite ?app_length; cbn [length]; lia. }
  assert (E5 : line = (P ++ [space] ++ S1 ++ [space] ++ S2 ++ [space] ++ S3 ++ [space] ++ S4) ++ (space :: S5)) by (rewrite E, <- !app_assoc; reflexivity).
  assert (Q5 : slice 151 160 line = space :: S5).
  { rewrite E5. apply slice_end; rewrite ?app_length; cbn [length]; lia. }
  assert (Q6 : slice 160 171 line = []).
  { unfold slice. rewrite skipn_all2; [reflexivity|]. rewrite E5, !app_length. cbn [length]. lia. }
  exists line. eexists. split; [reflexivity|]. split; [|split; [|split]].
  - rewrite E5. rewrite rstrip_app.
    + f_equal. unfold S5, rjust. rewrite app_comm_cons. change (space :: repeat space ?n) with (repeat space (S n)).
      assert (R : rstrip (fixed 5 ex) = fixed 5 ex) by (apply rstrip_id, trimmed_trailing, token_trimmed, fixed_token; lia).
      rewrite rstrip_app; rewrite R; [reflexivity|]. apply fixed_token. lia.
    + intro F. assert (W : words (space :: S5) = [fixed 5 ex]) by (rewrite words_space by reflexivity; unfold S5; rewrite words_rjust; apply words_token, fixed_token; lia).
      rewrite <- words_rstrip, F in W. discriminate.
  - eexists. reflexivity.
  - unfold read_header. rewrite Q1, Q2, Q3, Q4, Q5, Q6.
    change (char_at 2 line) with (Some kt). change (char_at 4 line) with (Some km). change (char_at 5 line) with (Some kd). cbn [ob].
    rewrite Lt, Lm. cbn [ob]. unfold S4, S5. rewrite !float_strip_right by lia. cbn [ob]. change (float_strip rd []) with (Some (@None R)). cbn [ob].
    reflexivity.
  - unfold header_back. cbn [h_type h_method h_dirty h_sidetrack h_name h_parent h_dls h_ext h_kick]. rewrite Ld, Hd, Hs. unfold S1. rewrite string_strip_right by auto.
    unfold string_strip at 1 2. unfold S2, S3. rewrite strip_left1, strip_left by auto. fold nm pa.
    split; [reflexivity|]. split; [reflexivity|]. split; [reflexivity|]. split; [reflexivity|].
    split; [destruct nm; reflexivity|]. split; [destruct pa; reflexivity|]. rewrite Hdl, Hex. split; [intros x [= <-]; reflexivity|]. split; [intros x [= <-]; reflexivity|reflexivity].
Qed.
End Reader.
