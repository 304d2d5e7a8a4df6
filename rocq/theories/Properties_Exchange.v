(** Property theorems C42-C44, C78, C79 (welleng/exchange/edm.py, welleng/errors/interpreter.py). *)
Require Import Reals Bool String List Lra Lia.
Require Import Verif.M_Edm Verif.Spec_Edm Verif.P_Edm Verif.M_Interpreter Verif.Spec_Interpreter Verif.P_Interpreter.
Import ListNotations.
Open Scope list_scope.
Local Open Scope nat_scope.

(** * C42 *)
Theorem C42_query : forall doc tags cs lg t,
  let d := get_attributes doc tags cs lg in
  (In t tags -> rows_of lg cs t doc (entry d t)) /\ (~ In t tags -> get t d = None) /\ get t d <> Some [].
Proof. exact attribute_query. Qed.
Print Assumptions C42_query.
Theorem C42_single : forall doc tags k vs lg t, In t tags ->
  let l := entry (get_attributes doc tags [(k, vs)] lg) t in
  l = select doc t k vs /\ (forall a, In a l <-> In (t, a) doc /\ exists v, get k a = Some v /\ In v vs).
Proof. exact single_query. Qed.
Print Assumptions C42_single.
Theorem C42_and_refuted : exists doc cs t a b,
  entry (get_attributes doc [t] cs AND) t = [a; a; b] /\ Forall (satisfies a) cs /\ ~ Forall (satisfies b) cs.
Proof. exact and_refuted. Qed.
Print Assumptions C42_and_refuted.
Example C42_case : In "CD_WELLBORE"%string ["CD_WELLBORE"%string] /\
  entry (get_attributes fork_doc ["CD_WELLBORE"%string] [("well_id", ["W1"])]%string AND) "CD_WELLBORE" <> [].
Proof. split; [left; reflexivity|discriminate]. Qed.

(** * C43 *)
Theorem C43_chain : forall doc id l, proper_ids doc -> ancestry doc id l ->
  forall fuel hist, length l < fuel -> call_get_parents fuel doc hist id = Some (hist ++ l).
Proof. exact parents_chain. Qed.
Print Assumptions C43_chain.
Theorem C43_end : forall doc fuel id hist r, proper_ids doc -> call_get_parents fuel doc hist id = Some r ->
  exists l, ancestry doc id l /\ r = hist ++ l.
Proof. exact parents_end. Qed.
Print Assumptions C43_end.
Theorem C43_cyclic : forall doc id hist, proper_ids doc -> ~ (exists l, ancestry doc id l) ->
  forall fuel, call_get_parents fuel doc hist id = None.
Proof. exact no_ancestry. Qed.
Print Assumptions C43_cyclic.
Theorem C43_history : forall doc ids chains fuel hist, proper_ids doc -> Forall2 (ancestry doc) ids chains ->
  (forall l, In l chains -> length l < fuel) ->
  exists rs, calls fuel doc hist ids = Some rs /\ length rs = length ids /\
    forall i r, nth_error rs i = Some r -> r = hist ++ concat (firstn (S i) chains).
Proof. exact calls_history. Qed.
Print Assumptions C43_history.
Theorem C43_fresh_answer_refuted : exists doc id l, proper_ids doc /\ ancestry doc id l /\
  calls 5 doc [] [id; id] = Some [l; l ++ l] /\ l <> [].
Proof. exact fresh_answer_refuted. Qed.
Print Assumptions C43_fresh_answer_refuted.
Example C43_case : proper_ids fork_doc /\ Forall2 (ancestry fork_doc) ["b"; "c"]%string [["a"]; []]%string /\
  proper_ids loop_doc /\ ~ (exists l, ancestry loop_doc "a" l).
Proof.
  split; [exact fork_proper|]. split; [|exact loop_hypotheses]. destruct fork_ancestry as [A B]. constructor; [exact A|].
  constructor; [exact B|constructor].
Qed.

(** * C78 *)
Theorem C78_content : forall fuel doc hist id w l d preds, proper_ids doc -> ancestry doc id l -> length l < fuel ->
  select doc "CD_WELLBORE" "wellbore_id" [id] = [w] ->
  get_wellbore_data fuel doc hist id = Some (d, preds) ->
  exists well, get "well_id"%string w = Some well /\ preds = hist ++ l /\
  forall t, entry d t =
    select doc t "wellbore_id" [id] ++
    (if in_dec string_dec t ["CD_WELL"; "CD_DATUM"]%string then select doc t "well_id" [well] else []) ++
    match hist ++ l with
    | [] => if in_dec string_dec t ["CD_WELL"; "CD_DATUM"]%string then select doc t "well_id" [well] else []
    | _ => if in_dec string_dec t ["CD_SURVEY_HEADER"; "CD_SURVEY_STATION"]%string
           then select doc t "wellbore_id" (hist ++ l) else []
    end.
Proof. exact wellbore_data. Qed.
Print Assumptions C78_content.
Theorem C78_found : forall fuel doc hist id l, proper_ids doc -> ancestry doc id l -> length l < fuel ->
  ((exists r, get_wellbore_data fuel doc hist id = Some r) <->
   (exists a well, wellbore doc a /\ get "wellbore_id"%string a = Some id /\ get "well_id"%string a = Some well)).
Proof. exact wellbore_data_some. Qed.
Print Assumptions C78_found.
Theorem C78_own_surveys_refuted : exists doc id other d h d' h',
  get_wellbore_data 5 doc [] id = Some (d, h) /\
  (exists d0, get_wellbore_data 5 doc [] other = Some (d0, h')) /\
  (exists h'', get_wellbore_data 5 doc h' id = Some (d', h'')) /\
  entry d "CD_SURVEY_HEADER" = select doc "CD_SURVEY_HEADER" "wellbore_id" [id] /\
  entry d' "CD_SURVEY_HEADER" = select doc "CD_SURVEY_HEADER" "wellbore_id" [id] ++ select doc "CD_SURVEY_HEADER" "wellbore_id" ["a"%string] /\
  select doc "CD_SURVEY_HEADER" "wellbore_id" ["a"%string] <> [] /\ ~ parent_of doc id "a".
Proof. exact stale_parents_refuted. Qed.
Print Assumptions C78_own_surveys_refuted.
Example C78_case : exists w r, proper_ids fork_doc /\ ancestry fork_doc "b" ["a"%string] /\
  select fork_doc "CD_WELLBORE" "wellbore_id" ["b"%string] = [w] /\ get_wellbore_data 2 fork_doc [] "b" = Some r.
Proof.
  eexists _, _. split; [exact fork_proper|]. split; [exact (proj1 fork_ancestry)|]. split; [reflexivity|vm_compute; reflexivity].
Qed.

(** * C79 *)
Local Open Scope R_scope.
Theorem C79_stations : forall fuel chs hs sts h l, distinct_headers chs -> distinct_headers hs -> In h chs ->
  tie_chain hs (h_id h) l -> (length l < fuel)%nat -> descending (h_md_max h) l ->
  exists r, case_survey fuel chs hs sts (h_id h) = Some r /\
  forall s, In s r <-> exists i k v, nth_error l i = Some (k, v) /\ In s sts /\ fst s = k /\
                        v <= snd s <= nth i (h_md_max h :: map snd l) 0.
Proof. exact case_stations. Qed.
Print Assumptions C79_stations.
Theorem C79_untied : forall fuel chs hs sts h, distinct_headers chs -> In h chs ->
  (forall t v, ~ tied hs (h_id h) t v) -> (0 < fuel)%nat ->
  case_survey fuel chs hs sts (h_id h) = Some [].
Proof. exact untied_empty. Qed.
Print Assumptions C79_untied.
Theorem C79_root : forall fuel chs hs sts h l r s, distinct_headers chs -> distinct_headers hs -> In h chs ->
  tie_chain hs (h_id h) l -> (length l < fuel)%nat ->
  case_survey fuel chs hs sts (h_id h) = Some r -> In s r -> exists t v, tied hs (fst s) t v /\ v <= snd s.
Proof. exact root_missing. Qed.
Print Assumptions C79_root.
Example C79_case : distinct_headers tie_headers /\
  tie_chain tie_headers "s" [("s"%string, 200%R); ("p"%string, 100%R)] /\ descending 300%R [("s"%string, 200%R); ("p"%string, 100%R)] /\
  (forall t v, ~ tied tie_headers "r" t v).
Proof.
  destruct tie_hypotheses as (A & B & C). split; [exact A|]. split; [exact B|]. split; [exact C|].
  intros t v (h & I & E & T). cbn in I. destruct I as [<-|[<-|[<-|[]]]]; cbn in *; discriminate.
Qed.

(** * C44 *)
Local Open Scope nat_scope.
Theorem C44_accepted : forall (V : Type) (m : machine V) tb b n, evaluate_formula m tb b n <> None <-> confined n.
Proof. exact formula_accepted. Qed.
Print Assumptions C44_accepted.
Theorem C44_calls : forall (V : Type) (m : machine V) tb b n o t g vs, evaluate_formula m tb b n = Some (o, t) ->
  In (g, vs) t -> exists f, In f allowed_funcs /\
    (lookup f b = Some g \/ (lookup f b = None /\ g = tb f)).
Proof. exact formula_calls. Qed.
Print Assumptions C44_calls.
Theorem C44_reads : forall (V : Type) (m : machine V) tb b1 b2 n,
  (forall x, occurs x n -> lookup x b1 = lookup x b2) ->
  evaluate_formula m tb b1 n = evaluate_formula m tb b2 n.
Proof. exact formula_reads. Qed.
Print Assumptions C44_reads.
Theorem C44_unbound : forall (V : Type) (m : machine V) tb b n x t,
  evaluate_formula m tb b n = Some (NameError x, t) ->
  occurs x n /\ lookup x b = None /\ ~ In x table_names.
Proof. exact formula_unbound. Qed.
Print Assumptions C44_unbound.
Theorem C44_override : forall (V : Type) (m : machine V) tb b f g c, In f allowed_funcs -> lookup f b = Some g ->
  evaluate_formula m tb b (Call (Name f) [Constant c] []) =
  Some (match m_call m g [m_const m c] with Some v => Value v | None => Raised end, [(g, [m_const m c])]).
Proof. exact binding_overrides. Qed.
Print Assumptions C44_override.
Theorem C44_only_numbers_refuted : exists n, confined n /\ exists c, In (Constant c) (walk n) /\ ~ numeric c.
Proof. exact only_numbers_refuted. Qed.
Print Assumptions C44_only_numbers_refuted.
Example C44_case : confined (BinOp (Call (Name "sin"%string) [Name "inc"%string] []) Mult (Constant (CInt BinNums.Z0))).
Proof.
  constructor; [left; unfold binary; tauto| |constructor]. constructor; [cbn; tauto|]. constructor; [|constructor].
  constructor. discriminate.
Qed.
