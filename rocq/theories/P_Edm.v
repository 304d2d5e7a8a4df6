(** EDM: attribute queries, parent chains and the state they leave behind. *)
Require Import Reals Bool String List Lia Lra.
Require Import Verif.M_Edm Verif.Spec_Edm.
Import ListNotations.
Open Scope list_scope.
Local Open Scope nat_scope.

Lemma smem_In : forall x l, smem x l = true <-> In x l.
Proof.
  intros. unfold smem. rewrite existsb_exists. split.
  - intros (y & I & E). apply String.eqb_eq in E. subst. auto.
  - intros I. exists x. split; [auto|apply String.eqb_refl].
Qed.
Lemma holds_satisfies : forall a c, holds a c = true <-> satisfies a c.
Proof.
  intros a c. unfold holds, satisfies. destruct (get (fst c) a) as [v|].
  - rewrite smem_In. split; [eauto|]. intros (w & E & I). injection E as <-. auto.
  - split; [discriminate|]. intros (w & E & _). discriminate.
Qed.
Lemma holds_not : forall a c, holds a c = false <-> ~ satisfies a c.
Proof. intros. rewrite <- holds_satisfies. destruct (holds a c); split; congruence. Qed.

(** ** dictionaries of lists *)
Lemma get_append : forall t t' a d, get t' (dappend t a d) = if String.eqb t' t then Some (entry d t ++ [a]) else get t' d.
Proof.
  intros t t' a d. unfold entry. induction d as [|[k l] d IH]; cbn.
  - destruct (String.eqb t' t); reflexivity.
  - destruct (String.eqb_spec t k) as [->|N]; cbn.
    + destruct (String.eqb t' k); reflexivity.
    + destruct (String.eqb_spec t' k) as [->|N'].
      * destruct (String.eqb_spec k t) as [->|]; [contradiction|reflexivity].
      * exact IH.
Qed.
Lemma get_extend : forall t t' v d, get t' (dextend t v d) = if String.eqb t' t then Some (entry d t ++ v) else get t' d.
Proof.
  intros t t' a d. unfold entry. induction d as [|[k l] d IH]; cbn.
  - destruct (String.eqb t' t); reflexivity.
  - destruct (String.eqb_spec t k) as [->|N]; cbn.
    + destruct (String.eqb t' k); reflexivity.
    + destruct (String.eqb_spec t' k) as [->|N'].
      * destruct (String.eqb_spec k t) as [->|]; [contradiction|reflexivity].
      * exact IH.
Qed.
Definition nonempty (d : data) : Prop := forall t, get t d <> Some [].
Lemma nonempty_append : forall t a d, nonempty d -> nonempty (dappend t a d).
Proof.
  intros t a d H t'. rewrite get_append. destruct (String.eqb t' t); [|apply H].
  destruct (entry d t); discriminate.
Qed.
Lemma entry_append : forall t t' a d, entry (dappend t a d) t' = if String.eqb t' t then entry d t' ++ [a] else entry d t'.
Proof.
  intros. unfold entry at 1. rewrite get_append. destruct (String.eqb_spec t' t) as [->|]; reflexivity.
Qed.
Lemma entry_extend : forall t t' v d, entry (dextend t v d) t' = if String.eqb t' t then entry d t' ++ v else entry d t'.
Proof.
  intros. unfold entry at 1. rewrite get_extend. destruct (String.eqb_spec t' t) as [->|]; reflexivity.
Qed.

(** ** how often an element is appended *)
Fixpoint copies (lg : logic) (a : attrib) (seen : list bool) (cs : list criterion) : nat :=
  match cs with
  | [] => 0
  | c :: r =>
      let seen' := seen ++ [holds a c] in
      (if match lg with AND => forallb (fun b => b) seen' | OR => existsb (fun b => b) seen' end then 1 else 0)
      + copies lg a seen' r
  end.
Lemma loop_entry : forall lg e cs seen d t,
  entry (criteria_loop lg e seen cs d) t =
  entry d t ++ (if String.eqb t (tag_of e) then repeat (snd e) (copies lg (snd e) seen cs) else []).
Proof.
  intros lg e cs. induction cs as [|c cs IH]; intros seen d t; cbn [criteria_loop copies].
  - destruct (String.eqb t (tag_of e)); rewrite app_nil_r; reflexivity.
  - rewrite IH. cbv zeta. destruct (match lg with AND => _ | OR => _ end); cbn [plus repeat].
    + rewrite entry_append. destruct (String.eqb t (tag_of e)); [rewrite <- app_assoc|]; reflexivity.
    + reflexivity.
Qed.
Lemma loop_nonempty : forall lg e cs seen d, nonempty d -> nonempty (criteria_loop lg e seen cs d).
Proof.
  intros lg e cs. induction cs as [|c cs IH]; intros seen d H; cbn; auto.
  apply IH. destruct (match lg with AND => _ | OR => _ end); auto using nonempty_append.
Qed.
Lemma copies_and_dead : forall a cs seen, forallb (fun b => b) seen = false -> copies AND a seen cs = 0.
Proof.
  intros a cs. induction cs as [|c cs IH]; intros seen H; cbn; auto.
  rewrite forallb_app, H. cbn. apply IH. rewrite forallb_app, H. reflexivity.
Qed.
Lemma copies_and : forall a cs seen, forallb (fun b => b) seen = true -> leading_met a cs (copies AND a seen cs).
Proof.
  intros a cs. unfold leading_met. induction cs as [|c cs IH]; intros seen H; cbn [copies].
  - split; [lia|]. split; [constructor|]. intros c E. destruct c; discriminate.
  - cbv zeta. rewrite forallb_app, H. cbn [forallb andb]. destruct (holds a c) eqn:E; cbn [andb plus].
    + destruct (IH (seen ++ [true])) as (L & F & N); [rewrite forallb_app, H; reflexivity|].
      split; [cbn; lia|]. split; [|exact N]. cbn. constructor; [apply holds_satisfies; auto|auto].
    + rewrite copies_and_dead by (rewrite forallb_app, H; reflexivity).
      split; [lia|]. split; [constructor|]. intros c' E'. injection E' as <-. apply holds_not. auto.
Qed.
Lemma copies_or_live : forall a cs seen, existsb (fun b => b) seen = true -> copies OR a seen cs = length cs.
Proof.
  intros a cs. induction cs as [|c cs IH]; intros seen H; cbn; auto.
  rewrite existsb_app, H. cbn. f_equal. apply IH. rewrite existsb_app, H. reflexivity.
Qed.
Lemma copies_or : forall a cs seen, existsb (fun b => b) seen = false -> from_first_met a cs (copies OR a seen cs).
Proof.
  intros a cs. unfold from_first_met. induction cs as [|c cs IH]; intros seen H; cbn [copies].
  - split; [lia|]. split; [constructor|]. intros c P E. lia.
  - cbv zeta. rewrite existsb_app, H. cbn [existsb orb]. destruct (holds a c) eqn:E; cbn [orb plus].
    + rewrite copies_or_live by (rewrite existsb_app, H; reflexivity). cbn [length].
      rewrite Nat.sub_diag. split; [lia|]. split; [constructor|]. intros c' _ E'. injection E' as <-. apply holds_satisfies. auto.
    + destruct (IH (seen ++ [false])) as (L & F & N); [rewrite existsb_app, H; reflexivity|].
      cbn [length]. set (n := copies OR a (seen ++ [false]) cs) in *.
      replace (S (length cs) - n) with (S (length cs - n)) by lia.
      split; [lia|]. split; [cbn; constructor; [apply holds_not; auto|auto]|]. intros c' P E'. cbn in E'. eauto.
Qed.
Definition count (lg : logic) (cs : list criterion) (e : element) : nat :=
  match cs with [] => 1 | _ => copies lg (snd e) [] cs end.
Lemma count_times : forall lg cs e, times_returned lg cs e (count lg cs e).
Proof.
  intros lg cs e. unfold times_returned, count. destruct cs as [|c cs]; [reflexivity|].
  destruct lg; [apply copies_and|apply copies_or]; reflexivity.
Qed.
Lemma query_fold : forall tags cs lg doc d t, In t tags ->
  exists rows, rows_of lg cs t doc rows /\
    entry (fold_left (fun d e =>
      if smem (tag_of e) tags then
        match cs with [] => dappend (tag_of e) (snd e) d | _ => criteria_loop lg e [] cs d end
      else d) doc d) t = entry d t ++ rows.
Proof.
  intros tags cs lg doc. induction doc as [|e doc IH]; intros d t I; cbn [fold_left].
  - exists []. split; [constructor|]. rewrite app_nil_r. reflexivity.
  - match goal with |- context [fold_left ?f doc ?x] => set (d' := x) end.
    destruct (IH d' t I) as (rows & R & E). rewrite E.
    destruct (string_dec (fst e) t) as [Et|Nt].
    + exists (repeat (snd e) (count lg cs e) ++ rows). split; [constructor; auto; apply count_times|].
      rewrite app_assoc. f_equal. unfold d', tag_of. rewrite Et. pose proof I as I'. apply smem_In in I'. rewrite I'.
      unfold count. destruct cs as [|c cs].
      * rewrite entry_append, String.eqb_refl. reflexivity.
      * rewrite loop_entry. unfold tag_of. rewrite Et, String.eqb_refl. reflexivity.
    + exists rows. split; [constructor; auto|]. f_equal. unfold d'. destruct (smem (tag_of e) tags); [|reflexivity].
      assert (B : String.eqb t (tag_of e) = false) by (apply String.eqb_neq; unfold tag_of; congruence).
      destruct cs as [|c cs].
      * rewrite entry_append, B. reflexivity.
      * rewrite loop_entry, B, app_nil_r. reflexivity.
Qed.
Lemma query_other : forall tags cs lg doc d t, ~ In t tags ->
  get t (fold_left (fun d e =>
      if smem (tag_of e) tags then
        match cs with [] => dappend (tag_of e) (snd e) d | _ => criteria_loop lg e [] cs d end
      else d) doc d) = get t d.
Proof.
  intros tags cs lg doc. induction doc as [|e doc IH]; intros d t I; cbn [fold_left]; auto.
  rewrite IH by auto. destruct (smem (tag_of e) tags) eqn:M; [|reflexivity].
  assert (B : String.eqb t (tag_of e) = false).
  { apply String.eqb_neq. intros ->. apply I. apply smem_In. auto. }
  destruct cs as [|c cs]; [rewrite get_append, B; reflexivity|].
  generalize (@nil bool). generalize (c :: cs). clear - B. intro l. revert d.
  induction l as [|c l IH]; intros d seen; cbn; auto. rewrite IH.
  destruct (match lg with AND => _ | OR => _ end); [rewrite get_append, B|]; reflexivity.
Qed.
Lemma query_nonempty : forall tags cs lg doc d, nonempty d ->
  nonempty (fold_left (fun d e =>
      if smem (tag_of e) tags then
        match cs with [] => dappend (tag_of e) (snd e) d | _ => criteria_loop lg e [] cs d end
      else d) doc d).
Proof.
  intros tags cs lg doc. induction doc as [|e doc IH]; intros d H; cbn [fold_left]; auto.
  apply IH. destruct (smem (tag_of e) tags); auto. destruct cs; auto using nonempty_append, loop_nonempty.
Qed.
Theorem attribute_query : forall doc tags cs lg t,
  let d := get_attributes doc tags cs lg in
  (In t tags -> rows_of lg cs t doc (entry d t)) /\ (~ In t tags -> get t d = None) /\ get t d <> Some [].
Proof.
  intros doc tags cs lg t d. unfold d, get_attributes. split; [|split].
  - intro I. destruct (query_fold tags cs lg doc [] t I) as (rows & R & E). rewrite E. exact R.
  - intro I. rewrite query_other by auto. reflexivity.
  - apply query_nonempty. intros t'. discriminate.
Qed.
(** one criterion *)
Lemma rows_inv : forall lg cs t e doc l, rows_of lg cs t (e :: doc) l ->
  (fst e <> t /\ rows_of lg cs t doc l) \/
  (fst e = t /\ exists n l', times_returned lg cs e n /\ rows_of lg cs t doc l' /\ l = repeat (snd e) n ++ l').
Proof. intros lg cs t e doc l H. inversion H; subst; [left|right]; eauto 10. Qed.
Lemma rows_single : forall lg c t doc l, rows_of lg [c] t doc l <->
  l = map snd (filter (fun e => String.eqb (fst e) t && holds (snd e) c)%bool doc).
Proof.
  intros lg c t doc. assert (T : forall e n, times_returned lg [c] e n <-> n = if holds (snd e) c then 1 else 0).
  { intros e n. unfold times_returned. destruct lg.
    - unfold leading_met. cbn [length]. split.
      + intros (L & F & N). destruct n as [|[|n]]; [| |lia].
        * specialize (N c eq_refl). apply holds_not in N. rewrite N. reflexivity.
        * cbn in F. inversion F; subst. apply holds_satisfies in H1. rewrite H1. reflexivity.
      + intros ->. destruct (holds (snd e) c) eqn:E.
        * split; [lia|]. split; [cbn; constructor; [apply holds_satisfies; auto|constructor]|]. intros q Q. discriminate.
        * split; [lia|]. split; [constructor|]. intros q Q. injection Q as <-. apply holds_not. auto.
    - unfold from_first_met. cbn [length]. split.
      + intros (L & F & N). destruct n as [|[|n]]; [| |lia].
        * cbn in F. inversion F; subst. apply holds_not in H1. rewrite H1. reflexivity.
        * specialize (N c ltac:(lia) eq_refl). apply holds_satisfies in N. rewrite N. reflexivity.
      + intros ->. destruct (holds (snd e) c) eqn:E.
        * split; [lia|]. split; [constructor|]. intros q _ Q. injection Q as <-. apply holds_satisfies. auto.
        * split; [lia|]. split; [cbn; constructor; [apply holds_not; auto|constructor]|]. intros q Q. lia. }
  induction doc as [|e doc IH]; intro l.
  - cbn. split; [intro H; inversion H; reflexivity|intros ->; constructor].
  - cbn. split.
    + intro H. apply rows_inv in H. destruct H as [(N & R)|(E & n & l' & M & R & ->)].
      * apply String.eqb_neq in N. rewrite N. cbn. apply IH. auto.
      * rewrite E, String.eqb_refl. cbn. apply T in M. apply IH in R. subst.
        destruct (holds (snd e) c); reflexivity.
    + intros ->. destruct (String.eqb_spec (fst e) t) as [E|E]; cbn.
      * destruct (holds (snd e) c) eqn:Hc.
        -- apply (rows_take _ _ _ e doc _ 1); [auto|apply T; rewrite Hc; reflexivity|apply IH; reflexivity].
        -- apply (rows_take _ _ _ e doc _ 0); [auto|apply T; rewrite Hc; reflexivity|apply IH; reflexivity].
      * constructor; auto. apply IH. reflexivity.
Qed.
Theorem single_criterion : forall doc tags c lg t, In t tags ->
  let l := entry (get_attributes doc tags [c] lg) t in
  l = map snd (filter (fun e => String.eqb (fst e) t && holds (snd e) c)%bool doc) /\
  (forall a, In a l <-> In (t, a) doc /\ satisfies a c).
Proof.
  intros doc tags c lg t I l. destruct (attribute_query doc tags [c] lg t) as (H & _). specialize (H I).
  apply rows_single in H. fold l in H. split; [exact H|]. intro a. rewrite H, in_map_iff. split.
  - intros ((t', a') & <- & F). apply filter_In in F. destruct F as [F B]. apply andb_prop in B. destruct B as [B1 B2]. cbn in *.
    apply String.eqb_eq in B1. subst. split; auto. apply holds_satisfies. auto.
  - intros [F S]. exists (t, a). split; auto. apply filter_In. split; auto. cbn. rewrite String.eqb_refl. apply holds_satisfies in S. auto.
Qed.
(** two criteria: an element meeting only the first is returned, one meeting both twice *)
Definition two_doc : list element :=
  [("CD_CASE", [("case_id", "1"); ("well_id", "A")]); ("CD_CASE", [("case_id", "1"); ("well_id", "B")])]%string.
Definition two_crit : list criterion := [("case_id", ["1"]); ("well_id", ["A"])]%string.
Theorem and_refuted : exists doc cs t a b,
  entry (get_attributes doc [t] cs AND) t = [a; a; b] /\ Forall (satisfies a) cs /\ ~ Forall (satisfies b) cs.
Proof.
  exists two_doc, two_crit, "CD_CASE"%string, [("case_id", "1"); ("well_id", "A")]%string, [("case_id", "1"); ("well_id", "B")]%string.
  split; [reflexivity|]. split.
  - repeat constructor; apply holds_satisfies; reflexivity.
  - intro F. inversion F; subst. inversion H2; subst. apply holds_satisfies in H3. discriminate.
Qed.

(** ** parents *)
Section Loop.
Variable rec : string -> list string -> option (list string).
Variable id : string.
Fixpoint ploop (l : list element) (preds : list string) : option (list string) :=
  match l with
  | [] => Some preds
  | e :: r =>
      if String.eqb (tag_of e) "CD_WELLBORE" then
        match get "wellbore_id"%string (snd e) with
        | None => None
        | Some w =>
            if String.eqb w id then
              match get "parent_wellbore_id"%string (snd e) with
              | Some p => match rec p (preds ++ [p]) with Some q => ploop r q | None => None end
              | None => Some preds
              end
            else ploop r preds
        end
      else ploop r preds
  end.
End Loop.
Lemma parents_unfold : forall n doc id preds,
  get_parents (S n) doc id preds = ploop (get_parents n doc) id doc preds.
Proof. reflexivity. Qed.
Definition ids_of (doc : list element) : list (option string) :=
  map (fun e => get "wellbore_id"%string (snd e)) (filter (fun e => String.eqb (fst e) "CD_WELLBORE"%string) doc).
Lemma ids_In : forall doc a, wellbore doc a -> In (get "wellbore_id"%string a) (ids_of doc).
Proof.
  intros doc a W. unfold ids_of. apply in_map_iff. exists ("CD_WELLBORE"%string, a). split; auto. apply filter_In. auto.
Qed.
Lemma ids_cons : forall e doc, ids_of (e :: doc) =
  if String.eqb (fst e) "CD_WELLBORE" then get "wellbore_id"%string (snd e) :: ids_of doc else ids_of doc.
Proof. intros. unfold ids_of. cbn. destruct (String.eqb (fst e) "CD_WELLBORE"); reflexivity. Qed.
(** the loop when no element has the id *)
Lemma ploop_absent : forall rec id l preds, (forall a, wellbore l a -> exists w, get "wellbore_id"%string a = Some w) ->
  ~ In (Some id) (ids_of l) -> ploop rec id l preds = Some preds.
Proof.
  intros rec id l. induction l as [|e l IH]; intros preds W N; cbn; auto.
  rewrite ids_cons in N. unfold tag_of. destruct (String.eqb_spec (fst e) "CD_WELLBORE") as [E|E].
  - destruct (W (snd e)) as (w & Hw); [left; destruct e; cbn in *; congruence|]. rewrite Hw in *.
    destruct (String.eqb_spec w id) as [->|]; [exfalso; apply N; left; auto|].
    apply IH; [intros a A; apply W; right; auto|intro; apply N; right; auto].
  - apply IH; [intros a A; apply W; right; auto|auto].
Qed.
(** the loop finds the one element *)
Lemma ploop_found : forall rec id l preds a, proper_ids l -> wellbore l a -> get "wellbore_id"%string a = Some id ->
  ploop rec id l preds =
  match get "parent_wellbore_id"%string a with Some p => rec p (preds ++ [p]) | None => Some preds end.
Proof.
  intros rec id l. induction l as [|e l IH]; intros preds a [W N] A Ha; [destruct A|].
  fold (ids_of (e :: l)) in N. rewrite ids_cons in N. cbn. unfold tag_of.
  assert (W' : forall b, wellbore l b -> exists w, get "wellbore_id"%string b = Some w) by (intros b B; apply W; right; auto).
  destruct (String.eqb_spec (fst e) "CD_WELLBORE") as [E|E].
  - destruct (W (snd e)) as (w & Hw); [left; destruct e; cbn in *; congruence|]. rewrite Hw in *. inversion N; subst.
    destruct (String.eqb_spec w id) as [->|Nw].
    + assert (a = snd e).
      { destruct A as [A|A]; [rewrite A; reflexivity|]. exfalso. apply H1. rewrite <- Ha. apply ids_In. auto. }
      subst a. destruct (get "parent_wellbore_id"%string (snd e)) as [p|]; [|reflexivity].
      destruct (rec p (preds ++ [p])) as [q|]; [|reflexivity]. apply ploop_absent; auto.
    + destruct A as [A|A]; [exfalso; apply Nw; rewrite A in Hw; cbn in Hw; congruence|]. apply (IH preds a); auto. split; auto.
  - destruct A as [A|A]; [exfalso; apply E; rewrite A; reflexivity|]. apply (IH preds a); auto. split; auto.
Qed.
Lemma find_wellbore : forall doc id, (exists a, wellbore doc a /\ get "wellbore_id"%string a = Some id) \/ ~ In (Some id) (ids_of doc).
Proof.
  intros doc id. destruct (in_dec (fun x y : option string => ltac:(decide equality; apply string_dec)) (Some id) (ids_of doc)) as [I|I]; [left|right; auto].
  unfold ids_of in I. apply in_map_iff in I. destruct I as ((t, a) & G & F). apply filter_In in F. destruct F as [F B].
  apply String.eqb_eq in B. cbn in *. subst t. exists a. split; auto.
Qed.
Lemma absent_no_parent : forall doc id, ~ In (Some id) (ids_of doc) -> forall p, ~ parent_of doc id p.
Proof. intros doc id N p (a & W & A & _). apply N. rewrite <- A. apply ids_In. auto. Qed.
Lemma unique_wellbore : forall doc id a b, proper_ids doc -> wellbore doc a -> wellbore doc b ->
  get "wellbore_id"%string a = Some id -> get "wellbore_id"%string b = Some id -> a = b.
Proof.
  intros doc id a b [_ N]. fold (ids_of doc) in N. induction doc as [|e doc IH]; intros A B Ha Hb; [destruct A|].
  rewrite ids_cons in N. destruct (String.eqb_spec (fst e) "CD_WELLBORE") as [E|E].
  - inversion N; subst. destruct A as [A|A], B as [B|B].
    + congruence.
    + exfalso. apply H1. rewrite A. cbn. rewrite Ha, <- Hb. apply ids_In. auto.
    + exfalso. apply H1. rewrite B. cbn. rewrite Hb, <- Ha. apply ids_In. auto.
    + auto.
  - destruct A as [A|A]; [exfalso; apply E; rewrite A; reflexivity|]. destruct B as [B|B]; [exfalso; apply E; rewrite B; reflexivity|]. auto.
Qed.
Theorem parents_chain : forall doc id l, proper_ids doc -> ancestry doc id l ->
  forall fuel hist, length l < fuel -> call_get_parents fuel doc hist id = Some (hist ++ l).
Proof.
  intros doc id l P H. unfold call_get_parents. induction H as [id N|id p l (a & W & A & Ap) H IH]; intros fuel hist F.
  - destruct fuel as [|n]; [lia|]. rewrite parents_unfold, app_nil_r.
    destruct (find_wellbore doc id) as [(a & W & A)|I].
    + rewrite (ploop_found _ _ _ _ a) by auto. destruct (get "parent_wellbore_id"%string a) as [p|] eqn:E; [|reflexivity].
      exfalso. apply (N p). exists a. auto.
    + apply ploop_absent; auto. apply P.
  - destruct fuel as [|n]; [lia|]. rewrite parents_unfold, (ploop_found _ _ _ _ a), Ap by auto.
    rewrite IH by (cbn in F; lia). rewrite <- app_assoc. reflexivity.
Qed.
Theorem parents_end : forall doc fuel id hist r, proper_ids doc -> call_get_parents fuel doc hist id = Some r ->
  exists l, ancestry doc id l /\ r = hist ++ l.
Proof.
  intros doc fuel. unfold call_get_parents. induction fuel as [|n IH]; intros id hist r P H; [discriminate|].
  rewrite parents_unfold in H. destruct (find_wellbore doc id) as [(a & W & A)|I].
  - rewrite (ploop_found _ _ _ _ a) in H by auto. destruct (get "parent_wellbore_id"%string a) as [p|] eqn:E.
    + destruct (IH p (hist ++ [p]) r P H) as (l & L & ->). exists (p :: l). split.
      * econstructor; [exists a; eauto|auto].
      * rewrite <- app_assoc. reflexivity.
    + injection H as <-. exists []. rewrite app_nil_r. split; auto. constructor.
      intros p (b & Wb & B & Bp). rewrite (unique_wellbore doc id a b P W Wb A B) in E. congruence.
  - rewrite ploop_absent in H; [|apply P|auto]. injection H as <-. exists []. rewrite app_nil_r. split; auto.
    constructor. apply absent_no_parent. auto.
Qed.
(** a sequence of calls *)
Theorem calls_history : forall doc ids chains fuel hist, proper_ids doc -> Forall2 (ancestry doc) ids chains ->
  (forall l, In l chains -> length l < fuel) ->
  exists rs, calls fuel doc hist ids = Some rs /\ length rs = length ids /\
    forall i r, nth_error rs i = Some r -> r = hist ++ concat (firstn (S i) chains).
Proof.
  intros doc ids chains fuel hist P H. revert hist. induction H as [|id l ids chains A H IH]; intros hist F.
  - exists []. split; [reflexivity|]. split; [reflexivity|]. intros i r E. destruct i; discriminate.
  - cbn. rewrite (parents_chain doc id l P A) by (apply F; left; auto).
    destruct (IH (hist ++ l)) as (rs & E & L & N); [intros; apply F; right; auto|]. rewrite E.
    exists ((hist ++ l) :: rs). split; [reflexivity|]. split; [cbn; lia|].
    intros [|i] r R.
    + injection R as <-. cbn. rewrite app_nil_r. reflexivity.
    + cbn in R. rewrite (N i r R), <- app_assoc. reflexivity.
Qed.

(** ** the data of a wellbore *)
Lemma keys_append : forall t a d, NoDup (map fst d) -> NoDup (map fst (dappend t a d)).
Proof.
  intros t a d H.
  assert (K : forall d k, In k (map fst (dappend t a d)) -> k = t \/ In k (map fst d)).
  { clear. induction d as [|[k l] d IH]; intros k'; cbn.
    - intros [<-|[]]. auto.
    - destruct (String.eqb t k); cbn; intros [<-|I]; auto. destruct (IH k' I); auto. }
  induction d as [|[k l] d IH]; cbn; [repeat constructor; auto|]. inversion H; subst.
  destruct (String.eqb_spec t k) as [->|N]; cbn; [constructor; auto|]. constructor; auto.
  intro I. apply K in I. destruct I; [congruence|contradiction].
Qed.
Lemma keys_query : forall doc tags cs lg, NoDup (map fst (get_attributes doc tags cs lg)).
Proof.
  intros doc tags cs lg. unfold get_attributes. assert (H : NoDup (map fst (@nil (string * list attrib)))) by constructor.
  revert H. generalize (@nil (string * list attrib)). induction doc as [|e doc IH]; intros d H; cbn [fold_left]; auto.
  apply IH. destruct (smem (tag_of e) tags); auto. destruct cs as [|c cs]; [apply keys_append; auto|].
  generalize (@nil bool). generalize (c :: cs). intro l. clear IH. revert d H. induction l as [|c' l IH]; intros d H seen; cbn; auto.
  apply IH. destruct (match lg with AND => _ | OR => _ end); auto using keys_append.
Qed.
Lemma entry_add : forall add d t, NoDup (map fst add) -> entry (add_attributes d add) t = entry d t ++ entry add t.
Proof.
  intros add. unfold add_attributes. induction add as [|[k v] add IH]; intros d t N; cbn [fold_left].
  - rewrite app_nil_r. reflexivity.
  - inversion N; subst. rewrite IH by auto. cbn [fst snd]. rewrite entry_extend.
    assert (Ec : entry ((k, v) :: add) t = if String.eqb t k then v else entry add t).
    { unfold entry. cbn [get]. destruct (String.eqb t k); reflexivity. }
    rewrite Ec. destruct (String.eqb_spec t k) as [->|M].
    + replace (entry add k) with (@nil attrib); [rewrite app_nil_r; reflexivity|].
      unfold entry. destruct (get k add) eqn:G; [|reflexivity]. exfalso. apply H1. clear - G.
      induction add as [|[k' v'] add IH]; cbn in *; [discriminate|]. destruct (String.eqb_spec k k'); auto.
    + reflexivity.
Qed.
Lemma query_select : forall doc tags k vs t, In t tags ->
  entry (get_attributes doc tags [(k, vs)] AND) t = select doc t k vs.
Proof. intros. apply (single_criterion doc tags (k, vs) AND t H). Qed.
Lemma query_absent : forall doc tags cs lg t, ~ In t tags -> entry (get_attributes doc tags cs lg) t = [].
Proof. intros. unfold entry. destruct (attribute_query doc tags cs lg t) as (_ & E & _). rewrite E; auto. Qed.
Lemma query_all : forall doc k vs t, entry (get_attributes doc (get_tags doc) [(k, vs)] AND) t = select doc t k vs.
Proof.
  intros. destruct (in_dec string_dec t (get_tags doc)) as [I|I]; [apply query_select; auto|].
  rewrite query_absent by auto. unfold select. unfold get_tags in I. rewrite nodup_In in I.
  clear - I. induction doc as [|e doc IH]; cbn; auto. destruct (String.eqb_spec (fst e) t) as [E|E].
  - exfalso. apply I. left. exact E.
  - apply IH. intro. apply I. right. auto.
Qed.
Definition well_tag (t : string) : bool := (String.eqb t "CD_WELL" || String.eqb t "CD_DATUM")%bool.
Definition survey_tag (t : string) : bool := (String.eqb t "CD_SURVEY_HEADER" || String.eqb t "CD_SURVEY_STATION")%bool.
Lemma tag_in : forall t a b, In t [a; b] <-> (String.eqb t a || String.eqb t b)%bool = true.
Proof.
  intros t a b. rewrite orb_true_iff, !String.eqb_eq. cbn. intuition.
Qed.
Theorem wellbore_data : forall fuel doc hist id w l d preds, proper_ids doc -> ancestry doc id l -> length l < fuel ->
  select doc "CD_WELLBORE" "wellbore_id" [id] = [w] ->
  get_wellbore_data fuel doc hist id = Some (d, preds) ->
  exists well, get "well_id"%string w = Some well /\ preds = hist ++ l /\
  forall t, entry d t =
    select doc t "wellbore_id" [id] ++
    (if in_dec string_dec t ["CD_WELL"; "CD_DATUM"]%string then select doc t "well_id" [well] else []) ++
    match hist ++ l with
    | [] => if in_dec string_dec t ["CD_WELL"; "CD_DATUM"]%string then select doc t "well_id" [well] else []
    | _ => if in_dec string_dec t ["CD_SURVEY_HEADER"; "CD_SURVEY_STATION"]%string
           then select doc t "wellbore_id" (hist ++ l) else []
    end.
Proof.
  intros fuel doc hist id w l d preds P A F W H. unfold get_wellbore_data in H.
  pose proof (query_all doc "wellbore_id"%string [id] "CD_WELLBORE"%string) as Q. unfold entry in Q.
  destruct (get "CD_WELLBORE"%string (get_attributes doc (get_tags doc) [("wellbore_id"%string, [id])] AND)) as [[|w' ws]|] eqn:G; try discriminate.
  rewrite W in Q. injection Q as -> ->.
  destruct (get "well_id"%string w) as [well|] eqn:Gw; [|discriminate].
  rewrite (parents_chain doc id l P A) in H by auto. injection H as <- <-.
  exists well. split; [auto|]. split; [auto|]. intro t.
  assert (E1 : entry (get_attributes doc ["CD_WELL"; "CD_DATUM"]%string [("well_id"%string, [well])] AND) t =
    if in_dec string_dec t ["CD_WELL"; "CD_DATUM"]%string then select doc t "well_id" [well] else []).
  { destruct (in_dec string_dec t ["CD_WELL"; "CD_DATUM"]%string); [apply query_select|apply query_absent]; auto. }
  destruct (hist ++ l) as [|p ps] eqn:Eh.
  - rewrite !entry_add, query_all, E1 by apply keys_query. rewrite app_assoc. reflexivity.
  - rewrite !entry_add, query_all, E1 by apply keys_query. rewrite app_assoc. f_equal.
    destruct (in_dec string_dec t ["CD_SURVEY_HEADER"; "CD_SURVEY_STATION"]%string); [apply query_select|apply query_absent]; auto.
Qed.
(** it succeeds exactly when the wellbore is there and knows its well *)
Theorem wellbore_data_some : forall fuel doc hist id l, proper_ids doc -> ancestry doc id l -> length l < fuel ->
  ((exists r, get_wellbore_data fuel doc hist id = Some r) <->
   (exists a well, wellbore doc a /\ get "wellbore_id"%string a = Some id /\ get "well_id"%string a = Some well)).
Proof.
  intros fuel doc hist id l P A F. unfold get_wellbore_data.
  pose proof (single_criterion doc (get_tags doc) ("wellbore_id"%string, [id]) AND "CD_WELLBORE"%string) as Q.
  assert (M : forall a, In a (entry (get_attributes doc (get_tags doc) [("wellbore_id"%string, [id])] AND) "CD_WELLBORE") <->
     wellbore doc a /\ get "wellbore_id"%string a = Some id).
  { intro a. rewrite query_all. unfold select. rewrite in_map_iff. split.
    - intros ((t & b) & <- & I). apply filter_In in I. destruct I as [I B]. apply andb_prop in B. destruct B as [B1 B2]. cbn in *.
      apply String.eqb_eq in B1. subst t. split; [exact I|]. unfold has_value in B2. destruct (get "wellbore_id"%string b); [|discriminate].
      cbn in B2. rewrite orb_false_r in B2. apply String.eqb_eq in B2. congruence.
    - intros [I G]. exists ("CD_WELLBORE"%string, a). split; auto. apply filter_In. split; auto. cbn. unfold has_value. rewrite G. cbn.
      rewrite String.eqb_refl. reflexivity. }
  unfold entry in M. destruct (get "CD_WELLBORE"%string (get_attributes doc (get_tags doc) [("wellbore_id"%string, [id])] AND)) as [[|w ws]|] eqn:G.
  - split; [intros (r & E); discriminate|]. intros (a & well & I & Ga & _). exfalso. apply (M a). auto.
  - destruct (proj1 (M w) (or_introl eq_refl)) as [Iw Gw].
    rewrite (parents_chain doc id l P A) by auto. destruct (get "well_id"%string w) as [well|] eqn:E.
    + split; [|intros _; eexists; reflexivity]. intros _. exists w, well. auto.
    + split; [intros (r & X); discriminate|]. intros (a & well & I & Ga & Wa).
      rewrite (unique_wellbore doc id w a P Iw I Gw Ga) in E. congruence.
  - split; [intros (r & E); discriminate|]. intros (a & well & I & Ga & _). exfalso. apply (M a). auto.
Qed.
(** two unrelated wells: the second answer holds the surveys of the first well's parent *)
Definition fork_doc : list element :=
  [("CD_WELLBORE", [("wellbore_id", "a"); ("well_id", "W1")]);
   ("CD_WELLBORE", [("wellbore_id", "b"); ("well_id", "W1"); ("parent_wellbore_id", "a")]);
   ("CD_WELLBORE", [("wellbore_id", "c"); ("well_id", "W2")]);
   ("CD_SURVEY_HEADER", [("wellbore_id", "a"); ("survey_header_id", "ha")]);
   ("CD_SURVEY_HEADER", [("wellbore_id", "c"); ("survey_header_id", "hc")]);
   ("CD_WELL", [("well_id", "W2")])]%string.
Theorem stale_parents_refuted : exists doc id other d h d' h',
  get_wellbore_data 5 doc [] id = Some (d, h) /\
  (exists d0, get_wellbore_data 5 doc [] other = Some (d0, h')) /\
  (exists h'', get_wellbore_data 5 doc h' id = Some (d', h'')) /\
  entry d "CD_SURVEY_HEADER" = select doc "CD_SURVEY_HEADER" "wellbore_id" [id] /\
  entry d' "CD_SURVEY_HEADER" = select doc "CD_SURVEY_HEADER" "wellbore_id" [id] ++ select doc "CD_SURVEY_HEADER" "wellbore_id" ["a"%string] /\
  select doc "CD_SURVEY_HEADER" "wellbore_id" ["a"%string] <> [] /\ ~ parent_of doc id "a".
Proof.
  exists fork_doc, "c"%string, "b"%string.
  eexists _, _, _, _. split; [vm_compute; reflexivity|]. split; [eexists; vm_compute; reflexivity|].
  split; [eexists; vm_compute; reflexivity|]. split; [reflexivity|]. split; [reflexivity|]. split; [discriminate|].
  intros (a & I & G & Pp). unfold wellbore, fork_doc in I.
  repeat (destruct I as [I|I]; [injection I as I'; subst; cbn in *; try discriminate|]). destruct I.
Qed.

(** ** the survey of a case *)
Section Ties.
Variable rec : string -> list (string * R) -> option (list (string * R)).
Variable id : string.
Fixpoint tloop (l : list header) (d : list (string * R)) : option (list (string * R)) :=
  match l with
  | [] => Some d
  | h :: r =>
      if String.eqb (h_id h) id then
        match h_tie h with
        | Some (t, v) => match rec t (dset id v d) with Some d' => tloop r d' | None => None end
        | None => tloop r d
        end
      else tloop r d
  end.
End Ties.
Lemma ties_unfold : forall n hs id d, get_parent_surveys (S n) hs id d = tloop (get_parent_surveys n hs) id hs d.
Proof. reflexivity. Qed.
Lemma tloop_absent : forall rec id l d, (forall t v, ~ tied l id t v) -> tloop rec id l d = Some d.
Proof.
  intros rec id l. induction l as [|h l IH]; intros d N; cbn; auto.
  assert (N' : forall t v, ~ tied l id t v) by (intros t v (x & I & E & T); apply (N t v); exists x; split; [right|]; auto).
  destruct (String.eqb_spec (h_id h) id) as [E|E]; [|auto]. destruct (h_tie h) as [[t v]|] eqn:T; [|auto].
  exfalso. apply (N t v). exists h. split; [left|]; auto.
Qed.
Lemma not_tied : forall l id, ~ In id (map h_id l) -> forall t v, ~ tied l id t v.
Proof. intros l id N t v (h & I & E & _). apply N. rewrite <- E. apply in_map. auto. Qed.
Lemma tloop_found : forall rec id l d t v, distinct_headers l -> tied l id t v ->
  tloop rec id l d = rec t (dset id v d).
Proof.
  intros rec id l. unfold distinct_headers. induction l as [|h l IH]; intros d t v N (x & I & E & T); [destruct I|]. cbn in *. inversion N; subst.
  destruct I as [->|I].
  - rewrite String.eqb_refl, T. destruct (rec t (dset (h_id x) v d)); [|reflexivity]. apply tloop_absent. apply not_tied. auto.
  - destruct (String.eqb_spec (h_id h) (h_id x)) as [E|E].
    + exfalso. apply H1. rewrite E. apply in_map. auto.
    + apply IH; auto. exists x. auto.
Qed.
Lemma tied_unique : forall hs id t v t' v', distinct_headers hs -> tied hs id t v -> tied hs id t' v' -> t = t' /\ v = v'.
Proof.
  intros hs id t v t' v' N (x & I & E & T) (y & I' & E' & T').
  assert (x = y); [|subst; split; congruence].
  unfold distinct_headers in N. clear T T'. induction hs as [|h hs IH]; [destruct I|]. cbn in N. inversion N; subst.
  destruct I as [->|I], I' as [->|I']; auto.
  - exfalso. apply H1. rewrite <- E'. apply in_map. auto.
  - exfalso. apply H1. rewrite E'. apply in_map. auto.
Qed.
Lemma chain_unique : forall hs id l l', distinct_headers hs -> tie_chain hs id l -> tie_chain hs id l' -> l = l'.
Proof.
  intros hs id l l' N H. revert l'. induction H as [id E|id t v l T H IH]; intros l' H'; inversion H'; subst; auto.
  - exfalso. eapply E; eauto.
  - exfalso. eapply H0; eauto.
  - destruct (tied_unique hs id t v t0 v0 N T H0) as [-> ->]. f_equal. auto.
Qed.
Lemma chain_suffix : forall hs id l k, tie_chain hs id l -> In k (map fst l) -> exists l', tie_chain hs k l' /\ length l' <= length l.
Proof.
  intros hs id l k H. induction H as [id E|id t v l T H IH]; intro I; [destruct I|]. destruct I as [<-|I].
  - cbn. exists ((id, v) :: l). split; [econstructor; eauto|]. auto.
  - destruct (IH I) as (l' & H' & L). exists l'. split; auto. cbn. lia.
Qed.
Lemma chain_nodup : forall hs id l, distinct_headers hs -> tie_chain hs id l -> NoDup (map fst l).
Proof.
  intros hs id l N H. induction H as [id E|id t v l T H IH]; cbn; constructor; auto.
  intro I. destruct (chain_suffix hs t l id H I) as (l' & H' & L).
  assert (l' = (id, v) :: l) by (eapply chain_unique; eauto; econstructor; eauto). subst. cbn in L. lia.
Qed.
Lemma dset_fresh : forall k v d, ~ In k (map fst d) -> dset k v d = d ++ [(k, v)].
Proof.
  intros k v d. induction d as [|[k' v'] d IH]; intro N; cbn; auto. destruct (String.eqb_spec k k') as [->|].
  - exfalso. apply N. left. auto.
  - rewrite IH; auto. intro. apply N. right. auto.
Qed.
Lemma ties_fresh : forall hs id l, distinct_headers hs -> tie_chain hs id l -> forall fuel d, length l < fuel ->
  NoDup (map fst (d ++ l)) -> get_parent_surveys fuel hs id d = Some (d ++ l).
Proof.
  intros hs id l N H. induction H as [id E|id t v l T H IH]; intros fuel d F D.
  - destruct fuel; [lia|]. rewrite ties_unfold, tloop_absent, app_nil_r by auto. reflexivity.
  - destruct fuel as [|n]; [cbn in F; lia|]. rewrite ties_unfold, (tloop_found _ _ _ _ t v) by auto.
    assert (Nk : ~ In id (map fst d)).
    { rewrite map_app in D. cbn in D. apply NoDup_remove_2 in D. intro I. apply D. apply in_or_app. auto. }
    rewrite dset_fresh by auto. rewrite IH; [rewrite <- app_assoc; reflexivity|cbn in F; lia|rewrite <- app_assoc; exact D].
Qed.
Theorem parent_surveys : forall hs id l m fuel, distinct_headers hs -> tie_chain hs id l -> length l < fuel ->
  get_parent_surveys fuel hs id [(id, m)] = Some (match l with [] => [(id, m)] | _ => l end).
Proof.
  intros hs id l m fuel N H F. pose proof (chain_nodup hs id l N H) as D. inversion H; subst.
  - destruct fuel as [|n]; [lia|]. rewrite ties_unfold, tloop_absent by auto. reflexivity.
  - destruct fuel as [|n]; [lia|]. rewrite ties_unfold, (tloop_found _ _ _ _ t v) by auto. cbn [dset]. rewrite String.eqb_refl.
    rewrite (ties_fresh hs t l0); auto. cbn in F. lia.
Qed.
Local Open Scope R_scope.
Lemma collect_In : forall sts l m s, descending m l ->
  (In s (collect sts l m) <->
   exists i k v, nth_error l i = Some (k, v) /\ In s sts /\ fst s = k /\ v <= snd s <= nth i (m :: map snd l) 0).
Proof.
  intros sts l. unfold descending. induction l as [|[k v] l IH]; intros m s D.
  - cbn. split; [intros []|]. intros (i & k & v & E & _). destruct i; discriminate.
  - cbn [map snd] in D. inversion D; subst. assert (Hv : v < m) by (inversion H2; auto). cbn [collect].
    destruct (Rlt_dec v m) as [_|C]; [|contradiction]. rewrite in_app_iff, filter_In, (IH v s H1). split.
    + intros [[I B]|(i & k' & v' & E & I & Ek & R)].
      * apply andb_prop in B. destruct B as [B B3]. apply andb_prop in B. destruct B as [B1 B2]. apply String.eqb_eq in B1.
        exists O, k, v. cbn. split; auto. split; auto. split; auto.
        destruct (Rle_dec v (snd s)); [|discriminate]. destruct (Rle_dec (snd s) m); [|discriminate]. auto.
      * exists (S i), k', v'. cbn. auto.
    + intros ([|i] & k' & v' & E & I & Ek & R).
      * cbn in E. injection E as <- <-. left. split; auto. cbn in R. rewrite Ek, String.eqb_refl.
        destruct (Rle_dec v (snd s)); [|exfalso; tauto]. destruct (Rle_dec (snd s) m); [|exfalso; tauto]. reflexivity.
      * right. exists i, k', v'. cbn in E, R. auto.
Qed.
Lemma case_unfold : forall fuel chs hs sts id m l, distinct_headers hs -> tie_chain hs id l -> (length l < fuel)%nat ->
  md_max_of chs id = Some m ->
  case_survey fuel chs hs sts id = Some (collect sts (match l with [] => [(id, m)] | _ => l end) m).
Proof. intros. unfold case_survey. rewrite H2, (parent_surveys hs id l m fuel); auto. Qed.
Lemma md_max_distinct : forall chs h, distinct_headers chs -> In h chs -> md_max_of chs (h_id h) = Some (h_md_max h).
Proof.
  intros chs h. unfold distinct_headers. induction chs as [|x chs IH]; intros N I; [destruct I|]. cbn in *. inversion N; subst.
  destruct I as [->|I].
  - replace (md_max_of chs (h_id h)) with (@None R); [rewrite String.eqb_refl; reflexivity|].
    symmetry. clear - H1. induction chs as [|x chs IH]; cbn in *; auto. rewrite IH by tauto.
    destruct (String.eqb_spec (h_id x) (h_id h)); [exfalso; auto|reflexivity].
  - rewrite IH; auto.
Qed.
Theorem case_stations : forall fuel chs hs sts h l, distinct_headers chs -> distinct_headers hs -> In h chs ->
  tie_chain hs (h_id h) l -> (length l < fuel)%nat -> descending (h_md_max h) l ->
  exists r, case_survey fuel chs hs sts (h_id h) = Some r /\
  forall s, In s r <-> exists i k v, nth_error l i = Some (k, v) /\ In s sts /\ fst s = k /\
                        v <= snd s <= nth i (h_md_max h :: map snd l) 0.
Proof.
  intros fuel chs hs sts h l D1 D2 I C F O. eexists. split; [apply case_unfold; eauto using md_max_distinct|].
  intro s. destruct l as [|kv l].
  - cbn. destruct (Rlt_dec (h_md_max h) (h_md_max h)); [lra|]. split; [intros []|]. intros (i & k & v & E & _). destruct i; discriminate.
  - apply collect_In. auto.
Qed.
Theorem untied_empty : forall fuel chs hs sts h, distinct_headers chs -> In h chs ->
  (forall t v, ~ tied hs (h_id h) t v) -> (0 < fuel)%nat ->
  case_survey fuel chs hs sts (h_id h) = Some [].
Proof.
  intros fuel chs hs sts h D I N F. unfold case_survey. rewrite md_max_distinct by auto.
  destruct fuel as [|n]; [lia|]. rewrite ties_unfold, tloop_absent by auto. cbn.
  destruct (Rlt_dec (h_md_max h) (h_md_max h)); [lra|reflexivity].
Qed.
Lemma chain_root : forall hs id l, tie_chain hs id l -> forall k v, In (k, v) l -> exists t, tied hs k t v.
Proof.
  intros hs id l H. induction H as [id E|id t v l T H IH]; intros k w I; [destruct I|]. destruct I as [I|I]; eauto.
  injection I as <- <-. eauto.
Qed.
(** the survey that is tied to nothing contributes no station *)
Theorem root_missing : forall fuel chs hs sts h l r s, distinct_headers chs -> distinct_headers hs -> In h chs ->
  tie_chain hs (h_id h) l -> (length l < fuel)%nat ->
  case_survey fuel chs hs sts (h_id h) = Some r -> In s r -> exists t v, tied hs (fst s) t v /\ v <= snd s.
Proof.
  intros fuel chs hs sts h l r s D1 D2 I C F E Is.
  rewrite (case_unfold fuel chs hs sts (h_id h) (h_md_max h) l) in E by auto using md_max_distinct. injection E as <-.
  assert (G : forall l', (forall k v, In (k, v) l' -> exists t, tied hs k t v) -> forall m, In s (collect sts l' m) ->
     exists t v, tied hs (fst s) t v /\ v <= snd s).
  { clear. induction l' as [|[k v] l' IH]; intros H m Is; [destruct Is|]. cbn in Is. destruct (Rlt_dec v m).
    - apply in_app_or in Is. destruct Is as [Is|Is].
      + apply filter_In in Is. destruct Is as [_ B]. apply andb_prop in B. destruct B as [B _]. apply andb_prop in B. destruct B as [B1 B2].
        apply String.eqb_eq in B1. destruct (H k v (or_introl eq_refl)) as (t & T). exists t, v. rewrite B1. split; auto.
        destruct (Rle_dec v (snd s)); [auto|discriminate].
      + eapply IH; eauto. intros; apply H; right; auto.
    - eapply IH; eauto. intros; apply H; right; auto. }
  destruct l as [|kv l].
  - cbn in Is. destruct (Rlt_dec (h_md_max h) (h_md_max h)); [lra|destruct Is].
  - eapply G; eauto. intros k v Ik. eapply chain_root; eauto.
Qed.
Local Close Scope R_scope.
Theorem single_query : forall doc tags k vs lg t, In t tags ->
  let l := entry (get_attributes doc tags [(k, vs)] lg) t in
  l = select doc t k vs /\ (forall a, In a l <-> In (t, a) doc /\ exists v, get k a = Some v /\ In v vs).
Proof. intros doc tags k vs lg t I. exact (single_criterion doc tags (k, vs) lg t I). Qed.
Theorem no_ancestry : forall doc id hist, proper_ids doc -> ~ (exists l, ancestry doc id l) ->
  forall fuel, call_get_parents fuel doc hist id = None.
Proof.
  intros doc id hist P N fuel. destruct (call_get_parents fuel doc hist id) as [r|] eqn:E; [|reflexivity].
  destruct (parents_end doc fuel id hist r P E) as (l & A & _). exfalso. eauto.
Qed.
(** asking twice *)
Theorem fresh_answer_refuted : exists doc id l, proper_ids doc /\ ancestry doc id l /\
  calls 5 doc [] [id; id] = Some [l; l ++ l] /\ l <> [].
Proof.
  exists [("CD_WELLBORE", [("wellbore_id", "a")]); ("CD_WELLBORE", [("wellbore_id", "b"); ("parent_wellbore_id", "a")])]%string.
  exists "b"%string, ["a"%string]. split; [|split; [|split; [reflexivity|discriminate]]].
  - split.
    + intros a [E|[E|[]]]; injection E as <-; eexists; reflexivity.
    + cbn. repeat constructor; cbn; intuition discriminate.
  - eapply anc_step.
    + eexists. split; [right; left; reflexivity|]. split; reflexivity.
    + constructor. intros p (a & [E|[E|[]]] & G & Q); injection E as <-; discriminate.
Qed.
(** a wellbore that is its own parent *)
Definition loop_doc : list element := [("CD_WELLBORE", [("wellbore_id", "a"); ("parent_wellbore_id", "a")])]%string.
Lemma loop_hypotheses : proper_ids loop_doc /\ ~ (exists l, ancestry loop_doc "a" l).
Proof.
  split.
  - split; [intros a [E|[]]; injection E as <-; eexists; reflexivity|]. cbn. repeat constructor; cbn; auto.
  - assert (U : forall p, parent_of loop_doc "a" p <-> p = "a"%string).
    { intro p. split.
      - intros (a & [E|[]] & G & Q). injection E as <-. injection Q as <-. reflexivity.
      - intros ->. eexists. split; [left; reflexivity|]. split; reflexivity. }
    intros (l & A). remember "a"%string as id eqn:E in A. induction A as [id N|id p l Q A IH]; subst.
    + apply (N "a"%string). apply U. reflexivity.
    + apply IH. apply U. exact Q.
Qed.
(** ** examples *)
Lemma fork_proper : proper_ids fork_doc.
Proof.
  split.
  - intros a I. unfold wellbore, fork_doc in I. repeat (destruct I as [I|I]; [injection I as I'; subst; try discriminate; eexists; reflexivity|]). destruct I.
  - cbn. repeat constructor; cbn; intuition discriminate.
Qed.
Lemma fork_ancestry : ancestry fork_doc "b" ["a"%string] /\ ancestry fork_doc "c" [].
Proof.
  assert (N : forall id p, parent_of fork_doc id p -> id = "b"%string).
  { intros id p (a & I & G & Q). unfold wellbore, fork_doc in I.
    repeat (destruct I as [I|I]; [injection I as I'; subst; try discriminate; cbn in *; congruence|]). destruct I. }
  split.
  - eapply anc_step; [eexists; split; [right; left; reflexivity|split; reflexivity]|].
    constructor. intros p Q. apply N in Q. discriminate.
  - constructor. intros p Q. apply N in Q. discriminate.
Qed.
Local Open Scope R_scope.
Definition tie_headers : list header :=
  [mkHeader "s" 300 (Some ("p"%string, 200)); mkHeader "p" 250 (Some ("r"%string, 100)); mkHeader "r" 150 None]%string.
Lemma tie_hypotheses : distinct_headers tie_headers /\
  tie_chain tie_headers "s" [("s"%string, 200); ("p"%string, 100)] /\ descending 300 [("s"%string, 200); ("p"%string, 100)].
Proof.
  split; [unfold distinct_headers; cbn; repeat constructor; cbn; intuition discriminate|]. split.
  - eapply tie_step; [exists (mkHeader "s" 300 (Some ("p"%string, 200))); cbn; auto|].
    eapply tie_step; [exists (mkHeader "p" 250 (Some ("r"%string, 100))); cbn; auto|].
    constructor. intros t v (h & I & E & T). cbn in I.
    destruct I as [<-|[<-|[<-|[]]]]; cbn in *; discriminate.
  - unfold descending. cbn. repeat constructor; lra.
Qed.
