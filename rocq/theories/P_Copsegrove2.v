(** What a diagnostic file yields. *)
Require Import Reals ZArith Ascii String List Bool Lra Lia.
Require Import Verif.Base Verif.NumPy Verif.M_Utils Verif.M_DmsText Verif.P_DmsText.
Require Import Verif.M_Text Verif.Spec_Text Verif.P_Text Verif.M_Ingest Verif.Spec_Ingest Verif.P_Ingest Verif.P_Ingest3.
Require Import Verif.M_Validate Verif.M_Copsegrove Verif.Spec_Copsegrove Verif.P_Copsegrove.
Import ListNotations.
Open Scope list_scope.
Local Open Scope nat_scope.

Fixpoint drop_blanks (s : text) : text := match s with c :: r => if is_space c then drop_blanks r else s | [] => [] end.
Lemma drop_blanks_app : forall p c r, blanks p -> is_space c = false -> drop_blanks (p ++ c :: r) = c :: r.
Proof. intros p c r B C. induction B as [|a p A B IH]; cbn; [rewrite C; reflexivity|]. rewrite A. exact IH. Qed.
Lemma upper_not_space : forall c, is_upper c -> is_space c = false.
Proof. intro c. unfold is_upper. destruct c as [[] [] [] [] [] [] [] []]; cbn; intro; try reflexivity; lia. Qed.
Lemma kinds_differ : forall l code v md inc azi, sig_line l code v -> station_line l md inc azi -> False.
Proof.
  intros l code v md inc azi (p & q1 & q2 & q3 & q4 & x & y & z & rest & E & P & _ & _ & _ & _ & (c & r & -> & U & _) & _)
    (p' & q1' & q2' & q3' & q4' & q5' & x' & y' & z' & rest' & E' & P' & _ & _ & _ & _ & _ & _ & [(neg & ip & fp & NI & NF & DI & DF & EX & _) NM] & _).
  destruct neg; [elim NM; eexists; exact EX|]. destruct DI as [|d ip D DI]; [contradiction|]. subst x'. rewrite E in E'. apply (f_equal drop_blanks) in E'.
  cbn [app] in E'. rewrite drop_blanks_app in E' by (assumption || apply upper_not_space; assumption). rewrite drop_blanks_app in E'; [|exact P'|apply digit_plain in D; apply D].
  injection E' as -> _. unfold is_upper, is_digit in *. lia.
Qed.
Lemma sig_line_unique : forall l code v code' v', sig_line l code v -> sig_line l code' v' -> code = code' /\ v = v'.
Proof. intros l code v code' v' A B. apply sig_spec in A, B. rewrite A in B. injection B as -> ->. auto. Qed.
Lemma last_sigmas_snoc : forall b l code v, last_sigmas (b ++ [l]) code v <-> sig_line l code v \/ ((forall v', ~ sig_line l code v') /\ last_sigmas b code v).
Proof.
  intros b l code v. split.
  - intros (x & m & y & E & S & N). destruct (exists_last (l := m :: y)) as (y' & z & EY); [discriminate|]. rewrite EY, app_assoc in E. apply app_inj_tail in E. destruct E as [-> ->].
    destruct y as [|h y].
    + destruct y' as [|e y']; [injection EY as ->; auto|]. destruct y'; discriminate.
    + right. destruct y' as [|e y']; [destruct y; discriminate|]. injection EY as <- EY. split.
      * intros v' S'. apply (N z v'); [rewrite EY; apply in_or_app; right; left; reflexivity|exact S'].
      * exists x, m, y'. split; [reflexivity|]. split; [exact S|]. intros l' v' I. apply N. rewrite EY. apply in_or_app. auto.
  - intros [S|[NS (x & m & y & -> & S & N)]].
    + exists b, l, []. split; [reflexivity|]. split; [exact S|]. intros l' v' [].
    + exists x, m, (y ++ [l]). split; [rewrite <- app_assoc; reflexivity|]. split; [exact S|]. intros l' v' I. apply in_app_or in I. destruct I as [I|[<-|[]]]; auto.
Qed.
Lemma no_label : forall code, code_text code -> existsb (text_eqb code) aggregate_labels = false.
Proof.
  intros code (c & r & -> & U & F). destruct (existsb (text_eqb (c :: r)) aggregate_labels) eqn:E; [|reflexivity]. exfalso. apply existsb_exists in E. destruct E as (l & I & E). apply text_eqb_spec in E.
  subst l. unfold aggregate_labels in I. cbn in I.
  repeat (destruct I as [I|I]; [injection I as <- <-; inversion F as [|? ? H ?]; subst; unfold is_upper, is_digit in H; cbn in H; destruct H as [H|[H|H]]; try lia; discriminate|]). exact I.
Qed.
Definition held (before : list text) (pending : list (text * sigmas)) : Prop :=
  NoDup (map fst pending) /\ forall code v, dget text_eqb code pending = Some v <-> last_sigmas before code v.
Lemma parse_from : forall lines before pending, (forall l, In l before -> ~ is_station_line l) -> held before pending -> stations_in (before ++ lines) (parse_lines lines pending).
Proof.
  induction lines as [|l lines IH]; intros before pending NB [ND H]; cbn [parse_lines].
  - rewrite app_nil_r. constructor. exact NB.
  - destruct (sig_match l) as [[code v]|] eqn:S.
    + apply sig_spec in S. assert (CT : code_text code) by (destruct S as (p & q1 & q2 & q3 & q4 & x & y & z & rest & S); apply S). rewrite (no_label code CT).
      change (l :: lines) with ([l] ++ lines). rewrite app_assoc. apply IH.
      * intros l' I. apply in_app_or in I. destruct I as [I|[<-|[]]]; [auto|]. intros (md & inc & azi & ST). exact (kinds_differ l code v md inc azi S ST).
      * split; [apply (dput_nodup text_eqb text_eqb_spec); exact ND|]. intros code' v'. rewrite (dget_put text_eqb text_eqb_spec), last_sigmas_snoc. destruct (text_eqb code' code) eqn:E.
        -- apply text_eqb_spec in E. subst code'. split; [intro A; injection A as <-; auto|]. intros [A|[A _]]; [destruct (sig_line_unique l code v code v' S A) as [_ ->]; reflexivity|elim (A v S)].
        -- apply text_eqb_neq in E. rewrite H. split; [|intros [A|[_ A]]; [destruct (sig_line_unique l code v code' v' S A); congruence|exact A]]. intro A. right. split; [|exact A].
           intros w B. destruct (sig_line_unique l code v code' w S B). congruence.
    + assert (NS : forall code v, ~ sig_line l code v) by (intros code v A; apply sig_spec in A; congruence).
      destruct (station_match l) as [[[md inc] azi]|] eqn:T.
      * apply station_match_spec in T. apply next_station; cbn [st_md st_inc st_azi st_sigmas]; [exact NB|exact T|exact ND|exact H|]. apply (IH [] []); [intros l' []|].
        split; [constructor|]. intros code v. split; [discriminate|]. intros (a & m & b & E & _). destruct a; discriminate.
      * change (l :: lines) with ([l] ++ lines). rewrite app_assoc. apply IH.
        -- intros l' I. apply in_app_or in I. destruct I as [I|[<-|[]]]; [auto|]. intros (md & inc & azi & ST). apply station_match_spec in ST. congruence.
        -- split; [exact ND|]. intros code v. rewrite last_sigmas_snoc, H. split; [right; split; [intros v'; apply NS|assumption]|]. intros [A|[_ A]]; [elim (NS code v A)|exact A].
Qed.
Lemma parse_spec : forall lines, stations_in lines (parse_copsegrove lines).
Proof.
  intro lines. apply (parse_from lines [] []); [intros l []|]. split; [constructor|]. intros code v. split; [discriminate|]. intros (a & m & b & E & _). destruct a; discriminate.
Qed.
(** the stations in the order of the station lines *)
Lemma stations_order : forall lines sts, stations_in lines sts -> exists ks, selects is_station_line lines ks /\ Forall2 (fun l s => station_line l (st_md s) (st_inc s) (st_azi s)) ks sts.
Proof.
  intros lines sts P. induction P as [lines N|before line after st sts N ST ND H P (ks & S & F)].
  - exists []. split; [|constructor]. induction lines as [|l lines IH]; constructor; [apply N; left; reflexivity|apply IH; intros x I; apply N; right; exact I].
  - exists (line :: ks). split; [|constructor; assumption]. clear H. induction before as [|b before IB]; cbn [app].
    + apply sel_keep; [do 3 eexists; exact ST|exact S].
    + apply sel_drop; [apply N; left; reflexivity|]. apply IB. intros l I. apply N. right. exact I.
Qed.
(** numbers after the last station line are in no station *)
Lemma tail_lost : forall lines tl, (forall l, In l tl -> ~ is_station_line l) -> parse_copsegrove (lines ++ tl) = parse_copsegrove lines.
Proof.
  intros lines tl N. unfold parse_copsegrove. generalize (@nil (text * sigmas)). induction lines as [|l lines IH]; intro pending; cbn [app parse_lines].
  - revert pending. induction tl as [|l tl IT]; intro pending; [reflexivity|]. cbn [parse_lines]. destruct (sig_match l) as [[code v]|].
    + destruct (existsb (text_eqb code) aggregate_labels); apply IT; intros x I; apply N; right; exact I.
    + destruct (station_match l) as [[[md inc] azi]|] eqn:T; [|apply IT; intros x I; apply N; right; exact I]. apply station_match_spec in T. elim (N l (or_introl eq_refl)). do 3 eexists. exact T.
  - destruct (sig_match l) as [[code v]|]; [destruct (existsb (text_eqb code) aggregate_labels); apply IH|].
    destruct (station_match l) as [[[md inc] azi]|]; [f_equal; apply IH|apply IH].
Qed.

(** ** one term *)
Lemma per_term_spec : forall stations term md inc azi sig, per_term_sigmas stations term = (md, inc, azi, sig) ->
  exists sub, selects (fun s => exists v, dget text_eqb term (st_sigmas s) = Some v) stations sub /\
    md = map st_md sub /\ inc = map st_inc sub /\ azi = map st_azi sub /\ Forall2 (fun s v => dget text_eqb term (st_sigmas s) = Some v) sub sig.
Proof.
  induction stations as [|s stations IH]; intros term md inc azi sig H.
  - cbn in H. injection H as <- <- <- <-. exists []. repeat split; constructor.
  - cbn [per_term_sigmas fold_right] in H. fold (per_term_sigmas stations term) in H. destruct (per_term_sigmas stations term) as [[[md' inc'] azi'] sig'] eqn:E. destruct (IH _ _ _ _ _ E) as (sub & S & -> & -> & -> & F).
    destruct (dget text_eqb term (st_sigmas s)) as [v|] eqn:D; injection H as <- <- <- <-.
    + exists (s :: sub). split; [apply sel_keep; [exists v; exact D|exact S]|]. repeat (split; [reflexivity|]). constructor; assumption.
    + exists sub. split; [apply sel_drop; [intros (v & V); congruence|exact S]|]. repeat (split; [reflexivity|]). exact F.
Qed.
