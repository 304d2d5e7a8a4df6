(** C173: the names and the kind of a converted tool. *)
Require Import Reals ZArith Bool Ascii String List Lra Lia.
Require Import Verif.Base Verif.M_Owsg Verif.M_OwsgMeta Verif.Spec_Owsg Verif.Spec_OwsgMeta Verif.P_OwsgMeta.
Import ListNotations.
Open Scope list_scope.
Local Open Scope R_scope.

(** C173: an entry is the value beside the last label that reads as its key, rows whose
    value is a heading left aside. *)
Theorem C173_entries : forall show key_of headed rows key c, kv show key_of headed rows key None = Some c <->
  exists r, last_such (fun r => labelled show key_of (fst r) key /\ headed (snd r) = false) rows r /\ snd r = c.
Proof. exact kv_entries. Qed.
Print Assumptions C173_entries.

(** C173: the short name is the one stated, and else the name of the sheet; the long name
    is the one stated, and else the short name. *)
Theorem C173_names : forall show short long prefix label sheet, (forall x, show x <> ""%string) ->
  let n := tool_names show short long prefix label sheet in
  (forall s, states show short s -> n_short n = s) /\ ((forall s, ~ states show short s) -> n_short n = sheet) /\
  (forall s, states show long s -> n_long n = s) /\ ((forall s, ~ states show long s) -> n_long n = n_short n).
Proof. exact names_of. Qed.
Print Assumptions C173_names.

(** C173: the model is identified by the prefix stated, and without an entry for one by the
    name of the sheet; but if the cell of the prefix is left empty, by the short name, and by
    nothing if that is left empty too. *)
Theorem C173_identity : forall show short long prefix label sheet, (forall x, show x <> ""%string) ->
  let n := tool_names show short long prefix label sheet in
  (forall s, states show prefix s -> n_id n = s /\ n_seed n = (label ++ "/" ++ s)%string) /\
  ((forall s, ~ states show prefix s) -> ~ left_empty prefix -> n_seed n = (label ++ "/" ++ sheet)%string /\ (sheet <> ""%string -> n_id n = sheet)) /\
  (left_empty prefix -> n_seed n = (label ++ "/")%string /\
     (forall s, states show short s -> n_id n = s) /\ (left_empty short -> n_id n = ""%string)).
Proof. exact id_of. Qed.
Print Assumptions C173_identity.

(** C173: all the sheets of a set whose prefix is left empty share the text their model's
    identifier is made of, whatever their names. *)
Theorem C173_distinct_refuted : forall show short long short' long' label a b,
  n_seed (tool_names show short long (Some Empty) label a) = n_seed (tool_names show short' long' (Some Empty) label b).
Proof. exact seeds_shared. Qed.
Print Assumptions C173_distinct_refuted.

(** C173: the kind is the one known for the tool type, or for the short name where no type is
    given; else it is guessed from the name of the sheet, with a warning. *)
Theorem C173_kind : forall show tool short sheet d raw k g, (forall x, show x <> ""%string) ->
  reads_as show short sheet d -> reads_as show tool d raw ->
  (tool_kind show tool short sheet = (k, g) <->
  (g = false /\ known_kind raw k) \/
  (g = true /\ (forall j, ~ known_kind raw j) /\
   ((mentions "GYRO" sheet /\ k = "Gyroscopic"%string) \/
    (~ mentions "GYRO" sheet /\ (mentions "BLIND" sheet \/ mentions "INC" sheet) /\ k = "Unknown"%string) \/
    (~ mentions "GYRO" sheet /\ ~ mentions "BLIND" sheet /\ ~ mentions "INC" sheet /\ k = "Magnetic"%string)))).
Proof. exact kind_read. Qed.
Print Assumptions C173_kind.

(** C173: with the cell of the tool type left empty the short name is not looked at: such a
    tool is guessed to be magnetic even if its short name is, say, FINDS. *)
Theorem C173_short_name_refuted : forall show short sheet, ~ mentions "GYRO" sheet -> ~ mentions "BLIND" sheet -> ~ mentions "INC" sheet ->
  tool_kind show (Some Empty) short sheet = ("Magnetic"%string, true).
Proof. exact empty_kind. Qed.
Print Assumptions C173_short_name_refuted.

Definition digits (x : R) : string := "7"%string.
Definition entries : list (cell * cell) := [(Words "Short Name", Words "old"); (Empty, Words "x"); (Words "Short Name", Words "FINDS"); (Words "Tool Type", Empty)].
Example C173_entries_case : kv digits (fun s => s) (fun _ => false) entries "Short Name" None = Some (Words "FINDS").
Proof. apply C173_entries. exists (Words "Short Name", Words "FINDS"). split; [|reflexivity].
  exists [(Words "Short Name", Words "old"); (Empty, Words "x")], [(Words "Tool Type", Empty)]. split; [reflexivity|]. split.
  - split; [right; exists "Short Name"%string; split; reflexivity|reflexivity].
  - intros y [<-|[]] [[(x & E & _)|(s & E & H)] _]; [discriminate|]. injection E as <-. discriminate.
Qed.
Example C173_names_case : n_short (tool_names digits (Some (Words "FINDS")) None None "A" "sheet") = "FINDS"%string /\
  n_long (tool_names digits (Some (Words "FINDS")) (Some Empty) None "A" "sheet") = "FINDS"%string.
Proof. split; reflexivity. Qed.
Example C173_identity_case : n_id (tool_names digits (Some (Words "FINDS")) None (Some (Words "A001")) "A" "sheet") = "A001"%string /\
  n_id (tool_names digits (Some Empty) None (Some Empty) "A" "sheet") = ""%string.
Proof.
  assert (Sh : forall x, digits x <> ""%string) by discriminate. split.
  - apply (proj1 (C173_identity digits (Some (Words "FINDS")) None (Some (Words "A001")) "A" "sheet" Sh)). split; [discriminate|right; reflexivity].
  - apply (proj2 (proj2 (C173_identity digits (Some Empty) None (Some Empty) "A" "sheet" Sh)) eq_refl). reflexivity.
Qed.
Example C173_distinct_refuted_case : n_seed (tool_names digits None None (Some Empty) "A" "one") = "A/"%string /\ n_seed (tool_names digits None None (Some Empty) "A" "two") = "A/"%string.
Proof. split; reflexivity. Qed.
Example C173_kind_case : tool_kind digits None (Some (Words "FINDS")) "my gyro" = ("Inertial"%string, false) /\
  tool_kind digits (Some (Words "Wireline")) (Some (Words "FINDS")) "my gyro" = ("Gyroscopic"%string, true).
Proof. split; reflexivity. Qed.
Example C173_short_name_refuted_case : tool_kind digits (Some Empty) (Some (Words "FINDS")) "sheet" = ("Magnetic"%string, true).
Proof. reflexivity. Qed.
