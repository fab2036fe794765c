(** What BuildFiles and BuildInto leave behind (C26, C27, C43). *)
From Verif Require Export BuildIO.
Local Open Scope string_scope.

(** Where a config goes: absolute names stay, others are put below [dir]. *)
Definition place (dir file : string) : string := if has_prefix file "/" then file else join_path dir file.
(** Path and final content of one config. *)
Definition written (dir : string) (o : boptions) (c : config) : option (string * string) :=
  match build_text o (cf_parsed c) with
  | Some t => Some (place dir (cf_file c), trim_right is_space_rune t ++ s_nl)
  | None => None
  end.
(** The contents after the files of [ws] have been written in order. *)
Definition put_all (ws : list (string * string)) (f : string -> option string) : string -> option string :=
  fold_left (fun f w => fun q => if String.eqb q (fst w) then Some (snd w) else f q) ws f.
Definition same_files (f g : string -> option string) : Prop := forall q, f q = g q.

(** One operation of a StringsCreator's user. *)
Inductive cr_op := OCreate (name : string) | OWrite (h : nat) (b : string) | OClose (h : nat) | OReset.
Definition cr_do (c : creator) (op : cr_op) : creator :=
  match op with
  | OCreate n => fst (cr_create n c)
  | OWrite h b => cr_write h b c
  | OClose h => cr_close h c
  | OReset => cr_reset c
  end.
Definition cr_after (ops : list cr_op) : creator := fold_left cr_do ops (Creat [] []).

(** Options after any number of uses by Build ([build_opts]) and BuildFiles
    ([register_all]). *)
Inductive reused (o : boptions) : boptions -> Prop :=
| ru_new : reused o o
| ru_build : forall p, reused o p -> reused o (build_opts p)
| ru_files : forall p, reused o p -> reused o (register_all p).

(** Contents after BuildFiles stopped: the files of the first [k] configs are
    written, that of the next one possibly in part. *)
Inductive stopped (dir : string) (o : boptions) (cs : list config) (f f' : string -> option string) : nat -> Prop :=
| st_between : forall k ws, map (written dir o) (firstn k cs) = map Some ws -> same_files f' (put_all ws f) -> stopped dir o cs f f' k
| st_inside : forall k ws c path out j, map (written dir o) (firstn k cs) = map Some ws ->
    nth_error cs k = Some c -> written dir o c = Some (path, out) ->
    same_files f' (put_all (ws ++ [(path, take j out)]) f) -> stopped dir o cs f f' k.
(** The directory files are written to. *)
Definition where_to (cwd : option string) (dir : string) : option string := if String.eqb dir "" then cwd else Some dir.
(** The operations that write one file. *)
Definition file_ops (w : string * string) : list fsop := [MkDir (dir_name (fst w)); Create (fst w); Write (fst w) (snd w); Close (fst w)].
(** The result of operations that end with [r] if all of them succeed. *)
Definition performed (ops : list fsop) (outs : list outcome) (s : fs) (r : bf_result) : fs * bf_result :=
  let '(s', e, _) := run_fs ops outs s in (s', match e with Some e => e | None => r end).
