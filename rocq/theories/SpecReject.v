(** C32: a file without its rejected statements. *)
From Verif Require Export SpecMap SpecPath.
Local Open Scope string_scope.

Definition dq : string := String """"%char EmptyString.
(** A name that imitates an error message (see DESIGN.md, finding 7). *)
Definition odd_name (n : string) : Prop := exists r, n = r ++ " is not terminated by " ++ dq ++ ";".
(** Known here as a directive without block and without expression only. *)
Definition simple_here (o : popts) (path : list string) (name : string) : Prop :=
  o_skipargs o = false /\ exists ms b, knows o name ms /\ path_bit path = Some b /\
    (exists m, In m ms /\ (o_skipctx o = true \/ bit b m)) /\
    (forall m, In m ms -> o_skipctx o = true \/ bit b m -> ~ bit 8 m /\ ~ bit 9 m).

Definition stm_dir (h : token) (args : list token) : directive :=
  Dir (t_val h) (t_line h) (words args) "" None None None false.
Definition ender (body : option (list stmt * Z)) : string := match body with None => ";" | Some _ => "{" end.
Definition inside_map (path : list string) : Prop := path <> [] /\ map_block (last path "").

(** [absent o path F F']: in a block with path [path], [F'] is [F] without the
    statements that are rejected there.  A rejected statement is allowed if it ends
    with ";" or if it is a simple directive with a block. *)
Inductive absent (o : popts) : list string -> list stmt -> list stmt -> Prop :=
| ab_nil : forall path, absent o path [] []
| ab_comment : forall path t F F', absent o path F F' -> absent o path (SCom t :: F) (SCom t :: F')
| ab_entry : forall path h args l F F', inside_map path ->
    fits_arity (entry_arity (last path "") (t_val h)) (words args) ->
    absent o path F F' -> absent o path (SStm h args l None :: F) (SStm h args l None :: F')
| ab_bad_entry : forall path h args l body F F', inside_map path ->
    body <> None \/ ~ fits_arity (entry_arity (last path "") (t_val h)) (words args) ->
    absent o path F F' -> absent o path (SStm h args l body :: F) F'
| ab_ignored : forall path h args l body F F', ~ inside_map path -> In (t_val h) (o_ignore o) ->
    absent o path F F' -> absent o path (SStm h args l body :: F) (SStm h args l body :: F')
| ab_simple : forall path h args l F F', ~ inside_map path -> ~ In (t_val h) (o_ignore o) ->
    accepts o path (stm_dir h args) ";" ->
    absent o path F F' -> absent o path (SStm h args l None :: F) (SStm h args l None :: F')
| ab_block : forall path h args l b b' c F F', ~ inside_map path -> ~ In (t_val h) (o_ignore o) ->
    accepts o path (stm_dir h args) "{" -> plain_path (below path (t_val h)) ->
    absent o (below path (t_val h)) b b' -> absent o path F F' ->
    absent o path (SStm h args l (Some (b, c)) :: F) (SStm h args l (Some (b', c)) :: F')
| ab_rejected : forall path h args l body F F', ~ inside_map path -> ~ In (t_val h) (o_ignore o) ->
    ~ accepts o path (stm_dir h args) (ender body) ->
    match body with None => ~ odd_name (t_val h) | Some _ => simple_here o path (t_val h) end ->
    absent o path F F' -> absent o path (SStm h args l body :: F) F'.

(** Payloads without statuses and errors. *)
Definition trees (p : payload) : list (string * list directive) :=
  map (fun c => (cf_file c, cf_parsed c)) (pl_config p).
(** A file and its contents in [op], without its rejected statements. *)
Definition absent_file (o : popts) (op : string -> string + string) (e : string * list string) : Prop :=
  match o_open o (fst e), op (fst e) with
  | inl c, inl c' => exists F F', lex (o_lexers o) c = flat F /\ lex (o_lexers o) c' = flat F' /\
      Forall wf_stmt F /\ plain_path (snd e) /\ absent o (snd e) F F'
  | inr a, inr b => a = b
  | _, _ => False
  end.
