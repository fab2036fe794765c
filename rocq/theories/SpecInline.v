(** C66: an include directive stands for the statements of the files it names. *)
From Verif Require Export SpecFlatten SpecForest.
Local Open Scope string_scope.
Local Open Scope list_scope.

(** Tokens and statements that differ in nothing but the lines. *)
Definition same_token (a b : token) : Prop := t_val a = t_val b /\ t_quoted a = t_quoted b /\ t_err a = t_err b.
Inductive copy : stmt -> stmt -> Prop :=
| cp_comment : forall t t', same_token t t' -> copy (SCom t) (SCom t')
| cp_simple : forall h h' args args' l l', same_token h h' -> Forall2 same_token args args' -> copy (SStm h args l None) (SStm h' args' l' None)
| cp_block : forall h h' args args' l l' b b' c c', same_token h h' -> Forall2 same_token args args' -> Forall2 copy b b' ->
    copy (SStm h args l (Some (b, c))) (SStm h' args' l' (Some (b', c'))).

(** Statements Parse takes as they are: comments, map entries, ignored ones, and those without block that name no files. *)
Definition untouched (o : popts) (path : list string) (s : stmt) : Prop :=
  match s with
  | SCom _ => True
  | SStm h _ _ body => inside_map path \/ In (t_val h) (o_ignore o) \/ (body = None /\ ~ followed o (t_val h))
  end.
(** The comment statement with text [c]. *)
Definition comment_stmt (c : string) (s : stmt) : Prop := exists t, s = SCom t /\ t_quoted t = false /\ t_err t = None /\ t_val t = ("#" ++ c)%string.

(** [inlined o dir path F G]: [G] is [F] with every include directive replaced by the statements of
    the files it names, these treated in the same way, and by the comments among its arguments.
    [path] are the blocks around [F]. *)
Inductive inlined (o : popts) (dir : string) : list string -> list stmt -> list stmt -> Prop :=
| il_nil : forall path, inlined o dir path [] []
| il_same : forall path s s' F G, untouched o path s -> copy s s' -> inlined o dir path F G -> inlined o dir path (s :: F) (s' :: G)
| il_block : forall path h h' args args' l l' b b' c c' F G, ~ inside_map path -> ~ In (t_val h) (o_ignore o) ->
    same_token h h' -> Forall2 same_token args args' -> inlined o dir (below path (t_val h)) b b' -> inlined o dir path F G ->
    inlined o dir path (SStm h args l (Some (b, c)) :: F) (SStm h' args' l' (Some (b', c')) :: G)
| il_include : forall path h args l arg more fs cs N B F G, ~ inside_map path -> ~ In (t_val h) (o_ignore o) -> followed o (t_val h) ->
    words args = arg :: more -> targets o dir arg fs -> contents o dir path fs B ->
    remarks args cs -> Forall2 comment_stmt cs N -> inlined o dir path F G ->
    inlined o dir path (SStm h args l None :: F) (B ++ N ++ G)
with contents (o : popts) (dir : string) : list string -> list string -> list stmt -> Prop :=
| ct_nil : forall path, contents o dir path [] []
| ct_file : forall path f text F B fs R, o_open o f = inl text -> lex (o_lexers o) text = flat F -> Forall wf_stmt F -> inlined o dir path F B ->
    contents o dir path fs R -> contents o dir path (f :: fs) (B ++ R).
Scheme inlined_mind := Induction for inlined Sort Prop
  with contents_mind := Induction for contents Sort Prop.
Combined Scheme inlined_both from inlined_mind, contents_mind.

(** A directive without its place: neither line nor file. *)
Fixpoint unplaced (d : directive) : directive :=
  Dir (d_name d) 0 (d_args d) "" (d_includes d) (match d_block d with Some b => Some (map unplaced b) | None => None end) (d_comment d) (d_ismap d).
