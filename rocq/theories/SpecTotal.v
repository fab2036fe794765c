(** C55: what Parse does with every configuration, well-formed or not. *)
From Verif Require Export SpecRead SpecCombine SpecRun.
Local Open Scope string_scope.

(** ** Statements of a token stream *)
(** The unquoted tokens that end a statement. *)
Definition ends_with (z : token) (term : string) : Prop :=
  t_quoted z = false /\ t_val z = term /\ In term ["{"; ";"; "}"].
(** A token that begins a statement: no error, no comment, no closing brace.  A semicolon
    or an opening brace in this place is a name. *)
Definition heads (h : token) : Prop := t_err h = None /\ ~ hash h /\ ~ ends_with h "}".
(** [sentence toks h args term rest]: the tokens begin with a statement.  Errors of the tokens after
    the first are not looked at. *)
Definition sentence (toks : list token) (h : token) (args : list token) (term : string) (rest : list token) : Prop :=
  exists z, toks = (h :: args ++ z :: rest)%list /\ heads h /\ Forall plain args /\ ends_with z term.
(** Skipping a block: up to the brace that closes it.  An error token counts as a closing brace. *)
Inductive skipped : nat -> list token -> list token -> Prop :=
| sk_end : forall n, skipped n [] []
| sk_out : forall t r, t_err t <> None \/ ends_with t "}" -> skipped 0 (t :: r) r
| sk_up : forall n t r r', t_err t <> None \/ ends_with t "}" -> skipped n r r' -> skipped (S n) (t :: r) r'
| sk_down : forall n t r r', t_err t = None -> ends_with t "{" -> skipped (S n) r r' -> skipped n (t :: r) r'
| sk_on : forall n t r r', t_err t = None -> ~ ends_with t "{" -> ~ ends_with t "}" -> skipped n r r' -> skipped n (t :: r) r'.

(** ** One statement *)
(** What becomes of a statement. *)
Inductive act :=
| Kept (d : directive) (es : list goerr) (ls : list string) (K : known)   (* a directive; its block is still to come *)
| Entered (d : directive)                                                 (* an entry of a map-like block *)
| Dropped (block : bool) (es : list goerr)                                (* left out, with the tokens up to the next closing brace if [block] *)
| Closed (es : list goerr)                                                (* left out, and the block it is in is over *)
| Refused (e : goerr)                                                     (* the end of the file *)
| Crashed.
Definition unless_stop (o : popts) (e : goerr) (a : act) : act := if o_stop o then Refused e else a.

Inductive treats (o : popts) (dir f : string) (path : list string) (K : known) (h : token) (args : list token) (term : string) : act -> Prop :=
| tr_entry : inside_map path -> term = ";" -> fits_arity (entry_arity (last path "") (t_val h)) (words args) ->
    treats o dir f path K h args term (Entered (Dir (t_val h) (t_line h) (words args) (label_of o f) None None None true))
| tr_bad_entry : forall what e, inside_map path -> objects_entry (last path "") (stm_dir h args) term what ->
    e = objection f path (stm_dir h args) what ->
    treats o dir f path K h args term (unless_stop o e (Dropped (String.eqb term "{") [e]))
| tr_ignored : ~ inside_map path -> In (t_val h) (o_ignore o) ->
    treats o dir f path K h args term (Dropped (String.eqb term "{") [])
| tr_rejected : forall p what e, ~ inside_map path -> ~ In (t_val h) (o_ignore o) -> meant path p ->
    objects o p (stm_dir h args) term what -> ~ unfinished what -> e = objection f path (stm_dir h args) what ->
    treats o dir f path K h args term (unless_stop o e (Dropped false [e]))
| tr_skipped : forall p what e, ~ inside_map path -> ~ In (t_val h) (o_ignore o) -> meant path p ->
    objects o p (stm_dir h args) term what -> unfinished what -> term <> "}" -> e = objection f path (stm_dir h args) what ->
    treats o dir f path K h args term (unless_stop o e (Dropped true [e]))
| tr_closed : forall p what e, ~ inside_map path -> ~ In (t_val h) (o_ignore o) -> meant path p ->
    objects o p (stm_dir h args) term what -> unfinished what -> term = "}" -> e = objection f path (stm_dir h args) what ->
    treats o dir f path K h args term (unless_stop o e (Closed [e]))
| tr_crash : forall p, ~ inside_map path -> ~ In (t_val h) (o_ignore o) -> meant path p ->
    accepts o p (stm_dir h args) term -> t_val h = "if" -> blank_parens (words args) ->
    treats o dir f path K h args term Crashed
| tr_plain : forall p args', ~ inside_map path -> ~ In (t_val h) (o_ignore o) -> meant path p ->
    accepts o p (stm_dir h args) term -> ~ followed o (t_val h) -> final_args (t_val h) (words args) args' ->
    treats o dir f path K h args term (Kept (Dir (t_val h) (t_line h) args' (label_of o f) None None None false) [] [] K)
| tr_include : forall p arg more fs is K', ~ inside_map path -> ~ In (t_val h) (o_ignore o) -> meant path p ->
    accepts o p (stm_dir h args) term -> followed o (t_val h) -> words args = arg :: more ->
    targets o dir arg fs -> magic (path_of dir arg) \/ fs <> [] -> numbers path K fs is K' ->
    treats o dir f path K h args term
      (Kept (Dir (t_val h) (t_line h) (words args) (label_of o f) (unless_none is) None None false) [] fs K')
| tr_missing : forall p arg more m e, ~ inside_map path -> ~ In (t_val h) (o_ignore o) -> meant path p ->
    accepts o p (stm_dir h args) term -> followed o (t_val h) -> words args = arg :: more ->
    ~ magic (path_of dir arg) -> o_open o (path_of dir arg) = inr m -> e = objection f path (stm_dir h args) m ->
    treats o dir f path K h args term
      (unless_stop o e (Kept (Dir (t_val h) (t_line h) (words args) (label_of o f) None None None false) [e] [] K))
| tr_pattern : forall p arg more m, ~ inside_map path -> ~ In (t_val h) (o_ignore o) -> meant path p ->
    accepts o p (stm_dir h args) term -> followed o (t_val h) -> words args = arg :: more ->
    magic (path_of dir arg) -> o_glob o (path_of dir arg) = inr m ->
    treats o dir f path K h args term (Refused (EOther m))
| tr_nothing : forall p, ~ inside_map path -> ~ In (t_val h) (o_ignore o) -> meant path p ->
    accepts o p (stm_dir h args) term -> followed o (t_val h) -> words args = [] ->
    treats o dir f path K h args term (Refused (objection f path (stm_dir h args) (no_pattern f (t_line h)))).

(** ** A block, or a file *)
(** [Ends ds es ls K rest]: the block is over; [rest] comes after it.
    [Fails es e ls K]: the error [e] ends the file. *)
Inductive outcome :=
| Ends (ds : list directive) (es : list goerr) (ls : list string) (K : known) (rest : list token)
| Fails (es : list goerr) (e : goerr) (ls : list string) (K : known)
| Crashes.
Local Open Scope list_scope.
Definition more (ds : list directive) (es : list goerr) (ls : list string) (x : outcome) : outcome :=
  match x with
  | Ends ds' es' ls' K rest => Ends (ds ++ ds') (es ++ es') (ls ++ ls') K rest
  | Fails es' e ls' K => Fails (es ++ es') e (ls ++ ls') K
  | Crashes => Crashes
  end.
Definition with_body (d : directive) (b : list directive) : directive :=
  Dir (d_name d) (d_line d) (d_args d) (d_file d) (d_includes d) (Some b) (d_comment d) (d_ismap d).

Inductive gives (o : popts) (dir f : string) : list string -> known -> list token -> outcome -> Prop :=
| gv_end : forall path K, gives o dir f path K [] (Ends [] [] [] K [])
| gv_close : forall path K t r, t_err t = None -> ends_with t "}" -> gives o dir f path K (t :: r) (Ends [] [] [] K r)
| gv_token : forall path K t e r, t_err t = Some e -> gives o dir f path K (t :: r) (Fails [] (token_failure f path t e) [] K)
| gv_comment : forall path K t c r x, t_err t = None -> t_quoted t = false -> t_val t = ("#" ++ c)%string ->
    gives o dir f path K r x ->
    gives o dir f path K (t :: r) (more (if o_comments o then [note (label_of o f) (t_line t) c] else []) [] [] x)
| gv_unfinished : forall path K h r, heads h -> Forall plain r ->
    gives o dir f path K (h :: r) (Fails [] (end_of_file f path (t_line h)) [] K)
| gv_entered : forall path K toks h args term rest d x, sentence toks h args term rest ->
    treats o dir f path K h args term (Entered d) -> gives o dir f path K rest x ->
    gives o dir f path K toks (more [d] [] [] x)
| gv_dropped : forall path K toks h args term rest (block : bool) es rest' x, sentence toks h args term rest ->
    treats o dir f path K h args term (Dropped block es) ->
    (if block then skipped 0 rest rest' else rest' = rest) -> gives o dir f path K rest' x ->
    gives o dir f path K toks (more [] es [] x)
| gv_closed : forall path K toks h args term rest es, sentence toks h args term rest ->
    treats o dir f path K h args term (Closed es) ->
    gives o dir f path K toks (Ends [] es [] K rest)
| gv_refused : forall path K toks h args term rest e, sentence toks h args term rest ->
    treats o dir f path K h args term (Refused e) ->
    gives o dir f path K toks (Fails [] e [] K)
| gv_crashed : forall path K toks h args term rest, sentence toks h args term rest ->
    treats o dir f path K h args term Crashed -> gives o dir f path K toks Crashes
| gv_simple : forall path K toks h args term rest d es ls K1 ns x, sentence toks h args term rest -> term <> "{" ->
    treats o dir f path K h args term (Kept d es ls K1) -> notes (o_comments o) (label_of o f) (t_line h) args ns ->
    gives o dir f path K1 rest x ->
    gives o dir f path K toks (more (d :: ns) es ls x)
| gv_block : forall path K toks h args rest d es ls K1 ns ds2 es2 ls2 K2 rest2 x, sentence toks h args "{" rest ->
    treats o dir f path K h args "{" (Kept d es ls K1) -> notes (o_comments o) (label_of o f) (t_line h) args ns ->
    gives o dir f (below path (t_val h)) K1 rest (Ends ds2 es2 ls2 K2 rest2) ->
    gives o dir f path K2 rest2 x ->
    gives o dir f path K toks (more (with_body d ds2 :: ns) (es ++ es2) (ls ++ ls2) x)
| gv_inside : forall path K toks h args rest d es ls K1 es2 e ls2 K2, sentence toks h args "{" rest ->
    treats o dir f path K h args "{" (Kept d es ls K1) ->
    gives o dir f (below path (t_val h)) K1 rest (Fails es2 e ls2 K2) ->
    gives o dir f path K toks (Fails (es ++ es2) e (ls ++ ls2) K2)
| gv_crashes : forall path K toks h args rest d es ls K1, sentence toks h args "{" rest ->
    treats o dir f path K h args "{" (Kept d es ls K1) ->
    gives o dir f (below path (t_val h)) K1 rest Crashes ->
    gives o dir f path K toks Crashes.

(** ** All files *)
(** How reading the files ends: all are read; with an error; with a crash. *)
Inductive ending := Complete | Stopped (e : goerr) | Broken.
(** [volumes o dir i K l z K']: the files from number [i] on, when [K] have been met; [K'] have been met when the
    last of them begins.  A file is read as if inside the blocks of the path around its first include, but if these
    are more than three, only three of the names are sure (see C31). *)
Inductive volumes (o : popts) (dir : string) : nat -> known -> list page -> ending -> known -> Prop :=
| vo_done : forall K, volumes o dir (List.length K) K [] Complete K
| vo_unopened : forall i K f path m, nth_error K i = Some (f, path) -> o_open o f = inr m ->
    volumes o dir i K [] (Stopped (EOther m)) K
| vo_whole : forall i K f path q text ds es ls K' rest l z Kz, nth_error K i = Some (f, path) -> o_open o f = inl text -> alike q path ->
    gives o dir f q K (lex (o_lexers o) text) (Ends ds es ls K' rest) -> volumes o dir (S i) K' l z Kz ->
    volumes o dir i K (Page f ds es ls :: l) z Kz
| vo_failed : forall i K f path q text es e ls K' l z Kz, nth_error K i = Some (f, path) -> o_open o f = inl text -> alike q path ->
    gives o dir f q K (lex (o_lexers o) text) (Fails es e ls K') -> o_stop o = false -> volumes o dir (S i) K' l z Kz ->
    volumes o dir i K (Page f [] (es ++ [e]) ls :: l) z Kz
| vo_stopped : forall i K f path q text es e ls K', nth_error K i = Some (f, path) -> o_open o f = inl text -> alike q path ->
    gives o dir f q K (lex (o_lexers o) text) (Fails es e ls K') -> o_stop o = true ->
    volumes o dir i K [] (Stopped e) K
| vo_broken : forall i K f path q text, nth_error K i = Some (f, path) -> o_open o f = inl text -> alike q path ->
    gives o dir f q K (lex (o_lexers o) text) Crashes -> volumes o dir i K [] Broken K.
Definition library (o : popts) (filename : string) (l : list page) (z : ending) (K : known) : Prop :=
  volumes o (dir_name filename) 0 [(filename, [])] l z K.

(** What Parse returns. *)
Inductive returns (o : popts) (filename : string) (K : known) : result -> Prop :=
| rt_stopped : forall l e, library o filename l (Stopped e) K -> returns o filename K (RErr e)
| rt_broken : forall l, library o filename l Broken K -> returns o filename K RPanic
| rt_loop : forall l, library o filename l Complete K -> loops l ->
    returns o filename K (RErr (EOther "configs contain include cycle"))
| rt_payload : forall l, library o filename l Complete K -> ~ loops l -> o_combine o = false ->
    returns o filename K (ROk (payload_of o l))
| rt_combined : forall l g0 p, library o filename l Complete K -> ~ loops l -> o_combine o = true ->
    hd_error l = Some g0 -> combination (payload_of o l) p (config_of g0) -> returns o filename K (ROk p).
