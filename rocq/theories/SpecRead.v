(** C51: what Parse is to return, statement by statement and file by file. *)
From Verif Require Export SpecComplain SpecInclude SpecIf SpecPayload.
From Coq Require Export Relations.
Local Open Scope string_scope.

(** The comments among the argument tokens. *)
Inductive remarks : list token -> list string -> Prop :=
| rm_nil : remarks [] []
| rm_word : forall t args cs, ~ hash t -> remarks args cs -> remarks (t :: args) cs
| rm_comment : forall t c args cs, t_quoted t = false -> t_val t = ("#" ++ c)%string ->
    remarks args cs -> remarks (t :: args) (c :: cs).
Definition note (label : string) (line : Z) (c : string) : directive := Dir "#" line [] label None None (Some c) false.
(** The comment directives put after a directive at [line]. *)
Definition notes (cm : bool) (label : string) (line : Z) (args : list token) (ns : list directive) : Prop :=
  exists cs, remarks args cs /\ ns = if cm then map (note label line) cs else [].

(** The files met so far, each with the blocks around the first include of it. *)
Definition known := list (string * list string).
(** The numbers of the files [fs] included inside [path]; files not met before get the next numbers. *)
Inductive numbers (path : list string) : known -> list string -> list Z -> known -> Prop :=
| nu_nil : forall K, numbers path K [] [] K
| nu_old : forall K i f q fs is K', nth_error K i = Some (f, q) -> numbers path K fs is K' ->
    numbers path K (f :: fs) (Z.of_nat i :: is) K'
| nu_new : forall K f fs is K', ~ In f (map fst K) -> numbers path (K ++ [(f, path)])%list fs is K' ->
    numbers path K (f :: fs) (Z.of_nat (List.length K) :: is) K'.
Definition unless_none (is : list Z) : option (list Z) := match is with [] => None | _ => Some is end.

(** The arguments of a directive in the tree. *)
Definition final_args (name : string) (args args' : list string) : Prop :=
  (name = "if" -> if_result args args') /\ (name <> "if" -> args' = args).
Definition followed (o : popts) (name : string) : Prop := name = "include" /\ o_single o = false.

(** The name of the file a directive is from: only kept for CombineConfigs. *)
Definition label_of (o : popts) (f : string) : string := if o_combine o then f else "".
(** A complaint about a missing semicolon: the parser then skips a block. *)
Definition unfinished (what : string) : Prop := exists r, what = r ++ " is not terminated by " ++ dq ++ ";" ++ dq.

(** [reads o dir f path K F ds es ls K']: the statements [F] of the file [f] inside the
    blocks [path] give the directives [ds] and the errors [es]; they include the
    files [ls], which extends the files met from [K] to [K']. *)
Local Open Scope list_scope.
Inductive reads (o : popts) (dir f : string) :
  list string -> known -> list stmt -> list directive -> list goerr -> list string -> known -> Prop :=
| rd_nil : forall path K, reads o dir f path K [] [] [] [] K
| rd_comment : forall path K t c F ds es ls K', t_val t = ("#" ++ c)%string -> reads o dir f path K F ds es ls K' ->
    reads o dir f path K (SCom t :: F) ((if o_comments o then [note (label_of o f) (t_line t) c] else []) ++ ds) es ls K'
| rd_entry : forall path K h args l F ds es ls K', inside_map path ->
    fits_arity (entry_arity (last path "") (t_val h)) (words args) -> reads o dir f path K F ds es ls K' ->
    reads o dir f path K (SStm h args l None :: F)
      (Dir (t_val h) (t_line h) (words args) (label_of o f) None None None true :: ds) es ls K'
| rd_bad_entry : forall path K h args l body what F ds es ls K', inside_map path ->
    objects_entry (last path "") (stm_dir h args) (ender body) what ->
    reads o dir f path K F ds es ls K' ->
    reads o dir f path K (SStm h args l body :: F) ds (objection f path (stm_dir h args) what :: es) ls K'
| rd_ignored : forall path K h args l body F ds es ls K', ~ inside_map path -> In (t_val h) (o_ignore o) ->
    reads o dir f path K F ds es ls K' -> reads o dir f path K (SStm h args l body :: F) ds es ls K'
| rd_rejected : forall path K h args l body what F ds es ls K', ~ inside_map path -> ~ In (t_val h) (o_ignore o) ->
    objects o path (stm_dir h args) (ender body) what -> (unfinished what <-> body <> None) ->
    reads o dir f path K F ds es ls K' ->
    reads o dir f path K (SStm h args l body :: F) ds (objection f path (stm_dir h args) what :: es) ls K'
| rd_simple : forall path K h args l args' ns F ds es ls K', ~ inside_map path -> ~ In (t_val h) (o_ignore o) ->
    accepts o path (stm_dir h args) ";" -> ~ followed o (t_val h) -> final_args (t_val h) (words args) args' ->
    notes (o_comments o) (label_of o f) (t_line h) args ns -> reads o dir f path K F ds es ls K' ->
    reads o dir f path K (SStm h args l None :: F)
      (Dir (t_val h) (t_line h) args' (label_of o f) None None None false :: ns ++ ds) es ls K'
| rd_block : forall path K h args l args' b c ns ds1 es1 ls1 K1 F ds es ls K', ~ inside_map path -> ~ In (t_val h) (o_ignore o) ->
    accepts o path (stm_dir h args) "{" -> ~ followed o (t_val h) -> final_args (t_val h) (words args) args' ->
    notes (o_comments o) (label_of o f) (t_line h) args ns -> plain_path (below path (t_val h)) ->
    reads o dir f (below path (t_val h)) K b ds1 es1 ls1 K1 -> reads o dir f path K1 F ds es ls K' ->
    reads o dir f path K (SStm h args l (Some (b, c)) :: F)
      (Dir (t_val h) (t_line h) args' (label_of o f) None (Some ds1) None false :: ns ++ ds) (es1 ++ es) (ls1 ++ ls) K'
| rd_include : forall path K h args l arg more fs is ns K1 F ds es ls K', ~ inside_map path -> ~ In (t_val h) (o_ignore o) ->
    accepts o path (stm_dir h args) ";" -> followed o (t_val h) -> words args = arg :: more ->
    targets o dir arg fs -> magic (path_of dir arg) \/ fs <> [] -> numbers path K fs is K1 ->
    notes (o_comments o) (label_of o f) (t_line h) args ns -> reads o dir f path K1 F ds es ls K' ->
    reads o dir f path K (SStm h args l None :: F)
      (Dir (t_val h) (t_line h) (words args) (label_of o f) (unless_none is) None None false :: ns ++ ds) es (fs ++ ls) K'
| rd_missing : forall path K h args l arg more m ns F ds es ls K', ~ inside_map path -> ~ In (t_val h) (o_ignore o) ->
    accepts o path (stm_dir h args) ";" -> followed o (t_val h) -> words args = arg :: more ->
    ~ magic (path_of dir arg) -> o_open o (path_of dir arg) = inr m ->
    notes (o_comments o) (label_of o f) (t_line h) args ns -> reads o dir f path K F ds es ls K' ->
    reads o dir f path K (SStm h args l None :: F)
      (Dir (t_val h) (t_line h) (words args) (label_of o f) None None None false :: ns ++ ds) (objection f path (stm_dir h args) m :: es) ls K'.

(** Errors that end the reading of a file inside the blocks [path]. *)
Definition token_failure (f : string) (path : list string) (t : token) (x : goerr) : goerr :=
  match x with
  | EParse p => EParse (PE (pe_what p) (Some f) (pe_line p) (pe_stmt p) (innermost path) (pe_orig p))
  | EOther m => EParse (PE m (Some f) (Some (t_line t)) "" (innermost path) (Some m))
  end.
Definition end_of_file (f : string) (path : list string) (line : Z) : goerr :=
  EParse (PE "premature end of file" (Some f) (Some line) "" (innermost path) (Some "premature end of file")%string).
Definition no_pattern (f : string) (line : Z) : string :=
  ("invalid number of arguments in " ++ in_quotes "include" ++ " directive in " ++ f ++ ":" ++ itoa line)%string.

(** [breaks o dir f path K toks es e ls K']: the tokens [toks] lead to the error [e]
    that ends the file, after the errors [es]. *)
Inductive breaks (o : popts) (dir f : string) :
  list string -> known -> list token -> list goerr -> goerr -> list string -> known -> Prop :=
| br_token : forall path K t x r, t_err t = Some x -> breaks o dir f path K (t :: r) [] (token_failure f path t x) [] K
| br_unfinished : forall path K h r, t_err h = None -> plain h -> ~ hash h -> Forall plain r ->
    breaks o dir f path K (h :: r) [] (end_of_file f path (t_line h)) [] K
| br_pattern : forall path K h args l arg more m r, t_err h = None -> plain h -> ~ hash h ->
    Forall (fun a => t_err a = None /\ plain a) args -> ~ inside_map path -> ~ In (t_val h) (o_ignore o) ->
    accepts o path (stm_dir h args) ";" -> followed o (t_val h) -> words args = arg :: more ->
    magic (path_of dir arg) -> o_glob o (path_of dir arg) = inr m ->
    breaks o dir f path K (h :: args ++ Tok ";" l false None :: r) [] (EOther m) [] K
| br_nothing : forall path K h args l r, t_err h = None -> plain h -> ~ hash h ->
    Forall (fun a => t_err a = None /\ plain a) args -> ~ inside_map path -> ~ In (t_val h) (o_ignore o) ->
    accepts o path (stm_dir h args) ";" -> followed o (t_val h) -> words args = [] ->
    breaks o dir f path K (h :: args ++ Tok ";" l false None :: r) [] (objection f path (stm_dir h args) (no_pattern f (t_line h))) [] K
| br_inside : forall path K h args l args' r es e ls K', t_err h = None -> plain h -> ~ hash h ->
    Forall (fun a => t_err a = None /\ plain a) args -> ~ inside_map path -> ~ In (t_val h) (o_ignore o) ->
    accepts o path (stm_dir h args) "{" -> ~ followed o (t_val h) -> final_args (t_val h) (words args) args' ->
    plain_path (below path (t_val h)) -> breaks o dir f (below path (t_val h)) K r es e ls K' ->
    breaks o dir f path K (h :: args ++ Tok "{" l false None :: r) es e ls K'
| br_after : forall path K F ds es1 ls1 K1 r es e ls K', Forall wf_stmt F -> reads o dir f path K F ds es1 ls1 K1 ->
    breaks o dir f path K1 r es e ls K' ->
    breaks o dir f path K (flat F ++ r) (es1 ++ es) e (ls1 ++ ls) K'.

(** One file of the result: its name, its directives, its errors, the files it includes. *)
Record page := Page { pg_file : string; pg_tree : list directive; pg_errors : list goerr; pg_links : list string }.
(** [pages o dir i K l]: the files from number [i] on, when [K] have been met. *)
Inductive pages (o : popts) (dir : string) : nat -> known -> list page -> Prop :=
| pg_done : forall K, pages o dir (List.length K) K []
| pg_whole : forall i K f path text F ds es ls K' l, nth_error K i = Some (f, path) ->
    o_open o f = inl text -> lex (o_lexers o) text = flat F -> Forall wf_stmt F ->
    plain_path path -> List.length path <= 3 ->
    reads o dir f path K F ds es ls K' -> pages o dir (S i) K' l ->
    pages o dir i K (Page f ds es ls :: l)
| pg_broken : forall i K f path text es e ls K' l, nth_error K i = Some (f, path) ->
    o_open o f = inl text -> plain_path path -> List.length path <= 3 ->
    breaks o dir f path K (lex (o_lexers o) text) es e ls K' -> pages o dir (S i) K' l ->
    pages o dir i K (Page f [] (es ++ [e]) ls :: l).
(** All pages of a configuration. *)
Definition book (o : popts) (filename : string) (l : list page) : Prop :=
  pages o (dir_name filename) 0 [(filename, [])] l.
(** With StopParsingOnError the first error ends everything. *)
Definition uninterrupted (o : popts) (l : list page) : Prop :=
  o_stop o = false \/ Forall (fun g => pg_errors g = []) l.
(** The payload that shows the pages. *)
Definition verdict {A} (es : list A) : string := match es with [] => "ok" | _ => "failed" end.
Definition config_of (g : page) : config := Cfg (pg_file g) (verdict (pg_errors g)) (listed (pg_errors g)) (pg_tree g).
Definition page_errors (o : popts) (g : page) : list payload_error :=
  map (fun e => PyE (pg_file g) (line_of e) e (option_map (fun call => call e) (o_callback o))) (pg_errors g).
Definition payload_of (o : popts) (l : list page) : payload :=
  Pay (verdict (flat_map pg_errors l)) (flat_map (page_errors o) l) (map config_of l).

(** File [a] includes file [b]. *)
Definition leads (l : list page) (a b : string) : Prop := exists g, In g l /\ pg_file g = a /\ In b (pg_links g).
Definition loops (l : list page) : Prop := exists x, clos_trans string (leads l) x x.
