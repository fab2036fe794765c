(** What the generator is expected to read and write (C39, C40, C44, C45). *)
From Coq Require Export Permutation.
From Verif Require Export Gen SpecIf.
Local Open Scope string_scope.

(** ** -override flags *)
Definition lacks (c : ascii) (s : string) : Prop := ~ In c (list_of_str s).
(** One bit mask: names separated by bars, possibly with blanks around them. *)
Definition spells_mask (s : string) (m : mask) : Prop :=
  exists parts, s = join parts "|" /\ parts <> [] /\ Forall (lacks "|"%char) parts /\ Forall2 trimmed parts m /\ ~ In "" m.
Definition spells (s d : string) (ms : list mask) : Prop :=
  exists left right def parts, s = left ++ ":" ++ right /\ lacks ":"%char left /\ trimmed left d /\ d <> "" /\
    trimmed right def /\ def <> "" /\ def = join parts "," /\ Forall (lacks ","%char) parts /\ Forall2 spells_mask parts ms.

(** ** Names of masks *)
(** The names in nginx's headers (arguments, kinds of statements, contexts). *)
Definition c_names : list string :=
  ["NGX_CONF_NOARGS"; "NGX_CONF_TAKE1"; "NGX_CONF_TAKE2"; "NGX_CONF_TAKE3"; "NGX_CONF_TAKE4"; "NGX_CONF_TAKE5"; "NGX_CONF_TAKE6"; "NGX_CONF_TAKE7";
   "NGX_CONF_TAKE12"; "NGX_CONF_TAKE13"; "NGX_CONF_TAKE23"; "NGX_CONF_TAKE123"; "NGX_CONF_TAKE1234";
   "NGX_CONF_BLOCK"; "NGX_CONF_FLAG"; "NGX_CONF_ANY"; "NGX_CONF_1MORE"; "NGX_CONF_2MORE"; "NGX_DIRECT_CONF"; "NGX_MAIN_CONF"; "NGX_ANY_CONF"; "NGX_EVENT_CONF";
   "NGX_MAIL_MAIN_CONF"; "NGX_MAIL_SRV_CONF"; "NGX_STREAM_MAIN_CONF"; "NGX_STREAM_SRV_CONF"; "NGX_STREAM_UPS_CONF";
   "NGX_HTTP_MAIN_CONF"; "NGX_HTTP_SRV_CONF"; "NGX_HTTP_LOC_CONF"; "NGX_HTTP_UPS_CONF"; "NGX_HTTP_SIF_CONF"; "NGX_HTTP_LIF_CONF"; "NGX_HTTP_LMT_CONF"].
(** The constants of analyze.go:61-106. *)
Definition go_constants : list string :=
  ["ngxConfNoArgs"; "ngxConfTake1"; "ngxConfTake2"; "ngxConfTake3"; "ngxConfTake4"; "ngxConfTake5"; "ngxConfTake6";
   "ngxConfBlock"; "ngxConfExpr"; "ngxConfFlag"; "ngxConfAny"; "ngxConf1More"; "ngxConf2More";
   "ngxConfTake12"; "ngxConfTake13"; "ngxConfTake23"; "ngxConfTake34"; "ngxConfTake123"; "ngxConfTake1234";
   "ngxDirectConf"; "ngxMgmtMainConf"; "ngxMainConf"; "ngxEventConf"; "ngxMailMainConf"; "ngxMailSrvConf";
   "ngxStreamMainConf"; "ngxStreamSrvConf"; "ngxStreamUpsConf"; "ngxHTTPMainConf"; "ngxHTTPSrvConf"; "ngxHTTPLocConf"; "ngxHTTPUpsConf";
   "ngxHTTPSifConf"; "ngxHTTPLifConf"; "ngxHTTPLmtConf"; "ngxHTTPOIDCConf"; "ngxAnyConf"].
(** The same name in C and in Go: without underscores, in any case. *)
Definition same_name (c g : string) : bool := String.eqb (to_lower (concat_str (split "_"%char c))) (to_lower g).
(** The Go name for a C name (ngxConfTake7 is commented out in analyze.go). *)
Definition go_name (c : string) : option string :=
  if mem_str c c_names then find (same_name c) (go_constants ++ ["ngxConfTake7"])%list else None.
Definition c_source (path : string) : bool := existsb (has_suffix path) [".c"; ".cpp"].

(** ** The map of definitions *)
Definition defs_of (d : string) (ds : list (string * mask)) : list mask :=
  map snd (filter (fun x => String.eqb d (fst x)) ds).
(** The map that stands for these definitions. *)
Definition maps (m : masks_map) (ds : list (string * mask)) : Prop :=
  NoDup (map fst m) /\ forall d, assoc d m = match defs_of d ds with [] => None | ms => Some ms end.
Fixpoint opt_all {A} (l : list (option A)) : option (list A) :=
  match l with
  | [] => Some []
  | Some x :: r => option_map (cons x) (opt_all r)
  | None :: _ => None
  end.
(** The definition an extracted pair stands for; None if a name is not known. *)
Definition def_of (e : string * string) : option (string * mask) :=
  option_map (pair (trim_space (fst e))) (opt_all (map (fun n => go_name (trim_space n)) (split "|"%char (snd e)))).
(** The name / mask pairs of a source text. *)
Definition pairs (content : string) : list (string * string) :=
  flat_map (find_all match_entry 0) (find_all match_table 0 (flatten content)).
(** All definitions below a path, in the order of the walk. *)
Fixpoint all_defs (es : list entry) : option (list (string * mask)) :=
  match es with
  | [] => Some []
  | EDir _ :: r => all_defs r
  | EBad _ :: _ => None
  | EFile p c :: r =>
    if c_source p then
      match c with
      | None => None
      | Some t => match opt_all (map def_of (pairs t)), all_defs r with
                  | Some a, Some b => Some (a ++ b)%list
                  | _, _ => None
                  end
      end
    else all_defs r
  end.
Definition permutes (ord : nat -> list string -> list string) : Prop := forall k l, Permutation (ord k l) l.

(** ** Source texts *)
(** A line end is LF or CR LF. *)
Definition eol (cr : bool) : string := if cr then s_cr ++ s_nl else s_nl.
Inductive piece := Code (s : string) | Eol (cr : bool) | LineC (s : string) (cr : bool) | BlockC (s : string).
Definition piece_text (p : piece) : string :=
  match p with
  | Code s => s
  | Eol cr => eol cr
  | LineC s cr => "//" ++ s ++ eol cr
  | BlockC s => "/*" ++ s ++ "*/"
  end.
Definition source (ps : list piece) : string := concat_str (map piece_text ps).
(** The text without comments and line ends. *)
Definition code (ps : list piece) : string := concat_str (map (fun p => match p with Code s => s | _ => "" end) ps).
Fixpoint has_sub (p s : string) : bool :=
  (prefix p s || match s with "" => false | String _ r => has_sub p r end)%bool.
Definition piece_ok (p : piece) : bool :=
  match p with
  | Code s => (negb (String.eqb s "") && negb (contains_any s ("/" ++ s_cr ++ s_nl)))%bool
  | Eol _ => true
  | LineC s _ => negb (contains_any s s_nl)
  | BlockC s => (negb (has_sub "//" s) && negb (has_sub "*/" s))%bool
  end.
Definition is_comment_piece (p : piece) : bool := match p with LineC _ _ | BlockC _ => true | _ => false end.
(** No comment directly behind a block comment. *)
Fixpoint pieces_ok (ps : list piece) : bool :=
  match ps with
  | [] => true
  | p :: r => (piece_ok p && match p, r with BlockC _, q :: _ => negb (is_comment_piece q) | _, _ => true end && pieces_ok r)%bool
  end.

(** A definition in a table: what precedes it, its name, what is between the closing
    parenthesis and the comma, its mask names with blanks around them. *)
Record item_def := IDef { i_pre : string; i_name : string; i_gap : string; i_masks : list (string * string * string) }.
Definition masks_text (l : list (string * string * string)) : string := join (map (fun '(a, n, b) => a ++ n ++ b) l) "|".
Definition item_text (i : item_def) : string :=
  i_pre i ++ "ngx_string(" ++ s_dq ++ i_name i ++ s_dq ++ ")" ++ i_gap i ++ "," ++ masks_text (i_masks i) ++ ",".
Definition ascii_blank (s : string) : bool := forallb (fun c => existsb (Ascii.eqb c) [" "; "009"]%char) (list_of_str s).
Definition none_of (chars s : string) : bool := negb (contains_any s chars).
Definition item_ok (i : item_def) : bool :=
  (none_of (s_dq ++ ";") (i_pre i) && forallb re_word (list_of_str (i_name i)) && none_of ",;" (i_gap i) &&
   match i_masks i with [] => false | l => forallb (fun '(a, n, b) => ascii_blank a && match go_name n with Some _ => true | None => false end && ascii_blank b) l end)%bool.
Definition item_mask (i : item_def) : mask := map (fun '(_, n, _) => match go_name n with Some g => g | None => "" end) (i_masks i).
(** A table of definitions. *)
Record table := Tbl { t_sp : string; t_name : string; t_sp1 : string; t_sp2 : string; t_items : list item_def; t_tail : string; t_sp3 : string }.
Definition table_text (t : table) : string :=
  "ngx_command_t" ++ t_sp t ++ t_name t ++ "[]" ++ t_sp1 t ++ "=" ++ t_sp2 t ++ "{" ++
  concat_str (map item_text (t_items t)) ++ t_tail t ++ "}" ++ t_sp3 t ++ ";".
Definition re_blank (s : string) : bool := forallb re_space (list_of_str s).
Definition table_ok (t : table) : bool :=
  (negb (String.eqb (t_sp t) "") && re_blank (t_sp t) && negb (String.eqb (t_name t) "") && forallb re_word (list_of_str (t_name t)) &&
   re_blank (t_sp1 t) && re_blank (t_sp2 t) && forallb item_ok (t_items t) && none_of (s_dq ++ ";") (t_tail t) && re_blank (t_sp3 t))%bool.
(** The start of a table: [ngx_command_t\s+\w+\[\]]. *)
Definition table_start (s : string) : bool :=
  match lit "ngx_command_t" s with
  | None => false
  | Some s =>
    let '(sp, s) := run re_space s in
    let '(w, s) := run re_word s in
    (negb (String.eqb sp "") && negb (String.eqb w "") && prefix "[]" s)%bool
  end.
(** Other code: no table starts in it. *)
Fixpoint other_code (s : string) : bool :=
  match s with "" => true | String _ r => (negb (table_start (s ++ " ")) && other_code r)%bool end.
(** Code with tables in it. *)
Definition with_tables (first : string) (l : list (table * string)) : string :=
  first ++ concat_str (map (fun '(t, j) => table_text t ++ j) l).
Definition table_defs (t : table) : list (string * mask) := map (fun i => (i_name i, item_mask i)) (t_items t).
(** ** The written text *)
Definition html_special : string := "&'+<>" ++ s_dq ++ str1 "000".
Definition plain_text (s : string) : bool := negb (contains_any s html_special).
(** One row of the generated map. *)
Definition plain_row (name : string) (ms : list mask) : string :=
  s_nl ++ "    " ++ s_dq ++ name ++ s_dq ++ ": {" ++
  concat_str (map (fun m => s_nl ++ "        " ++ join m " | " ++ ",") ms) ++ s_nl ++ "    },".
(** The map literal in the text. *)
Definition literal (rows : list (string * list mask)) : string :=
  "map[string][]uint{" ++ concat_str (map (fun r => plain_row (fst r) (snd r)) rows) ++ s_nl ++ "}".
Definition bytes_lt (a b : string) : Prop := String.compare a b = Lt.
(** What html/template writes for a value: seven bytes are replaced. *)
Definition references : list (ascii * string) :=
  [("&"%char, "&amp;"); ("<"%char, "&lt;"); (">"%char, "&gt;"); ("'"%char, "&#39;"); ("+"%char, "&#43;"); ("034"%char, "&#34;");
   ("000"%char, String "239" (String "191" (String "189" "")))].
Inductive shown : string -> string -> Prop :=
| shown_end : shown "" ""
| shown_ref : forall c r s t, In (c, r) references -> shown s t -> shown (String c s) (r ++ t)
| shown_char : forall c s t, ~ In c (map fst references) -> shown s t -> shown (String c s) (String c t).
(** A row of the map and its text. *)
Definition shown_row (r : string * list mask) (x : string * list mask) : Prop :=
  shown (fst r) (fst x) /\ Forall2 (Forall2 shown) (snd r) (snd x).
(** The file behind its head: the map literal and the match function. *)
Definition support_file (var fn : string) (note : string) (rows : list (string * list mask)) : string :=
  "var " ++ var ++ " = " ++ literal rows ++ s_nl ++ s_nl ++ note ++ s_nl ++
  "func " ++ fn ++ "(directive string) ([]uint, bool) {" ++ s_nl ++ "    m, ok := " ++ var ++ "[directive]" ++ s_nl ++ "    return m, ok" ++ s_nl ++ "}" ++ s_nl.
(** The comment line of the match function. *)
Definition note_of (cm note : string) : Prop := (cm = "" /\ note = "") \/ (cm <> "" /\ exists t, shown cm t /\ note = "// " ++ t).
(** Nothing but comments and line ends: [st] is the place (code, behind a slash, in a line comment, in a block comment, there behind a star). *)
Inductive place := PCode | PSlash | PLine | PBlock | PStar.
Fixpoint only_comments (st : place) (s : string) : bool :=
  match s with
  | "" => match st with PCode | PLine => true | _ => false end
  | String c r =>
    match st with
    | PCode => if Ascii.eqb c "010" then only_comments PCode r else (Ascii.eqb c "/" && only_comments PSlash r)%bool
    | PSlash => if Ascii.eqb c "/" then only_comments PLine r else (Ascii.eqb c "*" && only_comments PBlock r)%bool
    | PLine => only_comments (if Ascii.eqb c "010" then PCode else PLine) r
    | PBlock => only_comments (if Ascii.eqb c "*" then PStar else PBlock) r
    | PStar => only_comments (if Ascii.eqb c "/" then PCode else if Ascii.eqb c "*" then PStar else PBlock) r
    end
  end.
