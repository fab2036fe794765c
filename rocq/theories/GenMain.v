(** cmd/generate/main.go, cmd/generate/cmd_util.go, internal/generator/generator.go: the command line, the
    configuration file, the program.  Not modelled: the texts of the messages and of the usage. *)
From Verif Require Export Gen Json.
Local Open Scope string_scope.

(** ** The configuration (generator.go:33-63); None: a nil map. *)
Record gconf := GConf { g_filter : option (list string); g_override : option masks_map; g_map : string; g_match : string; g_comment : string }.
Definition no_conf : gconf := GConf None None "" "" "".
(** encoding/json for []string and []Mask. *)
Fixpoint all_some {A B} (f : A -> option B) (l : list A) : option (list B) :=
  match l with [] => Some [] | x :: r => match f x, all_some f r with Some y, Some z => Some (y :: z) | _, _ => None end end.
Definition jstring (j : json) : option string := match j with JNull => Some "" | JStr s => Some s | _ => None end.
Definition jstrings (j : json) : option (list string) := match j with JNull => Some [] | JArr l => all_some jstring l | _ => None end.
Definition jmasks (j : json) : option (list mask) := match j with JNull => Some [] | JArr l => all_some jstrings l | _ => None end.
(** generator.go:17-31 [UnmarshalJSON], also called for null. *)
Definition set_names (o : option (list string)) (l : list string) : option (list string) := Some (match o with Some k => k ++ l | None => l end)%list.
Fixpoint put_masks (l : list (string * json)) (m : masks_map) : option masks_map :=
  match l with
  | [] => Some m
  | (k, v) :: r => match jmasks v with Some ms => put_masks r (assoc_set k ms m) | None => None end
  end.
(** One member of the object; keys match the tags without regard to case, others are ignored. *)
Definition put_member (k : string) (v : json) (c : gconf) : option gconf :=
  let k := to_lower k in
  if String.eqb k "filter" then option_map (fun l => GConf (set_names (g_filter c) l) (g_override c) (g_map c) (g_match c) (g_comment c)) (jstrings v)
  else if String.eqb k "override" then
    match v with
    | JNull => Some (GConf (g_filter c) None (g_map c) (g_match c) (g_comment c))
    | JObj l => option_map (fun m => GConf (g_filter c) (Some m) (g_map c) (g_match c) (g_comment c)) (put_masks l (match g_override c with Some m => m | None => [] end))
    | _ => None
    end
  else
  let text (set : string -> gconf) := match v with JNull => Some c | JStr s => Some (set s) | _ => None end in
  if String.eqb k "directivemapname" then text (fun s => GConf (g_filter c) (g_override c) s (g_match c) (g_comment c))
  else if String.eqb k "matchfuncname" then text (fun s => GConf (g_filter c) (g_override c) (g_map c) s (g_comment c))
  else if String.eqb k "matchfunccomment" then text (fun s => GConf (g_filter c) (g_override c) (g_map c) (g_match c) s)
  else Some c.
Fixpoint put_members (l : list (string * json)) (c : gconf) : option gconf :=
  match l with
  | [] => Some c
  | (k, v) :: r => match put_member k v c with Some c => put_members r c | None => None end
  end.
(** main.go:19-33 [configFromFile] of a file with this content: the first JSON value of the text;
    json.Decoder does not look at what is behind it (for null at one byte, without consequence). *)
Definition conf_of_text (s : string) : option gconf :=
  match pval (S (slen s)) max_nesting s with
  | Some (JObj l, _) => put_members l no_conf
  | Some (JNull, _) => Some no_conf
  | _ => None
  end.

(** ** The command line (package flag, as main.go:37-65 sets it up) *)
Record settings := Set_ { f_src : string; f_config : string; f_map : string; f_match : string; f_comment : string; f_filter : option (list string); f_override : option masks_map }.
Definition no_settings : settings := Set_ "" "" "" "" "" None None.
Inductive halt := StopHelp | StopSyntax (word : string) | StopUnknown (name : string) | StopNoValue (name : string) | StopValue (value : string)
  | StopConfig | StopNoSource | StopNoMap | StopNoFunc | StopGen (e : gen_err).
Definition flag_known (n : string) : bool :=
  mem_str n ["src-path"; "config-path"; "directive-map-name"; "match-func-name"; "match-func-comment"; "filter"; "override"].
(** Set of the flag [n]; filter: cmd_util.go:22-28, override: cmd_util.go:87-99. *)
Definition set_flag (n v : string) (f : settings) : settings + halt :=
  let '(Set_ a b c d e flt ovr) := f in
  if String.eqb n "src-path" then inl (Set_ v b c d e flt ovr)
  else if String.eqb n "config-path" then inl (Set_ a v c d e flt ovr)
  else if String.eqb n "directive-map-name" then inl (Set_ a b v d e flt ovr)
  else if String.eqb n "match-func-name" then inl (Set_ a b c v e flt ovr)
  else if String.eqb n "match-func-comment" then inl (Set_ a b c d v flt ovr)
  else if String.eqb n "filter" then inl (Set_ a b c d e (set_names flt [v]) ovr)
  else
    match read_override v with
    | inl (dir, ms) => inl (Set_ a b c d e flt (Some (assoc_set dir ms (match ovr with Some m => m | None => [] end))))
    | inr _ => inr (StopValue v)
    end.
Inductive word_kind := WEnd | WBad | WFlag (name : string) (value : option string).
(** flag.go [parseOne], up to the lookup. *)
Definition word_of (w : string) : word_kind :=
  match w with
  | String "-" (String c r) =>
    if String.eqb w "--" then WEnd else
    let name := if Ascii.eqb c "-" then r else String c r in
    match name with
    | "" => WBad
    | String d _ => if (Ascii.eqb d "-" || Ascii.eqb d "=")%bool then WBad
                    else match cut "=" name with Some (n, v) => WFlag n (Some v) | None => WFlag name None end
    end
  | _ => WEnd
  end.
Fixpoint parse_flags (args : list string) (f : settings) : settings + halt :=
  match args with
  | [] => inl f
  | w :: r =>
    match word_of w with
    | WEnd => inl f
    | WBad => inr (StopSyntax w)
    | WFlag n v =>
      if negb (flag_known n) then inr (if (String.eqb n "help" || String.eqb n "h")%bool then StopHelp else StopUnknown n) else
      match v, r with
      | Some v, _ => match set_flag n v f with inl f => parse_flags r f | inr e => inr e end
      | None, v :: r => match set_flag n v f with inl f => parse_flags r f | inr e => inr e end
      | None, [] => inr (StopNoValue n)
      end
    end
  end.

(** ** main.go:67-115 *)
Section Program.
  (** The files that can be read; what WalkDir reports below a path; the orders of map loops. *)
  Variable read : string -> option string.
  Variable below : string -> list entry.
  Variable ord : nat -> list string -> list string.
  Definition or_else {A} (o d : option A) : option A := match o with Some _ => o | None => d end.
  Definition or_text (s d : string) : string := if String.eqb s "" then d else s.
  Definition program (args : list string) : string + halt :=
    match parse_flags args no_settings with
    | inr e => inr e
    | inl f =>
      match (if String.eqb (f_config f) "" then Some no_conf else match read (f_config f) with Some t => conf_of_text t | None => None end) with
      | None => inr StopConfig
      | Some c =>
        let c := GConf (or_else (f_filter f) (g_filter c)) (or_else (f_override f) (g_override c)) (or_text (f_map f) (g_map c)) (or_text (f_match f) (g_match c)) (or_text (f_comment f) (g_comment c)) in
        if String.eqb (f_src f) "" then inr StopNoSource
        else if String.eqb (g_map c) "" then inr StopNoMap
        else if String.eqb (g_match c) "" then inr StopNoFunc
        else match generate_map ord (below (f_src f)) (match g_filter c with Some l => l | None => [] end) (match g_override c with Some m => m | None => [] end) with
             | inr e => inr (StopGen e)
             | inl m => inl (render (g_map c) (g_match c) (g_comment c) m)
             end
      end
    end.
End Program.
