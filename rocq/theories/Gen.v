(** internal/generator, cmd/generate: reading nginx module sources. *)
From Verif Require Export GoStr.
Local Open Scope string_scope.

(** ** Regular expressions, specialised.  All four are matched leftmost-first; their
    literals are ASCII, so matching bytes and matching runes is the same. *)
Definition re_space (c : ascii) : bool := existsb (Ascii.eqb c) ["009"; "010"; "012"; "013"; " "]%char.
Definition re_word (c : ascii) : bool :=
  let b := bval c in (in_rng 48 57 b || in_rng 65 90 b || in_rng 97 122 b || N.eqb b 95)%bool.
(** A greedy run of a class: the run and the rest. *)
Fixpoint run (p : ascii -> bool) (s : string) : string * string :=
  match s with
  | String c r => if p c then let '(a, b) := run p r in (String c a, b) else ("", s)
  | "" => ("", "")
  end.
(** [p] at the start of [s]: the rest. *)
Definition lit (p s : string) : option string := if prefix p s then Some (drop (slen p) s) else None.
(** [.*?p] without line breaks in the text: what is before the first [p], and the rest. *)
Fixpoint upto (p : string) (s : string) : option (string * string) :=
  match lit p s with
  | Some r => Some ("", r)
  | None => match s with
            | "" => None
            | String c r => match upto p r with Some (a, b) => Some (String c a, b) | None => None end
            end
  end.
(** [.*?}\s*;] *)
Definition table_end (s : string) : option string :=
  match lit "}" s with Some r => lit ";" (snd (run re_space r)) | None => None end.
Fixpoint upto_end (s : string) : option (string * string) :=
  match table_end s with
  | Some r => Some ("", r)
  | None => match s with
            | "" => None
            | String c r => match upto_end r with Some (a, b) => Some (String c a, b) | None => None end
            end
  end.
Definition bind {A B} (x : option A) (f : A -> option B) : option B := match x with Some a => f a | None => None end.
(** generator_util.go:48, 110: [//.*] replaced by nothing. *)
Fixpoint strip_line (inside : bool) (s : string) : string :=
  match s with
  | "" => ""
  | String c r =>
    if inside then if Ascii.eqb c "010" then String c (strip_line false r) else strip_line true r
    else if prefix "//" s then strip_line true r else String c (strip_line false r)
  end.
(** generator_util.go:50, 111: [/\*[\s\S]*?\*/] replaced by nothing. *)
Fixpoint strip_block (skip : nat) (s : string) : string :=
  match s with
  | "" => ""
  | String c r =>
    match skip with
    | S k => strip_block k r
    | O =>
      match bind (lit "/*" s) (upto "*/") with
      | Some (a, _) => strip_block (3 + slen a) r
      | None => String c (strip_block 0 r)
      end
    end
  end.
(** generator_util.go:110-113 *)
Definition flatten (s : string) : string :=
  replace_all (replace_all (strip_block 0 (strip_line false s)) (s_cr ++ s_nl) "") s_nl "".

(** generator_util.go:39: [ngx_command_t\s+(\w+)\[\]\s*=\s*{(.*?)}\s*;] at the start of
    [s]: the second group and the rest. *)
Definition match_table (s : string) : option (string * string) :=
  bind (lit "ngx_command_t" s) (fun s =>
  let '(sp, s) := run re_space s in
  if String.eqb sp "" then None else
  let '(w, s) := run re_word s in
  if String.eqb w "" then None else
  bind (lit "[]" s) (fun s => bind (lit "=" (snd (run re_space s))) (fun s => bind (lit "{" (snd (run re_space s))) upto_end))).
(** generator_util.go:46: [ngx_string\("(.*?)"\).*?,(.*?),] at the start of [s]: both
    groups and the rest. *)
Definition match_entry (s : string) : option ((string * string) * string) :=
  bind (lit ("ngx_string(" ++ s_dq) s) (fun s =>
  bind (upto (s_dq ++ ")") s) (fun '(name, s) =>
  bind (upto "," s) (fun '(_, s) =>
  bind (upto "," s) (fun '(mask, s) => Some ((name, mask), s))))).
(** FindAllStringSubmatch: leftmost matches that do not overlap. *)
Section All.
  Context {A : Type}.
  Variable m : string -> option (A * string).
  Fixpoint find_all (skip : nat) (s : string) : list A :=
    match s with
    | "" => []
    | String c r =>
      match skip with
      | S k => find_all k r
      | O => match m s with Some (a, rest) => a :: find_all (slen r - slen rest) r | None => find_all 0 r end
      end
    end.
End All.

(** ** masksFromFile *)
Definition mask := list string.
Definition ngx_names : list (string * string) := [
  ("NGX_MAIL_MAIN_CONF", "ngxMailMainConf"); ("NGX_STREAM_MAIN_CONF", "ngxStreamMainConf");
  ("NGX_CONF_TAKE1", "ngxConfTake1"); ("NGX_STREAM_UPS_CONF", "ngxStreamUpsConf");
  ("NGX_HTTP_LIF_CONF", "ngxHTTPLifConf"); ("NGX_CONF_TAKE2", "ngxConfTake2");
  ("NGX_HTTP_UPS_CONF", "ngxHTTPUpsConf"); ("NGX_CONF_TAKE23", "ngxConfTake23");
  ("NGX_CONF_TAKE12", "ngxConfTake12"); ("NGX_HTTP_MAIN_CONF", "ngxHTTPMainConf");
  ("NGX_HTTP_LMT_CONF", "ngxHTTPLmtConf"); ("NGX_CONF_TAKE1234", "ngxConfTake1234");
  ("NGX_MAIL_SRV_CONF", "ngxMailSrvConf"); ("NGX_CONF_FLAG", "ngxConfFlag");
  ("NGX_HTTP_SRV_CONF", "ngxHTTPSrvConf"); ("NGX_CONF_1MORE", "ngxConf1More");
  ("NGX_ANY_CONF", "ngxAnyConf"); ("NGX_CONF_TAKE123", "ngxConfTake123");
  ("NGX_MAIN_CONF", "ngxMainConf"); ("NGX_CONF_NOARGS", "ngxConfNoArgs");
  ("NGX_CONF_2MORE", "ngxConf2More"); ("NGX_CONF_TAKE3", "ngxConfTake3");
  ("NGX_HTTP_SIF_CONF", "ngxHTTPSifConf"); ("NGX_EVENT_CONF", "ngxEventConf");
  ("NGX_CONF_BLOCK", "ngxConfBlock"); ("NGX_HTTP_LOC_CONF", "ngxHTTPLocConf");
  ("NGX_STREAM_SRV_CONF", "ngxStreamSrvConf"); ("NGX_DIRECT_CONF", "ngxDirectConf");
  ("NGX_CONF_TAKE13", "ngxConfTake13"); ("NGX_CONF_ANY", "ngxConfAny");
  ("NGX_CONF_TAKE4", "ngxConfTake4"); ("NGX_CONF_TAKE5", "ngxConfTake5");
  ("NGX_CONF_TAKE6", "ngxConfTake6"); ("NGX_CONF_TAKE7", "ngxConfTake7")].
(** What can go wrong. *)
Inductive gen_err := GUnknown (dir name : string) | GRead (path : string) | GWalk (path : string) | GNothing.
Definition masks_map := list (string * list mask).
(** generator_util.go:129-136; inr: the first name that is not known. *)
Fixpoint to_go (names : list string) : mask + string :=
  match names with
  | [] => inl []
  | n :: r =>
    match assoc (trim_space n) ngx_names with
    | None => inr n
    | Some g => match to_go r with inl l => inl (g :: l) | inr e => inr e end
    end
  end.
(** generator_util.go:138 *)
Definition add_masks (d : string) (ms : list mask) (m : masks_map) : masks_map :=
  assoc_set d (match assoc d m with Some l => (l ++ ms)%list | None => ms end) m.
(** generator_util.go:123-139, for the entries of all tables in order. *)
Fixpoint add_entries (es : list (string * string)) (m : masks_map) : masks_map + gen_err :=
  match es with
  | [] => inl m
  | (name, masks) :: r =>
    let d := trim_space name in
    match to_go (split "|"%char masks) with
    | inr e => inr (GUnknown d e)
    | inl k => add_entries r (add_masks d [k] m)
    end
  end.
(** generator_util.go:100-142 [masksFromFile] of a file with this content. *)
Definition masks_of_text (content : string) : masks_map + gen_err :=
  add_entries (flat_map (find_all match_entry 0) (find_all match_table 0 (flatten content))) [].

(** ** getMasksFromPath *)
(** What filepath.WalkDir reports, in its order. *)
Inductive entry := EDir (path : string) | EFile (path : string) (content : option string) | EBad (path : string).
Definition is_source (path : string) : bool := (has_suffix path ".c" || has_suffix path ".cpp")%bool.
Section Walk.
  (** The order in which the [k]-th loop over a map visits its keys. *)
  Variable ord : nat -> list string -> list string.
  (** generator_util.go:168-170 *)
  Definition merge (k : nat) (mf m : masks_map) : masks_map :=
    fold_left (fun m d => match assoc d mf with Some ms => add_masks d ms m | None => m end) (ord k (map fst mf)) m.
  (** generator_util.go:145-186 [getMasksFromPath] *)
  Fixpoint walk (k : nat) (es : list entry) (m : masks_map) : masks_map + gen_err :=
    match es with
    | [] => inl m
    | EDir _ :: r => walk k r m
    | EBad p :: _ => inr (GWalk p)
    | EFile p c :: r =>
      if is_source p then
        match c with
        | None => inr (GRead p)
        | Some t => match masks_of_text t with
                    | inr e => inr e
                    | inl mf => walk (S k) r (merge (S k) mf m)
                    end
        end
      else walk k r m
    end.
  Definition get_masks (es : list entry) : masks_map + gen_err :=
    match walk 1 es [] with
    | inl [] => inr GNothing
    | r => r
    end.
  (** ** genFromSrcCode *)
  Fixpoint assoc_del {A} (d : string) (m : list (string * A)) : list (string * A) :=
    match m with
    | [] => []
    | (n, v) :: r => if String.eqb d n then assoc_del d r else (n, v) :: assoc_del d r
    end.
  (** generator_util.go:194-201; the filter is a set of names. *)
  Definition drop_filtered (flt : list string) (m : masks_map) : masks_map :=
    fold_left (fun m d => if mem_str d flt then assoc_del d m else m) (ord 0 (map fst m)) m.
  (** generator_util.go:203-210 *)
  Definition apply_override (ovr : masks_map) (m : masks_map) : masks_map :=
    fold_left (fun m d => match assoc d ovr with Some ms => assoc_set d ms m | None => m end) (ord 1 (map fst m)) m.
  (** The map that is given to the template. *)
  Definition generate_map (es : list entry) (flt : list string) (ovr : masks_map) : masks_map + gen_err :=
    match get_masks es with
    | inr e => inr e
    | inl m => inl (apply_override ovr (drop_filtered flt m))
    end.
End Walk.

(** ** The template *)
(** html/template escapes every inserted value for HTML text. *)
Definition html_char (c : ascii) : string :=
  let b := bval c in
  if N.eqb b 0 then encode_rune rune_error
  else if N.eqb b 34 then "&#34;" else if N.eqb b 38 then "&amp;" else if N.eqb b 39 then "&#39;"
  else if N.eqb b 43 then "&#43;" else if N.eqb b 60 then "&lt;" else if N.eqb b 62 then "&gt;"
  else str1 c.
Fixpoint html (s : string) : string := match s with "" => "" | String c r => html_char c ++ html r end.
(** tmpl/support_file.tmpl:1-18, 26-33; range visits the keys of a map in order. *)
Definition tmpl_head : string :=
  "/**" ++ s_nl ++ " * Copyright (c) F5, Inc." ++ s_nl ++ " *" ++ s_nl ++
  " * This source code is licensed under the Apache License, Version 2.0 license found in the" ++ s_nl ++
  " * LICENSE file in the root directory of this source tree." ++ s_nl ++ " */" ++ s_nl ++ s_nl ++
  "// Code generated by generator; DO NOT EDIT." ++ s_nl ++
  "// All the definitions are extracted from the source code" ++ s_nl ++
  "// Each bit mask describes these behaviors:" ++ s_nl ++
  "//   - how many arguments the directive can take" ++ s_nl ++
  "//   - whether or not it is a block directive" ++ s_nl ++
  "//   - whether this is a flag (takes one argument that's either " ++ s_dq ++ "on" ++ s_dq ++ " or " ++ s_dq ++ "off" ++ s_dq ++ ")" ++ s_nl ++
  "//   - which contexts it's allowed to be in" ++ s_nl ++ s_nl ++
  "package crossplane" ++ s_nl ++ s_nl.
Definition row_of (name : string) (ms : list mask) : string :=
  s_nl ++ "    " ++ s_dq ++ html name ++ s_dq ++ ": {" ++
  concat_str (map (fun m => s_nl ++ "        " ++ html (join m " | ") ++ ",") ms) ++ s_nl ++ "    },".
Definition lookup (d : string) (m : masks_map) : list mask := match assoc d m with Some l => l | None => [] end.
Definition render (var fn comment : string) (m : masks_map) : string :=
  tmpl_head ++ "var " ++ html var ++ " = map[string][]uint{" ++
  concat_str (map (fun d => row_of d (lookup d m)) (sort_strings (map fst m))) ++ s_nl ++ "}" ++ s_nl ++ s_nl ++
  (if String.eqb comment "" then "" else "// " ++ html comment) ++ s_nl ++
  "func " ++ html fn ++ "(directive string) ([]uint, bool) {" ++ s_nl ++
  "    m, ok := " ++ html var ++ "[directive]" ++ s_nl ++ "    return m, ok" ++ s_nl ++ "}" ++ s_nl.

(** ** cmd/generate/cmd_util.go *)
Inductive flag_err := FNoColon | FNoName | FNoDef | FNoMask.
(** cmd_util.go:61-69 *)
Fixpoint trim_names (l : list string) : option mask :=
  match l with
  | [] => Some []
  | x :: r => let t := trim_space x in if String.eqb t "" then None else option_map (cons t) (trim_names r)
  end.
(** cmd_util.go:56-71 *)
Fixpoint read_masks (l : list string) : option (list mask) :=
  match l with
  | [] => Some []
  | x :: r => match trim_names (split "|"%char x) with None => None | Some m => option_map (cons m) (read_masks r) end
  end.
(** cmd_util.go:36-74 [UnmarshalText] *)
Definition read_override (text : string) : (string * list mask) + flag_err :=
  match cut ":"%char text with
  | None => inr FNoColon
  | Some (d, def) =>
    let d := trim_space d in
    if String.eqb d "" then inr FNoName else
    let def := trim_space def in
    if String.eqb def "" then inr FNoDef else
    match read_masks (split ","%char def) with
    | None => inr FNoMask
    | Some ms => inl (d, ms)
    end
  end.
(** cmd_util.go:85-97 [Set], for all -override flags in order. *)
Fixpoint set_overrides (flags : list string) (ov : masks_map) : masks_map + flag_err :=
  match flags with
  | [] => inl ov
  | f :: r => match read_override f with inr e => inr e | inl (d, ms) => set_overrides r (assoc_set d ms ov) end
  end.
(** cmd_util.go:22-28, for all -filter flags in order. *)
Definition set_filters (flags : list string) : list string := flags.
