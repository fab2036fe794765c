(** Building and parsing again (C09, C10): the trees that survive. *)
From Verif Require Export SpecEnquote SpecBuild SpecValidate SpecContext SpecIf.
Local Open Scope string_scope.

(** ** What is compared: name, arguments, comment, nesting and order. *)
Fixpoint bare (d : directive) : directive :=
  Dir (d_name d) 0 (d_args d) "" None (match d_block d with Some b => Some (map bare b) | None => None end) (d_comment d) false.
(** Without the comments. *)
Fixpoint quiet (d : directive) : list directive :=
  if is_comment d then []
  else [Dir (d_name d) (d_line d) (d_args d) (d_file d) (d_includes d)
            (match d_block d with Some b => Some (flat_map quiet b) | None => None end) (d_comment d) (d_ismap d)].
Definition header_notes : list string :=
  [" This config was built from JSON using NGINX crossplane."; " If you encounter any bugs please report them here:";
   " https://github.com/nginxinc/crossplane/issues"].
(** What a parser is to return for the text built from [ds]. *)
Definition expected (comments header : bool) (ds : list directive) : list directive :=
  if comments then ((if header then map (mkc 0) header_notes else []) ++ ds)%list else flat_map quiet ds.

(** ** The class, decided from the tree. *)
Definition has_nl (s : string) : bool := str_exists (Ascii.eqb "010"%char) s.
(** Names and arguments: those that survive quoting (C08), on one line. *)
Definition kept (pr : N -> bool) (s : string) : bool :=
  if needs_quote s then quotable pr s else (bare_word s && negb (has_nl s))%bool.
(** Comments: one line, no carriage return, no backslash without partner at the end. *)
Definition note_ok (c : string) : bool :=
  (valid_utf8 c && negb (str_exists (Ascii.eqb "013"%char) c) && negb (has_nl c) && negb (snd (pieces_of false (scan_runes c))))%bool.
Definition ends_white (s : string) : bool :=
  match rev (runes s) with r :: _ => is_space_rune r | [] => false end.
(** "if": some argument, the first one without quotes, the last one in quotes or not ending in white space. *)
Definition if_ok (args : list string) : bool :=
  match args with
  | [] => false
  | a :: _ => (negb (needs_quote a) && let l := last args "" in needs_quote l || negb (ends_white l))%bool
  end.
(** A comment that shares its line with what stands before it: where may it stand? *)
Inductive spot := Top | Opening | AfterSimple | AfterBlock | AfterNote.
Definition spot_of (d : directive) : spot :=
  if is_comment d then AfterNote else match d_block d with None => AfterSimple | Some _ => AfterBlock end.
Fixpoint apart (ok : spot -> bool) (last : Z) (s : spot) (ds : list directive) : bool :=
  match ds with
  | [] => true
  | d :: r =>
    if (Z.eqb (d_line d) last && is_comment d)%bool then (ok s && apart ok last AfterNote r)%bool
    else apart ok (d_line d) (spot_of d) r
  end.
(** Not behind another comment. *)
Definition not_note (s : spot) : bool := match s with AfterNote => false | _ => true end.
(** Only where the line of the statement before is the line it ends on. *)
Definition on_line (s : spot) : bool := match s with Opening | AfterSimple => true | _ => false end.
Section Writable.
  Variables (pr : N -> bool) (ok : spot -> bool).
  Fixpoint writable (d : directive) : bool :=
    if is_comment d then
      (note_ok (comment_text d) && match d_args d with [] => true | _ => false end && match d_block d with None => true | _ => false end)%bool
    else
      (match d_comment d with None => true | Some _ => false end && kept pr (d_name d) && forallb (kept pr) (d_args d) &&
       (if String.eqb (d_name d) "if" then if_ok (d_args d) else true) &&
       match d_block d with None => true | Some b => apart ok (d_line d) Opening b && forallb writable b end)%bool.
  Definition writables (ds : list directive) : bool := (apart ok 0 Top ds && forallb writable ds)%bool.
End Writable.

(** ** Trees the parse options accept. *)
(** The arguments of "if" as they are written: in parentheses, which a quoted last
    argument leaves for an argument of their own. *)
Fixpoint close (l : list string) : list string :=
  match l with
  | [] => []
  | [a] => if needs_quote a then [a; ")"] else [a ++ ")"]
  | a :: r => a :: close r
  end.
Definition parens (args : list string) : list string :=
  match args with [] => [] | [a] => ["(" ++ a ++ ")"] | a :: r => ("(" ++ a) :: close r end.
Definition written (d : directive) : directive :=
  mkd (d_name d) 0 (if String.eqb (d_name d) "if" then parens (d_args d) else d_args d) None.
Definition term_of (d : directive) : string := match d_block d with None => ";" | Some _ => "{" end.
Inductive legal (o : popts) : list string -> directive -> Prop :=
| lg_comment : forall path d, is_comment d = true -> legal o path d
| lg_entry : forall path m d, is_comment d = false -> map_block m -> d_name d <> "if" -> d_block d = None ->
    fits_arity (entry_arity m (d_name d)) (d_args d) -> legal o (path ++ [m]) d
| lg_stmt : forall path d, is_comment d = false -> ~ map_block (last path "") -> ~ In (d_name d) (o_ignore o) ->
    (d_name d = "include" -> o_single o = true) -> accepts o path (written d) (term_of d) ->
    (forall b, d_block d = Some b -> plain_path [d_name d] /\ Forall (legal o (below path (d_name d))) b) ->
    legal o path d.
