(** build.go: rendering directives. *)
From Verif Require Export Types.
Local Open Scope string_scope.

(** ** Quoting *)
(** util.go:38-49 [repr]; [pr] stands for strconv.IsPrint. *)
Definition repr (pr : N -> bool) (s : string) : string :=
  let q := quote pr s in
  if existsb (N.eqb 34) (runes s) then
    let q := replace_all q (s_bs ++ s_dq) s_dq in
    let q := replace_all q s_sq (s_bs ++ s_sq) in
    s_sq ++ take (slen q - 2) (drop 1 q) ++ s_sq
  else q.

(** build.go:296-327 [escape]: [pc] is the previous rune (0 for none). *)
Fixpoint escape_loop (pc : N) (rs : list N) : string :=
  match rs with
  | [] => EmptyString
  | cc :: r =>
    if (N.eqb pc 92 || (N.eqb pc 36 && N.eqb cc 123))%bool then
      encode_rune pc ++ encode_rune cc ++ escape_loop 0 r
    else
      (if N.eqb pc 36 then encode_rune pc else EmptyString)
      ++ (if (negb (N.eqb cc 92) && negb (N.eqb cc 36))%bool then encode_rune cc else EmptyString)
      ++ escape_loop cc r
  end.
Definition escape (s : string) : string :=
  if negb (contains_any s "{}$;\") then s
  else
    let rs := runes s in
    let cc := last rs 0%N in
    escape_loop 0 rs
    ++ (if (N.eqb cc 92 || N.eqb cc 36)%bool then encode_rune cc else EmptyString).

Definition in_set (set : list N) (r : N) : bool := existsb (N.eqb r) set.

(** build.go:268-291: the loop over the runes after the first.  [char] is the
    last rune seen; the result is "needs quotes". *)
Fixpoint needs_loop (expanding : bool) (prev char : N) (rs : list N) : bool :=
  match rs with
  | [] => (expanding || N.eqb char 92 || N.eqb char 36)%bool
  | c :: r =>
    if N.eqb prev 92 then needs_loop expanding 0 c r
    else if (is_space_rune c || in_set [123; 59; 34; 39]%N c)%bool then true
    else if ((expanding && (N.eqb prev 36 && N.eqb c 123))
             || (negb expanding && N.eqb c 125))%bool then true
    else
      let flip := ((expanding && N.eqb c 125)
                   || (negb expanding && (N.eqb prev 36 && N.eqb c 123)))%bool in
      needs_loop (if flip then negb expanding else expanding) c c r
  end.

(** build.go:245-294 [needsQuote]. *)
Definition needs_quote (s : string) : bool :=
  if String.eqb s "" then true
  else
    let chars := escape s in
    match runes chars with
    | [] => true
    | char :: rest =>
      if (is_space_rune char || in_set [123; 125; 59; 34; 39]%N char
          || has_prefix chars "${")%bool then true
      else needs_loop false 0 char rest
    end.

(** build.go:237-242 [Enquote]. *)
Definition enquote (pr : N -> bool) (s : string) : string :=
  if negb (needs_quote s) then s
  else replace_all (repr pr s) (s_bs ++ s_bs) s_bs.

(** ** Layout *)
Definition builder := directive -> string.

(** build.go:20-26 [BuildOptions] after the defaults and registrations have been
    applied: [b_ext] is extBuilders. *)
Record bopts := BOpts {
  b_indent : Z; b_tabs : bool; b_header : bool;
  b_ext : list (string * builder);
  b_print : N -> bool (* strconv.IsPrint *) }.

(** build.go:38-46 [applyBuildOptions]. *)
Definition apply_builder (m : list (string * builder)) (r : builder * list string) :=
  fold_left (fun m s => assoc_set s (fst r) m) (snd r) m.
Definition apply_builders (rs : list (builder * list string)) : list (string * builder) :=
  fold_left apply_builder rs [].

Definition max_indent : Z := 100.

(** s[:n] for a string of repeated one-byte [c] of length [len]; None = panic. *)
Definition slice_rep (c : string) (len n : Z) : option string :=
  if (Z.ltb n 0 || Z.ltb len n)%bool then None else Some (repeat_str c (Z.to_nat n)).
(** strings.Repeat panics on a negative count. *)
Definition repeat_z (c : string) (n : Z) : option string :=
  if Z.ltb n 0 then None else Some (repeat_str c (Z.to_nat n)).

(** build.go:222-235 [margin]; None = panic.  [int] overflow is not modelled. *)
Definition margin (o : bopts) (depth : Z) : option string :=
  let indent := (depth * b_indent o)%Z in
  if Z.ltb indent max_indent then
    if b_tabs o then slice_rep s_tab max_indent depth
    else slice_rep s_sp max_indent indent
  else if b_tabs o then repeat_z s_tab depth
  else repeat_z s_sp indent.

Definition obind {A B} (o : option A) (f : A -> option B) : option B :=
  match o with Some x => f x | None => None end.

Definition comment_of (d : directive) : string :=
  match d_comment d with Some c => c | None => EmptyString end.

(** build.go:180-206: name and arguments of a statement that is not a comment. *)
Definition build_head (o : bopts) (d : directive) : string :=
  let name := enquote (b_print o) (d_name d) in
  if String.eqb name "if" then
    name ++ " (" ++ join (map (enquote (b_print o)) (d_args d)) " " ++ ")"
  else
    name ++ concat_str (map (fun a => " " ++ enquote (b_print o) a) (d_args d)).

Section Loop.
  (** [stmt d] renders a statement after its margin. *)
  Variable o : bopts.
  Variable depth : Z.
  Variable stmt : directive -> option string.
  (** build.go:159-220 [buildBlock]: [nl] is (i != 0 || parent != nil). *)
  Fixpoint build_loop (nl : bool) (last_line : Z) (block : list directive) : option string :=
    match block with
    | [] => Some EmptyString
    | d :: r =>
      if (Z.eqb (d_line d) last_line && is_comment d)%bool then
        obind (build_loop true last_line r) (fun t => Some (" #" ++ comment_of d ++ t))
      else
        obind (margin o depth) (fun m =>
        let pre := (if nl then s_nl else EmptyString) ++ m in
        match assoc (enquote (b_print o) (d_name d)) (b_ext o) with
        | Some f =>
          obind (build_loop true last_line r) (fun t => Some (pre ++ f d ++ t))
        | None =>
          obind (stmt d) (fun s =>
          obind (build_loop true (d_line d) r) (fun t => Some (pre ++ s ++ t)))
        end)
    end.
End Loop.

(** build.go:176-216: one statement after its margin; None = panic. *)
Fixpoint build_stmt (o : bopts) (depth : Z) (d : directive) {struct d} : option string :=
  if is_comment d then Some ("#" ++ comment_of d)
  else
    match d_block d with
    | None => Some (build_head o d ++ ";")
    | Some b =>
      obind (build_loop o (depth + 1) (build_stmt o (depth + 1)) true (d_line d) b) (fun body =>
      obind (margin o depth) (fun m =>
      Some (build_head o d ++ " {" ++ body ++ s_nl ++ m ++ "}")))
    end.

Definition build_block (o : bopts) (depth : Z) (nl : bool) (last_line : Z)
           (block : list directive) : option string :=
  build_loop o depth (build_stmt o depth) nl last_line block.

(** build.go:70-74 [header]. *)
Definition header : string :=
  "# This config was built from JSON using NGINX crossplane." ++ s_nl ++
  "# If you encounter any bugs please report them here:" ++ s_nl ++
  "# https://github.com/nginxinc/crossplane/issues" ++ s_nl ++ s_nl.

(** build.go:129-131 *)
Definition default_indent (o : bopts) : bopts :=
  BOpts (if Z.eqb (b_indent o) 0 then 4 else b_indent o) (b_tabs o) (b_header o)
        (b_ext o) (b_print o).

(** build.go:149-152: remove one trailing newline. *)
Definition chomp (s : string) : string :=
  if has_suffix s s_nl then take (slen s - 1) s else s.

(** build.go:128-156 [Build] into a writer that accepts everything: the bytes
    written; None = panic (the header has been written before, which no caller
    can use as a result). *)
Definition build (o : bopts) (parsed : list directive) : option string :=
  let o := default_indent o in
  obind (build_block o 0 false 0 parsed) (fun body =>
  Some ((if b_header o then header else EmptyString) ++ chomp body)).
