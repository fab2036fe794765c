(** C64: what is to be left of a configuration whose files are all replaced by
    the text built from them. *)
From Verif Require Export SpecRound SpecRead SpecOpts.
From Verif Require SpecFiles.
Local Open Scope string_scope.

(** A directive without its line number. *)
Fixpoint unlined (d : directive) : directive :=
  Dir (d_name d) 0 (d_args d) (d_file d) (d_includes d)
      (match d_block d with Some b => Some (map unlined b) | None => None end) (d_comment d) (d_ismap d).
(** The comments of the header, if they are written and read. *)
Definition heading (comments header : bool) : list directive :=
  if (comments && header)%bool then map (mkc 0) header_notes else [].
(** The same configuration: files in the same order, directives that differ in
    their lines only, includes that lead to the same files. *)
Definition same_config (head : list directive) (c c' : config) : Prop :=
  cf_file c' = cf_file c /\ cf_status c' = cf_status c /\ cf_errors c' = cf_errors c /\
  map unlined (cf_parsed c') = (head ++ map unlined (cf_parsed c))%list.
Definition same_payload (head : list directive) (p p' : payload) : Prop :=
  pl_status p' = pl_status p /\ pl_errors p' = pl_errors p /\ Forall2 (same_config head) (pl_config p) (pl_config p').

(** No parameter of a map block is named "if": Build would put it in parentheses. *)
Fixpoint no_if_entry (d : directive) : bool :=
  (negb (d_ismap d && String.eqb (d_name d) "if") &&
   match d_block d with Some b => forallb no_if_entry b | None => true end)%bool.
(** The file does not end with a comment that ends in white space: BuildFiles cuts that off. *)
Definition last_kept (ds : list directive) : bool :=
  match rev ds with d :: _ => negb (is_comment d && ends_white (comment_text d)) | [] => true end.
Definition formattable (pr : N -> bool) (ds : list directive) : bool :=
  (writables pr not_note ds && forallb no_if_entry ds && last_kept ds)%bool.
(** "if" may have any number of arguments: Build writes some with fewer blanks. *)
Definition loose_if (o : popts) : Prop := o_skipargs o = true \/ forall ms m, knows o "if" ms -> In m ms -> bit 12 m.

(** The directives are those of [tables]. *)
Definition from_tables (o : popts) (tables : list (list (string * list N))) : Prop :=
  forall f, (f = o_default o /\ o_sources o = [] \/ In f (o_sources o)) -> exists t, In t tables /\ forall name, f name = assoc name t.

(** What stands in a file after formatting: the text itself, or what BuildFiles makes of it. *)
Definition stored (text c : string) : Prop := c = text \/ exists t, rtrimmed text t /\ c = t ++ s_nl.
(** [op]: the files of the pages [l] have been formatted, the others are as they were. *)
Definition formatted (bo : bopts) (o : popts) (l : list page) (op : string -> string + string) : Prop :=
  (forall g, In g l -> exists text c, build bo (pg_tree g) = Some text /\ stored text c /\ op (pg_file g) = inl c) /\
  (forall f, ~ In f (map pg_file l) -> op f = o_open o f).
(** The operating system opens the files of [s]. *)
Definition disk (s : BuildIO.fs) (missing : string -> string) : string -> string + string :=
  fun f => match BuildIO.files s f with Some c => inl c | None => inr (missing f) end.
