(** C86: indentation is only indentation. *)
From Verif Require Import IndentProofs.
Local Open Scope string_scope.

(** However it is indented, the text of a tree has the same tokens, on the same lines. *)
Theorem C86_tokens : forall a b ds, same_style a b -> ascii_right (b_print a) -> b_ext a = [] -> (0 <= b_indent a)%Z -> (0 <= b_indent b)%Z ->
  writables (b_print a) not_note ds = true -> exists t t', build a ds = Some t /\ build b ds = Some t' /\ lex [] t = lex [] t'.
Proof. exact indent_tokens. Qed.
Print Assumptions C86_tokens.
(** So a configuration, any of whose files are written with other indentation, is parsed as before,
    with whatever result. *)
Theorem C86_parse : forall a b o op fuel filename, same_style a b -> ascii_right (b_print a) -> b_ext a = [] -> (0 <= b_indent a)%Z -> (0 <= b_indent b)%Z ->
  o_lexers o = [] -> (forall f, reindented a b (writables (b_print a) not_note) (o_open o f) (op f)) ->
  parse_main fuel (with_open o op) filename = parse_main fuel o filename.
Proof. exact indent_main. Qed.
Print Assumptions C86_parse.
(** In general, Parse knows of the texts of files only their tokens. *)
Theorem C86_only_tokens : forall o op fuel filename, (forall f, same_words (o_lexers o) (o_open o f) (op f)) ->
  parse_main fuel (with_open o op) filename = parse_main fuel o filename.
Proof. intros o op fuel filename A. exact (main_words o op A fuel filename). Qed.
Print Assumptions C86_only_tokens.

Definition wide : bopts := BOpts 8 false false [] (in_rng 32 126).
Definition tabbed : bopts := BOpts 4 true false [] (in_rng 32 126).
Definition a_tree : list directive := [mkd "http" 1 [] (Some [mkd "server" 2 [] (Some [mkd "listen" 3 ["8 0"] None; mkc 3 " c"]); mkd "gzip" 5 ["on"] None])].
Example C86_case : same_style wide tabbed /\ ascii_right (b_print wide) /\ writables (b_print wide) not_note a_tree = true /\
  build wide a_tree <> build tabbed a_tree /\
  exists t t', build wide a_tree = Some t /\ build tabbed a_tree = Some t' /\
    reindented wide tabbed (writables (b_print wide) not_note) (inl t) (inl t') /\ List.length (lex [] t) = 13.
Proof.
  split; [constructor; reflexivity|]. split; [unfold ascii_right; intros; reflexivity|]. split; [vm_compute; reflexivity|]. split; [vm_compute; discriminate|].
  eexists _, _. split; [vm_compute; reflexivity|]. split; [vm_compute; reflexivity|]. split; [|vm_compute; reflexivity].
  apply (ri_built _ _ _ a_tree); vm_compute; reflexivity.
Qed.
(** A comment with a line break and a quote, as no parsed comment is: the indentation is within a quoted word. *)
Theorem C86_outside_refuted : exists ds t t', build wide ds = Some t /\ build tabbed ds = Some t' /\
  map t_val (lex [] t) <> map t_val (lex [] t').
Proof.
  exists [mkd "http" 1 [] (Some [mkc 2 ("x" ++ s_nl ++ "'"); mkd "gzip" 5 ["on"] None; mkc 6 ("y" ++ s_nl ++ "';")])]. eexists _, _.
  split; [vm_compute; reflexivity|]. split; [vm_compute; reflexivity|]. vm_compute. discriminate.
Qed.
Print Assumptions C86_outside_refuted.
