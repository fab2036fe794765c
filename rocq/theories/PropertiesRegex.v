(** C61: what the regular expressions of the generator extract. *)
From Verif Require Import RegexProofs.
Local Open Scope string_scope.

(** The four patterns, as they are written in generator_util.go:39-50. *)
Example C61_written : map show [command_table; command; line_comment; block_comment] =
  ["ngx_command_t\s+(\w+)\[\]\s*=\s*{(.*?)}\s*;"; "ngx_string\(""(.*?)""\).*?,(.*?),"; "//.*"; "/\*[\s\S]*?\*/"].
Proof. vm_compute. reflexivity. Qed.

Theorem C61_tables : forall s l, ~ inside "010" s -> (find_all match_table 0 s = l <-> exists found_here, found command_table s found_here /\ l = map body_of found_here).
Proof. intros s l N. apply (found_exact _ _ _ "ngx_command_t" _ _ ltac:(discriminate) table_corr no_nl_tails s N). Qed.
Print Assumptions C61_tables.
Theorem C61_commands : forall s l, ~ inside "010" s -> (find_all match_entry 0 s = l <-> exists found_here, found command s found_here /\ l = map name_masks found_here).
Proof. intros s l N. apply (found_exact _ _ _ "ngx_string(""" _ _ ltac:(discriminate) command_corr no_nl_tails s N). Qed.
Print Assumptions C61_commands.
Theorem C61_line_comments : forall s t, strip_line false s = t <-> erased line_comment s t.
Proof. exact (erased_exact _ _ _ "//" _ _ ltac:(discriminate) line_corr line_erases). Qed.
Print Assumptions C61_line_comments.
Theorem C61_block_comments : forall s t, strip_block 0 s = t <-> erased block_comment s t.
Proof. exact (erased_exact _ _ _ "/*" _ _ ltac:(discriminate) block_corr block_erases). Qed.
Print Assumptions C61_block_comments.
(** All of masksFromFile's extraction, on every text. *)
Theorem C61_pairs : forall content l, pairs content = l <-> extracted content l.
Proof. exact pairs_exact. Qed.
Print Assumptions C61_pairs.

(** Two tables, one of them with a comment, a second command without its second comma, a lonely brace. *)
Definition some_source : string :=
  "static ngx_command_t  a[] = { // first" ++ s_nl ++ "{ ngx_string(""foo"") /* x */, NGX_CONF_FLAG|NGX_MAIN_CONF," ++ s_cr ++ s_nl ++ " 0 }, } { ngx_string(""bar""), 0 } } ;" ++ s_nl ++
  "ngx_command_t b [] = {}; ngx_command_t c[]={ngx_string(""x"",""y""),z,};".
Example C61_case : extracted some_source [("foo", " NGX_CONF_FLAG|NGX_MAIN_CONF"); ("x"",""y", "z")].
Proof. apply C61_pairs. vm_compute. reflexivity. Qed.
Example C61_comments : erased line_comment ("a / b // c" ++ s_nl ++ "d") ("a / b " ++ s_nl ++ "d") /\ erased block_comment "a /*/ b */ c */ /* d" "a  c */ /* d".
Proof. rewrite <- C61_line_comments, <- C61_block_comments. vm_compute. auto. Qed.
(** A greedy blank gives nothing back; the lazy body ends at the first closing brace with a semicolon. *)
Example C61_body : exists l, found command_table "ngx_command_t  t[] = { } {;} ; };" l /\ map body_of l = [" } {;"].
Proof. destruct (proj1 (C61_tables "ngx_command_t  t[] = { } {;} ; };" [" } {;"] ltac:(apply not_inside_nl_lit; reflexivity)) ltac:(vm_compute; reflexivity)) as (l & F & E). exists l. auto. Qed.
