(** C66: an include directive stands for the statements of the files it names. *)
From Verif Require Import Tables TableProofs ForestTools PropertiesFormat PropertiesForest PropertiesRead InlineProofs PropertiesFlatten.
Local Open Scope string_scope.

(** A text with the statements of the included files in the place of the include directives is read
    as the configuration is with CombineConfigs, but for lines and file names. *)
Theorem C66_inline : forall o filename l text F G op f t, o_combine o = true -> book o filename l -> ~ loops l -> one_home l ->
  (forall g, In g l -> pg_errors g = [] /\ forallb all_resolved (pg_tree g) = true) ->
  o_open o filename = inl text -> lex (o_lexers o) text = flat F -> Forall wf_stmt F -> inlined o (dir_name filename) [] F G ->
  op f = inl t -> lex (o_lexers o) t = flat G ->
  exists n ds ds', (forall k, n <= k -> parse_main k o filename = ROk (Pay "ok" [] [Cfg filename "ok" [] ds])) /\
    (forall k, n <= k -> parse_main k (with_open o op) f = ROk (Pay "ok" [] [Cfg f "ok" [] ds'])) /\
    map unplaced ds' = map unplaced ds.
Proof. exact inline_any. Qed.
Print Assumptions C66_inline.
(** Such statements exist for each of these configurations. *)
Theorem C66_exists : forall o filename l text F, o_combine o = true -> book o filename l -> ~ loops l -> one_home l ->
  (forall g, In g l -> pg_errors g = [] /\ forallb all_resolved (pg_tree g) = true) ->
  o_open o filename = inl text -> lex (o_lexers o) text = flat F -> Forall wf_stmt F -> exists G, inlined o (dir_name filename) [] F G.
Proof. exact inline_exists. Qed.
Print Assumptions C66_exists.

Definition pasted : string := "http { # c
map $x $y { default   'x'; }

charset utf-8; # e
# d
  server { if ( $a   =  b ) { return 404; } }
}".
Ltac copies := repeat (apply cp_comment || apply cp_simple || apply cp_block || apply Forall2_cons || apply Forall2_nil || (split; [reflexivity|split; reflexivity])).
Example C66_case : inlined flat_opts "/" [] (ForestTools.forest_of (lex [] fmt_a)) (ForestTools.forest_of (lex [] pasted)) /\
  lex [] fmt_a = flat (ForestTools.forest_of (lex [] fmt_a)) /\ lex [] pasted = flat (ForestTools.forest_of (lex [] pasted)) /\ Forall wf_stmt (ForestTools.forest_of (lex [] fmt_a)).
Proof.
  split; [|split; [vm_compute; reflexivity|split; [vm_compute; reflexivity|apply all_wf; vm_compute; reflexivity]]].
  match goal with |- inlined _ _ _ ?F ?G => evalF F; evalF G end.
  apply il_block; [nomap|intros []|copies|copies| |apply il_nil].
  apply il_same; [exact I|copies|].
  match goal with |- inlined _ _ _ _ (?a :: ?b :: ?c :: ?d :: ?r) => change (a :: b :: c :: d :: r) with ([a; b; c] ++ [d] ++ r)%list end.
  eapply (il_include _ _ _ _ _ _ "b" [] ["/b"] [" d"]); [nomap|intros []|now split|reflexivity| | | | |].
  { change ["/b"] with [path_of "/" "b"]. eapply tg_file; [no_magic|reflexivity]. }
  { match goal with |- contents _ _ _ _ ?B => rewrite <- (app_nil_r B) end. eapply (ct_file _ _ _ "/b" fmt_b (ForestTools.forest_of (lex [] fmt_b))); [reflexivity|vm_compute; reflexivity|apply all_wf; vm_compute; reflexivity| |apply ct_nil].
    match goal with |- inlined _ _ _ ?F _ => evalF F end.
    apply il_block; [nomap|intros []|copies|copies| |].
    - apply il_same; [left; inmap|copies|apply il_nil].
    - apply il_same; [right; right; split; [reflexivity|nofollow]|copies|]. apply il_same; [exact I|copies|apply il_nil]. }
  { apply rm_word; [nohash|]. eapply rm_comment; [reflexivity|reflexivity|constructor]. }
  { constructor; [|constructor]. eexists. split; [reflexivity|split; [reflexivity|split; reflexivity]]. }
  apply il_block; [nomap|intros []|copies|copies| |apply il_nil].
  apply il_block; [nomap|intros []|copies|copies| |apply il_nil].
  apply il_same; [right; right; split; [reflexivity|nofollow]|copies|apply il_nil].
Qed.
