(** C86: indentation. *)
From Verif Require Export SpecIndent RoundTop.
Local Open Scope string_scope.

Section Words.
  Variables (o : popts) (op : string -> string + string).
  Hypothesis A : forall f, same_words (o_lexers o) (o_open o f) (op f).
  Let o' := with_open o op.
  Lemma decide_words : forall dir ctx d term st, decide o' dir ctx d term st = decide o dir ctx d term st.
  Proof.
    intros dir ctx d term st. unfold decide. change (analyze o') with (analyze o). change (handle_error o') with (handle_error o).
    change (o_ignore o') with (o_ignore o). change (o_stop o') with (o_stop o). change (o_single o') with (o_single o).
    destruct (match read_slice (p_heap st) ctx with [] => None | _ => _ end); [reflexivity|]. destruct (mem_str _ _); [reflexivity|].
    destruct (analyze o _ d term _); [reflexivity|]. destruct (if String.eqb (d_name d) "if" then _ else _) as [args|]; [|reflexivity].
    cbv zeta. destruct (_ && _)%bool; [|reflexivity]. unfold do_include. destruct (d_args (set_args d args)) as [|a r]; [reflexivity|]. cbv zeta.
    destruct (has_magic _); [reflexivity|]. change (o_open o') with op. pose proof (A (resolve dir a)) as W. unfold same_words in W.
    destruct (o_open o (resolve dir a)), (op (resolve dir a)); try contradiction; [reflexivity|]. subst. reflexivity.
  Qed.
  Lemma parse_words : forall dir fuel ctx toks st, parse o' dir fuel ctx toks st = parse o dir fuel ctx toks st.
  Proof.
    intros dir. induction fuel as [|fuel IH]; intros ctx toks st; [reflexivity|]. destruct toks as [|t toks]; [reflexivity|]. cbn [parse].
    change (o_comments o') with (o_comments o). change (file_label o') with (file_label o).
    destruct (t_err t); [reflexivity|]. destruct (tok_is t "}"); [reflexivity|]. destruct (tok_comment t); [now rewrite IH|].
    destruct (read_args (o_comments o) toks) as [[[[args cs] term] rest]|]; [|reflexivity]. rewrite decide_words.
    destruct (decide o dir ctx _ term st) as [d s|s|s e|s|e s|] eqn:D; rewrite ?IH; try reflexivity.
    all: destruct (String.eqb term "{"); [|reflexivity].
    all: destruct (enter_block _ _ _) as [h inner]; rewrite IH; destruct (parse o dir fuel inner rest _); try reflexivity; now rewrite IH.
  Qed.
  Lemma file_words : forall dir path ctx st, parse_file o' dir path ctx st = parse_file o dir path ctx st.
  Proof.
    intros dir path ctx st. unfold parse_file. change (o_open o') with op. pose proof (A path) as W. unfold same_words in W.
    destruct (o_open o path), (op path); try contradiction; [|subst; reflexivity]. change (o_lexers o') with (o_lexers o). rewrite <- W, parse_words. reflexivity.
  Qed.
  Lemma files_words : forall fuel dir st, run_files fuel o' dir st = run_files fuel o dir st.
  Proof.
    induction fuel as [|fuel IH]; intros dir st; cbn [run_files]; destruct (p_queue st) as [|[path ctx] q]; auto.
    rewrite file_words. destruct (parse_file o dir path ctx _); auto.
  Qed.
  Lemma main_words : forall fuel filename, parse_main fuel o' filename = parse_main fuel o filename.
  Proof. intros fuel filename. unfold parse_main, collect. rewrite files_words. reflexivity. Qed.
End Words.

Lemma indent_tokens : forall a b ds, same_style a b -> ascii_right (b_print a) -> b_ext a = [] -> (0 <= b_indent a)%Z -> (0 <= b_indent b)%Z ->
  writables (b_print a) not_note ds = true -> exists t t', build a ds = Some t /\ build b ds = Some t' /\ lex [] t = lex [] t'.
Proof.
  intros a b ds [H P E] AR NE IA IB W. destruct (built_text a ds AR NE IA W) as (t & B & L & _).
  rewrite <- P in AR, W. rewrite <- E in NE. destruct (built_text b ds AR NE IB W) as (t' & B' & L' & _).
  exists t, t'. repeat split; auto. congruence.
Qed.
Lemma indent_main : forall a b o op fuel filename, same_style a b -> ascii_right (b_print a) -> b_ext a = [] -> (0 <= b_indent a)%Z -> (0 <= b_indent b)%Z ->
  o_lexers o = [] -> (forall f, reindented a b (writables (b_print a) not_note) (o_open o f) (op f)) ->
  parse_main fuel (with_open o op) filename = parse_main fuel o filename.
Proof.
  intros a b o op fuel filename S AR NE IA IB NL R. apply main_words. intros f. rewrite NL. destruct (R f) as [[s|m]|ds t t' W B B']; cbn; auto.
  destruct (indent_tokens a b ds S AR NE IA IB W) as (u & u' & U & U' & L). congruence.
Qed.
