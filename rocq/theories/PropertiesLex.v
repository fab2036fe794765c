(** Properties of Lex (C01-C04, C06). *)
From Verif Require Import LexProofs LayoutProofs.
Local Open Scope string_scope.

(** C01: a text laid out from lexical items is lexed into exactly those items, each
    with its value, its quoted flag and the line it starts on. *)
Theorem C01_layout : forall L last, laid None L last = true -> proper (tokens_of 1 L) ->
  lex [] (render L last) = tokens_of 1 L.
Proof. exact lex_layout. Qed.
Print Assumptions C01_layout.

Definition lay_items : list (gap * lexeme) :=
  [([], Word [Raw "h"; Raw "t"]);
   ([s_cr; s_nl; " "], Sep "{");
   ([], Note [Raw " "; Raw "{"; Esc "\"]);
   ([s_cr; s_nl; String "194" (str1 "160")], Word [Raw "$"; Raw "{"; Raw ";"; Raw "}"; Raw s_dq; Esc " "]);
   ([" "], Quoted s_dq [Raw "a"; Raw s_nl; Esc s_dq; Esc "n"; Raw "#"]);
   ([], Quoted s_sq []);
   ([], Word [Raw (String "206" (str1 "177"))]);
   ([], Sep ";");
   ([s_nl], Sep "}")].
Example C01_case : laid None lay_items [s_nl; " "] = true /\ proper (tokens_of 1 lay_items) /\
  tokens_of 1 lay_items =
    [Tok "ht" 1 false None; Tok "{" 2 false None; Tok "# {\\" 2 false None;
     Tok ("${;}" ++ s_dq ++ "\ ") 3 false None; Tok ("a" ++ s_nl ++ s_dq ++ "\n#") 3 true None; Tok "" 4 true None;
     Tok (String "206" (str1 "177")) 4 false None; Tok ";" 4 false None; Tok "}" 5 false None].
Proof.
  split; [vm_compute; reflexivity|]. split; [|vm_compute; reflexivity].
  destruct (checks_sound (tokens_of 1 lay_items)) as [A B]; [vm_compute; reflexivity|]. split; [auto|split; auto; vm_compute; reflexivity].
Qed.

(** With carriage returns anywhere, also inside items. *)
Theorem C01_layout_cr : forall s L last, valid_utf8 s = true -> no_cr s = no_cr (render L last) ->
  valid_utf8 (render L last) = true -> laid None L last = true -> proper (tokens_of 1 L) ->
  lex [] s = tokens_of 1 L.
Proof. intros s L last V E V' LD PR. rewrite <- (lex_no_cr s V), E, (lex_no_cr _ V'). now apply lex_layout. Qed.
Print Assumptions C01_layout_cr.
Example C01_cr_case : let s := "h" ++ s_cr ++ "t {# {\\" ++ s_cr ++ s_nl ++ "}" in
  let L := [([], Word [Raw "h"; Raw "t"]); ([" "], Sep "{"); ([], Note [Raw " "; Raw "{"; Esc "\"]); ([s_nl], Sep "}")] in
  valid_utf8 s = true /\ no_cr s = no_cr (render L []) /\ valid_utf8 (render L []) = true /\ laid None L [] = true /\ proper (tokens_of 1 L) /\
  s <> no_cr s.
Proof.
  intros s L. destruct (checks_sound (tokens_of 1 L)) as [A B]; [vm_compute; reflexivity|].
  do 4 (split; [vm_compute; reflexivity|]). split; [|vm_compute; discriminate].
  split; [auto|split; auto; vm_compute; reflexivity].
Qed.

(** A word that spans lines may not abut a separator: the separator would be given
    the word's first line. *)
Theorem C01_abutting_refuted : exists ps c, lexeme_ok (Word ps) = true /\ lexeme_ok (Sep c) = true /\
  map t_val (lex [] (srcs ps ++ c)) = [srcs ps; c] /\
  map t_line (lex [] (srcs ps ++ c)) <> [1; 1 + newlines (srcs ps)]%Z.
Proof. exists [Raw "a"; Esc s_nl], ";". do 3 (split; [vm_compute; reflexivity|]). vm_compute. discriminate. Qed.
Print Assumptions C01_abutting_refuted.

(** C02: removing the carriage returns of a text changes no token. *)
Theorem C02_carriage_returns : forall s, valid_utf8 s = true -> lex [] (no_cr s) = lex [] s.
Proof. exact lex_no_cr. Qed.
Print Assumptions C02_carriage_returns.
Example C02_case : let s := "a \" ++ s_cr ++ "n" ++ s_dq ++ s_cr ++ s_nl ++ "b;" in
  valid_utf8 s = true /\ no_cr s <> s /\ map t_val (lex [] s) = ["a"; "\n" ++ s_dq; "b"; ";"].
Proof. intros s. split; [vm_compute; reflexivity|]. split; [vm_compute; discriminate|vm_compute; reflexivity]. Qed.
(** For bytes that are not UTF-8 the removal can join the halves of a character. *)
Theorem C02_bytes_refuted : exists s, lex [] (no_cr s) <> lex [] s.
Proof. exists (String "226" (s_cr ++ String "130" (str1 "172"))). vm_compute. discriminate. Qed.
Print Assumptions C02_bytes_refuted.

(** C03: an error is the last token and names the rule broken by what precedes it;
    without one, braces and separators are proper. *)
Theorem C03_braces : forall s, verdict (lex [] s).
Proof. exact lex_verdict. Qed.
Print Assumptions C03_braces.
Example C03_cases :
  map t_err (lex [] "a { b; # x
    ; }") = [None; None; None; None; None;
             Some (EParse (PE ("unexpected " ++ s_dq ++ ";" ++ s_dq) (Some "lexer") (Some 2%Z) "" "" None))] /\
  map t_val (lex [] "a { b; } }") = ["a"; "{"; "b"; ";"; "}"; ""] /\
  no_errors (lex [] "a { b '{'; # } }
    }").
Proof. split; [vm_compute; reflexivity|]. split; [vm_compute; reflexivity|]. vm_compute. repeat constructor. Qed.

(** C04: lines ascend between 1 and one more than the number of newlines. *)
Theorem C04_lines : forall s, ascending 1 (1 + newlines s) (lex [] s).
Proof. exact lex_lines. Qed.
Print Assumptions C04_lines.
Example C04_case : map t_line (lex [] ("a" ++ s_nl ++ s_nl ++ "b '" ++ s_nl ++ "' c;" ++ s_nl)) = [1; 3; 3; 4; 4]%Z.
Proof. vm_compute. reflexivity. Qed.

(** C06: every token is valid UTF-8; unquoted ones have one of four shapes. *)
Theorem C06_shapes : forall s t, In t (lex [] s) ->
  valid_utf8 (t_val t) = true /\ (t_err t = None -> token_shape t /\ (t_quoted t = false -> t_val t <> "")).
Proof. exact lex_shapes. Qed.
Print Assumptions C06_shapes.
Example C06_case : map t_val (lex [] ("a" ++ str1 "255" ++ "# " ++ s_dq ++ str1 "255" ++ s_dq ++ "# c" ++ s_nl ++ "{")) =
  ["a" ++ error_rune_text ++ "#"; error_rune_text; "# c"; "{"; ""].
Proof. vm_compute. reflexivity. Qed.
