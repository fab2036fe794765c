(** C54: the lexer on every text. *)
From Verif Require Import ScanProofs.
Local Open Scope string_scope.

(** Every text divides into items, and the lexer sends what [read_as] says of them. *)
Theorem C54_total : forall s, exists L e, division s L e /\ read_as L e (lex [] s).
Proof. intros s. destruct (scan_total s) as (L & e & D). exists L, e. split; [exact D|exact (scan_sound s L e D)]. Qed.
Print Assumptions C54_total.
(** The division decides the tokens: they are these and no others. *)
Theorem C54_exact : forall s L e toks, division s L e -> (read_as L e toks <-> toks = lex [] s).
Proof. exact scan_exact. Qed.
Print Assumptions C54_exact.

(** A text with a word over two lines, a comment, and a string that is never closed. *)
Definition case_text : string := "a\" ++ s_nl ++ "b{#x" ++ s_nl ++ "c ""d e".
Definition case_items : list (gap * lexeme) :=
  [([], Word [Raw "a"; Esc s_nl; Raw "b"]); ([], Sep "{"); ([], Note [Raw "x"]); ([s_nl], Word [Raw "c"])].
Definition case_end : ending := Unclosed [" "] (Quoted s_dq [Raw "d"; Raw " "; Raw "e"]).
Definition case_toks : list token :=
  [Tok ("a\" ++ s_nl ++ "b") 1 false None; Tok "{" 1 false None; Tok "#x" 2 false None; Tok "c" 3 false None; Tok "d e" 3 true None;
   failure 3 3 "unexpected end of file, expecting ""}"""].
Example C54_case : division case_text case_items case_end /\ read_as case_items case_end case_toks /\ lex [] case_text = case_toks.
Proof.
  assert (D : division case_text case_items case_end).
  { exists case_text, "". split; [apply repaired_valid; vm_compute; reflexivity|]. split; [now left|]. split; vm_compute; reflexivity. }
  assert (E : lex [] case_text = case_toks) by (vm_compute; reflexivity). split; [exact D|]. split; [|exact E]. rewrite <- E. exact (scan_sound _ _ _ D).
Qed.
(** A second ";" two lines below the first: the error is on line 3, and nothing follows it. *)
Definition case_twice : string := "a;" ++ s_nl ++ s_nl ++ ";b ${x".
Example C54_twice : division case_twice [([], Word [Raw "a"]); ([], Sep ";"); ([s_nl; s_nl], Sep ";"); ([], Word [Raw "b"])]
    (Unclosed [" "] (Word [Raw "$"; Raw "{"; Raw "x"])) /\
  lex [] case_twice = [Tok "a" 1 false None; Tok ";" 1 false None; failure 3 3 "unexpected "";"""].
Proof.
  split; [|vm_compute; reflexivity]. exists case_twice, "". split; [apply repaired_valid; vm_compute; reflexivity|]. split; [now left|]. split; vm_compute; reflexivity.
Qed.
(** A byte that is no character, a carriage return, and a backslash at the end. *)
Definition case_bytes : string := "a" ++ str1 "255"%char ++ s_cr ++ "; \".
Example C54_bytes : division case_bytes [([], Word [Raw "a"; Raw error_rune_text]); ([], Sep ";")] (Blank [" "]) /\
  lex [] case_bytes = [Tok ("a" ++ error_rune_text) 1 false None; Tok ";" 1 false None].
Proof.
  split; [|vm_compute; reflexivity]. exists ("a" ++ error_rune_text ++ s_cr ++ "; \"), "\". split.
  - apply (rp_char "a" 97%N); [discriminate|reflexivity|]. apply (rp_byte "255"%char _ rune_error 1); [reflexivity|]. apply repaired_valid. reflexivity.
  - split; [now right|]. split; vm_compute; reflexivity.
Qed.
