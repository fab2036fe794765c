(** C57: the lexer with external lexers on every text. *)
From Verif Require Import HandProofs.
Local Open Scope string_scope.

(** Whatever is registered, the tokens are those of [lexing] and no others. *)
Theorem C57_exact : forall ext s toks, lexing ext true 1 1 [] (scan_runes s) toks <-> toks = lex ext s.
Proof. exact hand_exact. Qed.
Print Assumptions C57_exact.

(** A lexer for "raw" that takes all up to the next "!" and sends it. *)
Fixpoint upto (rs : list string) : list string := match rs with [] => [] | r :: rs => if String.eqb r "!" then [r] else r :: upto rs end.
Definition bang : ext_lexers := [("raw", fun _ line rs => ([Tok (concat_str (upto rs)) line true None], List.length (upto rs)))].
(** The character behind the name is read again behind what the lexer took: here the "{" of line 1,
    then the line break of line 3. *)
Definition hand_text : string := "a {raw{ x" ++ s_nl ++ "y! 'raw' ; ! b" ++ s_nl ++ "raw" ++ s_nl ++ "z!} c".
Definition hand_toks : list token :=
  [Tok "a" 1 false None; Tok "{" 1 false None; Tok "raw" 1 false None; Tok (" x" ++ s_nl ++ "y!") 1 true None; Tok "{" 2 false None;
   Tok "raw" 2 true None; Tok " ; !" 2 true None; Tok "b" 2 false None; Tok "raw" 3 false None; Tok "z!" 4 true None; Tok "}" 4 false None; Tok "c" 4 false None;
   failure 4 4 "unexpected end of file, expecting ""}"""].
Example C57_case : lexing bang true 1 1 [] (scan_runes hand_text) hand_toks /\ lex [] hand_text <> hand_toks.
Proof. split; [|vm_compute; discriminate]. apply C57_exact. vm_compute. reflexivity. Qed.
(** The first hand-over of that text: behind "raw" on line 1. *)
Example C57_first : exists f, hands bang true 1 [] ["a"; " "; "{"; "r"; "a"; "w"] "{"
    [([], Word [Raw "a"]); ([" "], Sep "{"); ([], Word [Raw "r"; Raw "a"; Raw "w"])] (Blank []) "" (Word [Raw "r"; Raw "a"; Raw "w"]) f /\
  fst (f "raw" 1%Z (scan_runes "x! y")) = [Tok "x!" 1 true None] /\ snd (f "raw" 1%Z (scan_runes "x! y")) = 2.
Proof.
  eexists. split; [split|].
  - split; [vm_compute; reflexivity|]. split; [now left|vm_compute; reflexivity].
  - split; [reflexivity|discriminate].
  - reflexivity.
  - split; [vm_compute; discriminate|vm_compute; reflexivity].
  - vm_compute. reflexivity.
  - apply checks_sound. vm_compute. reflexivity.
  - split; vm_compute; reflexivity.
Qed.
(** As an argument on the line of its directive "raw" is a word like any other; behind a line break it
    is not. *)
Example C57_place : lexing bang true 1 1 [] (scan_runes "set raw x!;") [Tok "set" 1 false None; Tok "raw" 1 false None; Tok "x!" 1 false None; Tok ";" 1 false None] /\
  lexing bang true 1 1 [] (scan_runes ("set " ++ s_nl ++ "raw x!;")) [Tok "set" 1 false None; Tok "raw" 2 false None; Tok "x!" 2 true None; Tok ";" 2 false None].
Proof. split; apply C57_exact; vm_compute; reflexivity. Qed.
