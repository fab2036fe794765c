(** lex.go: the tokenizer as a state machine over the runes delivered by
    bufio.Scanner/ScanRunes. *)
From Verif Require Export Types.
Local Open Scope string_scope.

(** util.go:30-32 [isSpace]. *)
Definition is_space (s : string) : bool := Nat.eqb (slen (trim_space s)) 0.
(** util.go:34-36 [isEOL]. *)
Definition is_eol (s : string) : bool := has_suffix s s_nl.

(** lex.go:24-32 [state]. *)
Inductive lex_state := SkipSpace | InWord | InComment | InVar | InQuote.

Definition lex_state_eqb (a b : lex_state) : bool :=
  match a, b with
  | SkipSpace, SkipSpace | InWord, InWord | InComment, InComment
  | InVar, InVar | InQuote, InQuote => true
  | _, _ => false
  end.

(** lex.go:48-54, 107-131 [Lexer] and [SubScanner]: an external lexer sees the
    matched token, the current line and the remaining runes; it produces tokens
    and the number of successful Scan calls it made.  The line it leaves behind
    is determined by the runes it scanned.  (An external lexer that keeps using
    its SubScanner after closing its channel is not modelled.) *)
Definition ext_lexer := string -> Z -> list string -> list token * nat.

(** lex.go:60-63 [LexOptions.extLexers]. *)
Definition ext_lexers := list (string * ext_lexer).

(** lex.go:70-83 [registerLexer.applyLexOptions] and lex.go:92-95: registrations
    are applied in order, each assigns all its names. *)
Definition apply_lexer (m : ext_lexers) (r : ext_lexer * list string) : ext_lexers :=
  fold_left (fun m s => assoc_set s (fst r) m) (snd r) m.
Definition apply_lexers (rs : list (ext_lexer * list string)) : ext_lexers :=
  fold_left apply_lexer rs [].

(** lex.go:135-146: local variables of [tokenize]. *)
Record lst := Lst {
  l_tok : string;        (* token *)
  l_line : Z;            (* tokenLine *)
  l_start : Z;           (* tokenStartLine *)
  l_st : lex_state;      (* lexState *)
  l_new : bool;          (* newToken *)
  l_dup : bool;          (* dupSpecialChar *)
  l_esc : bool;          (* esc *)
  l_depth : Z;           (* depth *)
  l_quote : string;      (* quote *)
  l_ntd : bool           (* nextTokenIsDirective *) }.

Definition lex_init : lst :=
  Lst EmptyString 1 1 SkipSpace false false false 0 EmptyString true.

Definition set_tok s v := Lst v (l_line s) (l_start s) (l_st s) (l_new s) (l_dup s) (l_esc s) (l_depth s) (l_quote s) (l_ntd s).
Definition set_line s v := Lst (l_tok s) v (l_start s) (l_st s) (l_new s) (l_dup s) (l_esc s) (l_depth s) (l_quote s) (l_ntd s).
Definition set_start s v := Lst (l_tok s) (l_line s) v (l_st s) (l_new s) (l_dup s) (l_esc s) (l_depth s) (l_quote s) (l_ntd s).
Definition set_st s v := Lst (l_tok s) (l_line s) (l_start s) v (l_new s) (l_dup s) (l_esc s) (l_depth s) (l_quote s) (l_ntd s).
Definition set_new s v := Lst (l_tok s) (l_line s) (l_start s) (l_st s) v (l_dup s) (l_esc s) (l_depth s) (l_quote s) (l_ntd s).
Definition set_dup s v := Lst (l_tok s) (l_line s) (l_start s) (l_st s) (l_new s) v (l_esc s) (l_depth s) (l_quote s) (l_ntd s).
Definition set_esc s v := Lst (l_tok s) (l_line s) (l_start s) (l_st s) (l_new s) (l_dup s) v (l_depth s) (l_quote s) (l_ntd s).
Definition set_depth s v := Lst (l_tok s) (l_line s) (l_start s) (l_st s) (l_new s) (l_dup s) (l_esc s) v (l_quote s) (l_ntd s).
Definition set_quote s v := Lst (l_tok s) (l_line s) (l_start s) (l_st s) (l_new s) (l_dup s) (l_esc s) (l_depth s) v (l_ntd s).
Definition set_ntd s v := Lst (l_tok s) (l_line s) (l_start s) (l_st s) (l_new s) (l_dup s) (l_esc s) (l_depth s) (l_quote s) v.

Definition str_nonempty (s : string) : bool := negb (String.eqb s EmptyString).

(** lex.go:151-155 [emit]: the token sent and the state after it. *)
Definition emit_tok (s : lst) (line : Z) (quoted : bool) (err : option goerr) : token :=
  Tok (l_tok s) line quoted err.
Definition emit_st (s : lst) : lst := set_st (set_tok s EmptyString) SkipSpace.

(** token.WriteString(la) *)
Definition write (s : lst) (la : string) : lst := set_tok s (l_tok s ++ la).

(** &ParseError{File: &lexerFile, What: what, Line: &tokenLine}.  tokenLine is
    not written after the error is sent, so its current value is recorded. *)
Definition lex_error (s : lst) (what : string) : option goerr :=
  Some (EParse (PE what (Some "lexer") (Some (l_line s)) EmptyString EmptyString None)).

(** Result of one pass through the loop body: next state, tokens sent, number of
    runes an external lexer took, and control. *)
Inductive lctl := Next | ReEval (la : string) | Stop.
Record lres := LRes { r_st : lst; r_toks : list token; r_ctl : lctl }.

Definition is_special (la : string) : bool :=
  (String.eqb la "{" || String.eqb la "}" || String.eqb la ";")%bool.

(** lex.go:260-298: special characters inside state inWord. *)
Definition lex_special (s : lst) (la : string) : lres :=
  (* 263-265 *)
  let pre := if str_nonempty (l_tok s) then [emit_tok s (l_start s) false None] else [] in
  let s1 := if str_nonempty (l_tok s) then emit_st s else s in
  (* 268-276 *)
  if (l_dup s1 && negb (String.eqb la "}"))%bool then
    LRes (emit_st s1)
         (pre ++ [emit_tok s1 (l_start s1) false
                    (lex_error s1 ("unexpected " ++ s_dq ++ la ++ s_dq))]) Stop
  else
    let s2 := set_dup s1 true in
    (* 280-291 *)
    let s3 := if String.eqb la "{" then set_depth s2 (l_depth s2 + 1)
              else if String.eqb la "}" then set_depth s2 (l_depth s2 - 1)
              else s2 in
    if (String.eqb la "}" && Z.ltb (l_depth s3) 0)%bool then
      LRes (emit_st s3)
           (pre ++ [emit_tok s3 (l_start s3) false
                      (lex_error s3 ("unexpected " ++ s_dq ++ "}" ++ s_dq))]) Stop
    else
      (* 293-297 *)
      let s4 := write s3 la in
      LRes (set_ntd (emit_st s4) true)
           (pre ++ [emit_tok s4 (l_start s4) false None]) Next.

(** lex.go:209-327: the switch on lexState. *)
Definition lex_switch (s : lst) (la : string) : lres :=
  match l_st s with
  | SkipSpace =>                                             (* 210-217 *)
    if is_space la then LRes s [] Next
    else LRes (set_start (set_new (set_st s InWord) true) (l_line s)) [] (ReEval la)
  | InWord =>                                                (* 218-301 *)
    if (l_new s && String.eqb la "#")%bool then              (* 219-228 *)
      LRes (set_start (set_st (set_ntd (write (set_new s false) la) false) InComment)
                      (l_line s)) [] Next
    else
      let s := set_new s false in
      if is_space la then                                    (* 230-234 *)
        LRes (set_ntd (emit_st s) false) [emit_tok s (l_start s) false None] Next
      else if (str_nonempty (l_tok s) && has_suffix (l_tok s) "$"
               && String.eqb la "{")%bool then               (* 237-243 *)
        LRes (set_dup (set_st (write (set_ntd s false) la) InVar) false) [] Next
      else if (String.eqb la s_dq || String.eqb la s_sq)%bool then  (* 246-258 *)
        if str_nonempty (l_tok s) then
          LRes (set_dup (write s la) false) [] Next
        else
          LRes (set_dup (set_start (set_st (set_quote s la) InQuote) (l_line s)) false) [] Next
      else if is_special la then lex_special s la            (* 261-298 *)
      else LRes (write (set_dup s false) la) [] Next         (* 300-301 *)
  | InComment =>                                             (* 303-308 *)
    if is_eol la then LRes (emit_st s) [emit_tok s (l_start s) false None] Next
    else LRes (write s la) [] Next
  | InVar =>                                                 (* 310-316 *)
    let s := write s la in
    if (negb (has_suffix (l_tok s) "}") && negb (is_space la))%bool then LRes s [] Next
    else LRes (set_st s InWord) [] Next
  | InQuote =>                                               (* 318-326 *)
    if String.eqb la (l_quote s) then
      LRes (emit_st s) [emit_tok s (l_start s) true None] Next
    else
      let la := if String.eqb la ("\" ++ l_quote s) then l_quote s else la in
      LRes (write s la) [] Next
  end.

Definition count_eol (rs : list string) : Z :=
  fold_right (fun r n => if is_eol r then (n + 1)%Z else n) 0%Z rs.

(** lex.go:172-207: CR skipping, escapes, hand-over to an external lexer.
    Returns also the number of runes the external lexer consumed. *)
Definition lex_body (ext : ext_lexers) (s : lst) (la : string) (rest : list string)
  : lres * nat :=
  if (String.eqb la s_cr || String.eqb la ("\" ++ s_cr))%bool then (LRes s [] Next, 0)
  else if (String.eqb la "\" && negb (l_esc s))%bool then (LRes (set_esc s true) [] Next, 0)
  else
    let la := if l_esc s then "\" ++ la else la in
    let s := set_esc s false in
    match (if (str_nonempty (l_tok s) && l_ntd s)%bool then assoc (l_tok s) ext else None) with
    | Some f =>                                              (* 189-205 *)
      let last := l_st s in
      let t0 := emit_tok s (l_start s) (lex_state_eqb (l_st s) InQuote) None in
      let '(etoks, n) := f (l_tok s) (l_line s) rest in
      let s1 := set_line (emit_st s) (l_line s + count_eol (firstn n rest)) in
      if (lex_state_eqb last InQuote && String.eqb la (l_quote s1))%bool then
        (LRes s1 (t0 :: etoks) Next, n)
      else
        let r := lex_switch s1 la in
        (LRes (r_st r) (t0 :: etoks ++ r_toks r) (r_ctl r), n)
    | None => (lex_switch s la, 0)
    end.

(** lex.go:158-167: reading a rune. *)
Definition lex_read (s : lst) (la : string) : lst :=
  if is_eol la then set_ntd (set_line s (l_line s + 1)) true else s.

(** One rune: the body, run a second time on the same [la] when readNext was set
    to false (lex.go:168-170, 214).  The second run is in state inWord and never
    asks for a third. *)
Definition lex_step (ext : ext_lexers) (s : lst) (la : string) (rest : list string)
  : lres * nat :=
  let '(r, n) := lex_body ext (lex_read s la) la rest in
  match r_ctl r with
  | ReEval la' =>
    let '(r', n') := lex_body ext (r_st r) la' rest in
    (LRes (r_st r') (r_toks r ++ r_toks r') (r_ctl r'), n + n')
  | _ => (r, n)
  end.

(** lex.go:330-335: end of input. *)
Definition lex_finish (s : lst) : list token :=
  let pre := if str_nonempty (l_tok s)
             then [emit_tok s (l_start s) (lex_state_eqb (l_st s) InQuote) None] else [] in
  let s1 := if str_nonempty (l_tok s) then emit_st s else s in
  pre ++ (if Z.ltb 0 (l_depth s1)
          then [emit_tok s1 (l_start s1) false
                  (lex_error s1 ("unexpected end of file, expecting " ++ s_dq ++ "}" ++ s_dq))]
          else []).

(** lex.go:134-338 [tokenize] on the remaining runes; [skip] runes were already
    taken by an external lexer. *)
Fixpoint lex_run (ext : ext_lexers) (skip : nat) (s : lst) (rs : list string) : list token :=
  match rs with
  | [] => lex_finish s
  | la :: rest =>
    match skip with
    | S k => lex_run ext k s rest
    | O =>
      let '(r, n) := lex_step ext s la rest in
      match r_ctl r with
      | Stop => r_toks r
      | _ => r_toks r ++ lex_run ext n (r_st r) rest
      end
    end
  end%list.

Definition lex_runes (ext : ext_lexers) (rs : list string) : list token :=
  lex_run ext 0 lex_init rs.

(** lex.go:92-104 [LexWithOptions] / [Lex]: the sequence of tokens sent on the
    channel for the given input bytes.  A read error of the reader ends the scan
    like EOF (tokenize never looks at scanner.Err()), so "input" means the bytes
    delivered before EOF or error. *)
Definition lex (ext : ext_lexers) (input : string) : list token :=
  lex_runes ext (scan_runes input).
