(** Which arguments survive quoting (C08). *)
From Verif Require Export SpecLayout Lex.
Local Open Scope string_scope.

(** [e] written as the argument of a directive is read back as one token with value [s]. *)
Definition reads_back (e s : string) : Prop := exists q,
  map (fun t => (t_val t, t_quoted t, t_err t)) (lex [] ("x " ++ e ++ ";")) =
  [("x", false, None); (s, q, None); (";", false, None)].

(** Characters with their backslashes; [true]: a backslash is left over. *)
Fixpoint pieces_of (esc : bool) (rs : list string) : list piece * bool :=
  match rs with
  | [] => ([], esc)
  | r :: rs =>
    if esc then let '(ps, d) := pieces_of false rs in (Esc r :: ps, d)
    else if String.eqb r "\" then pieces_of true rs
    else let '(ps, d) := pieces_of false rs in (Raw r :: ps, d)
  end.
Definition starts_word (p : piece) : bool :=
  match p with
  | Raw r => (negb (white r) && negb (mem r (separators ++ quotes ++ ["#"])%list))%bool
  | Esc _ => true
  end.
(** A text that can stand unquoted as one word. *)
Definition bare_word (s : string) : bool :=
  (valid_utf8 s && negb (str_exists (Ascii.eqb "013"%char) s) &&
   match pieces_of false (scan_runes s) with
   | (p :: ps, false) => starts_word p && word_rest false (String.eqb (char_of p) "$") ps
   | _ => false
   end)%bool.
(** A text that can stand in quotes: printable, with no odd run of backslashes at the
    end nor (if a double quote forces single quotes) before a single quote. *)
Fixpoint even_runs (single odd : bool) (s : string) : bool :=
  match s with
  | "" => negb odd
  | String c r =>
    if Ascii.eqb c "\" then even_runs single (negb odd) r
    else if (single && Ascii.eqb c "'")%bool then (negb odd && even_runs single false r)%bool
    else even_runs single false r
  end.
Definition has_dq (s : string) : bool := str_exists (Ascii.eqb "034"%char) s.
Definition quotable (pr : N -> bool) (s : string) : bool :=
  (valid_utf8 s && forallb pr (runes s) && even_runs (has_dq s) false s)%bool.
(** strconv.IsPrint is right on ASCII. *)
Definition ascii_right (pr : N -> bool) : Prop := forall n, (n < 128)%N -> pr n = in_rng 32 126 n.
