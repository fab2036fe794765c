(** C54: how any text divides into items, and what the lexer makes of them. *)
From Verif Require Export SpecLayout.
Local Open Scope string_scope.

(** The text that is read: a byte that belongs to no character counts as U+FFFD. *)
Inductive repaired : string -> string -> Prop :=
| rp_end : repaired "" ""
| rp_char : forall r n s t, r <> "" -> decode_rune r = (n, slen r, true) -> repaired s t -> repaired (r ++ s) (r ++ t)
| rp_byte : forall c s n w t, decode_rune (String c s) = (n, w, false) -> repaired s t ->
    repaired (String c s) (error_rune_text ++ t).

(** Words as in SpecLayout, with two additions: one may start with an escaped newline, and the
    last one of a text may end inside "${" ([unclosed]). *)
Fixpoint word_tail (unclosed var dollar : bool) (ps : list piece) : bool :=
  match ps with
  | [] => Bool.eqb var unclosed
  | p :: ps =>
    (piece_ok p &&
     if var then
       if (String.eqb (char_of p) "}" || match p with Raw r => white r | Esc _ => false end)%bool
       then word_tail unclosed false false ps else word_tail unclosed true false ps
     else match p with
     | Raw r =>
       if (dollar && String.eqb r "{")%bool then word_tail unclosed true false ps
       else negb (white r) && negb (mem r separators) && word_tail unclosed false (String.eqb r "$") ps
     | Esc r => word_tail unclosed false (String.eqb r "$") ps
     end)%bool
  end.
Definition word_is (unclosed : bool) (ps : list piece) : bool :=
  match ps with
  | [] => false
  | p :: rest =>
    (match p with Raw r => negb (white r) && negb (mem r (separators ++ quotes ++ ["#"])%list) | Esc _ => true end &&
     piece_ok p && word_tail unclosed false (String.eqb (char_of p) "$") rest)%bool
  end.
(** Items; the last one of a text may be unclosed: a quoted string without its end, or such a word. *)
Definition item_ok (unclosed : bool) (x : lexeme) : bool :=
  match x with
  | Word ps => word_is unclosed ps
  | Quoted q ps => lexeme_ok x
  | Sep _ | Note _ => (negb unclosed && lexeme_ok x)%bool
  end.
Definition item_src (unclosed : bool) (x : lexeme) : string :=
  match x with
  | Quoted q ps => q ++ srcs ps ++ (if unclosed then "" else q)
  | _ => lexeme_src x
  end.

(** What may stand between items: white space, and directly behind a comment an escaped newline. *)
Definition between (x : option lexeme) (g : gap) (y : option lexeme) : bool :=
  match x with
  | Some (Word ps) =>
    (gap_ok g && match g, y with
                 | [], Some (Sep c) => negb (ends_dollar ps && String.eqb c "{")
                 | [], Some _ => false
                 | _, _ => true
                 end)%bool
  | Some (Note _) =>
    match g with
    | r :: g => ((is_nl r || String.eqb r ("\" ++ s_nl)) && gap_ok g)%bool
    | [] => match y with Some _ => false | None => true end
    end
  | _ => gap_ok g
  end.
Inductive ending := Blank (g : gap) | Unclosed (g : gap) (x : lexeme).
Fixpoint divided (prev : option lexeme) (L : list (gap * lexeme)) (e : ending) : bool :=
  match L with
  | [] => match e with
          | Blank g => between prev g None
          | Unclosed g x => (between prev g (Some x) && item_ok true x)%bool
          end
  | (g, x) :: L => (between prev g (Some x) && item_ok false x && divided (Some x) L e)%bool
  end.
Fixpoint text_of (L : list (gap * lexeme)) (e : ending) : string :=
  match L with
  | [] => match e with Blank g => concat_str g | Unclosed g x => concat_str g ++ item_src true x end
  | (g, x) :: L => concat_str g ++ lexeme_src x ++ text_of L e
  end.

(** Each item as a token, with the line it is on.  A token shows the line on which it begins;
    a separator directly behind a word shows the line of the word. *)
Definition begins (x : lexeme) (line : Z) : Z :=
  match x with Word (Esc r :: _) => if is_nl r then (line + 1)%Z else line | _ => line end.
Definition shows (prev : option (lexeme * Z)) (g : gap) (x : lexeme) (line : Z) : Z :=
  match prev, g, x with
  | Some (Word _, shown), [], Sep _ => shown
  | _, _, _ => begins x line
  end.
Fixpoint entries (line : Z) (prev : option (lexeme * Z)) (L : list (gap * lexeme)) (e : ending) : list (token * Z) :=
  match L with
  | [] => match e with
          | Blank _ => []
          | Unclosed g x =>
            let line := (line + newlines (concat_str g))%Z in
            if String.eqb (lexeme_val x) "" then [] else [(Tok (lexeme_val x) (begins x line) (lexeme_quoted x) None, line)]
          end
  | (g, x) :: L =>
    let line := (line + newlines (concat_str g))%Z in
    let shown := shows prev g x line in
    (Tok (lexeme_val x) shown (lexeme_quoted x) None, line) :: entries (line + newlines (lexeme_src x)) (Some (x, shown)) L e
  end.
(** The line shown by the last item. *)
Fixpoint last_shown (line : Z) (prev : option (lexeme * Z)) (L : list (gap * lexeme)) (e : ending) : Z :=
  match L with
  | [] => match e with
          | Blank _ => match prev with Some (_, shown) => shown | None => 1%Z end
          | Unclosed g x => begins x (line + newlines (concat_str g))
          end
  | (g, x) :: L =>
    let line := (line + newlines (concat_str g))%Z in
    last_shown (line + newlines (lexeme_src x)) (Some (x, shows prev g x line)) L e
  end.

(** Up to the first misplaced separator everything is a token; then comes an error. *)
Definition failure (shown line : Z) (what : string) : token :=
  Tok "" shown false (Some (EParse (PE what (Some "lexer") (Some line) "" "" None))).
Definition orderly (toks : list token) : Prop := nested toks /\ spaced toks.
Inductive outcome (shown line : Z) : list (token * Z) -> list token -> Prop :=
| oc_good : forall l, orderly (map fst l) -> net (map fst l) = 0%Z -> outcome shown line l (map fst l)
| oc_twice : forall a t n b, orderly (map fst a) -> sepb t = true -> t_val t <> "}" -> after_sep false (map fst a) = true ->
    outcome shown line (a ++ (t, n) :: b) (map fst a ++ [failure (t_line t) n ("unexpected """ ++ t_val t ++ """")])
| oc_close : forall a t n b, orderly (map fst a) -> closesb t = true -> net (map fst a) = 0%Z ->
    outcome shown line (a ++ (t, n) :: b) (map fst a ++ [failure (t_line t) n "unexpected ""}"""])
| oc_open : forall l, orderly (map fst l) -> (0 < net (map fst l))%Z ->
    outcome shown line l (map fst l ++ [failure shown line "unexpected end of file, expecting ""}"""]).

(** A division of the text [s]: carriage returns and a backslash at the very end do not count. *)
Definition division (s : string) (L : list (gap * lexeme)) (e : ending) : Prop :=
  exists t b, repaired s t /\ (b = "" \/ b = "\") /\ no_cr t = text_of L e ++ b /\ divided None L e = true.
(** What the lexer is to send for it. *)
Definition read_as (L : list (gap * lexeme)) (e : ending) (toks : list token) : Prop :=
  outcome (last_shown 1 None L e) (1 + newlines (text_of L e)) (entries 1 None L e) toks.
