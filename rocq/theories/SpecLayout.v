(** Laying out lexical items as configuration text (C01). *)
From Verif Require Export SpecLex.
Local Open Scope string_scope.

(** One UTF-8 encoded character. *)
Definition one_char (r : string) : bool :=
  match decode_rune r with (_, w, ok) => (ok && negb (String.eqb r "") && Nat.eqb w (slen r))%bool end.
Definition is_cr (r : string) : bool := String.eqb r s_cr.
Definition is_nl (r : string) : bool := String.eqb r s_nl.
Definition white (r : string) : bool :=
  match decode_rune r with (n, _, _) => is_space_rune n end.

(** Items are made of plain characters and of characters behind a backslash. *)
Inductive piece := Raw (r : string) | Esc (r : string).
Definition char_of (p : piece) : string := match p with Raw r | Esc r => r end.
Definition src (p : piece) : string := match p with Raw r => r | Esc r => "\" ++ r end.
Definition piece_ok (p : piece) : bool :=
  match p with
  | Raw r => (one_char r && negb (is_cr r) && negb (String.eqb r "\"))%bool
  | Esc r => (one_char r && negb (is_cr r))%bool
  end.
Definition srcs (ps : list piece) : string := concat_str (map src ps).

Inductive lexeme :=
| Word (ps : list piece)
| Quoted (q : string) (ps : list piece)
| Sep (c : string)
| Note (ps : list piece).

Definition separators : list string := ["{"; "}"; ";"].
Definition quotes : list string := [s_dq; s_sq].
Definition mem (x : string) (l : list string) : bool := existsb (String.eqb x) l.

(** Words.  [var]: inside "${...}"; [dollar]: the last character was "$". *)
Fixpoint word_rest (var dollar : bool) (ps : list piece) : bool :=
  match ps with
  | [] => negb var
  | p :: ps =>
    (piece_ok p &&
     if var then
       if (String.eqb (char_of p) "}" || match p with Raw r => white r | Esc _ => false end)%bool
       then word_rest false false ps else word_rest true false ps
     else match p with
     | Raw r =>
       if (dollar && String.eqb r "{")%bool then word_rest true false ps
       else negb (white r) && negb (mem r separators) && word_rest false (String.eqb r "$") ps
     | Esc r => word_rest false (String.eqb r "$") ps
     end)%bool
  end.
Definition word_ok (ps : list piece) : bool :=
  match ps with
  | [] => false
  | Raw r :: rest =>
    (piece_ok (Raw r) && negb (white r) && negb (mem r (separators ++ quotes ++ ["#"])%list) &&
     word_rest false (String.eqb r "$") rest)%bool
  | Esc r :: rest => (piece_ok (Esc r) && negb (is_nl r) && word_rest false (String.eqb r "$") rest)%bool
  end.
Definition lexeme_ok (x : lexeme) : bool :=
  match x with
  | Word ps => word_ok ps
  | Quoted q ps =>
    (mem q quotes && forallb (fun p => piece_ok p && match p with Raw r => negb (String.eqb r q) | Esc _ => true end) ps)%bool
  | Sep c => mem c separators
  | Note ps => forallb (fun p => piece_ok p && negb (is_nl (char_of p)))%bool ps
  end.
Definition lexeme_src (x : lexeme) : string :=
  match x with
  | Word ps => srcs ps
  | Quoted q ps => q ++ srcs ps ++ q
  | Sep c => c
  | Note ps => "#" ++ srcs ps
  end.
(** Inside quotes a backslash before the quote character is dropped; every other
    backslash stays in the value. *)
Definition unquote (q : string) (p : piece) : string :=
  match p with Raw r => r | Esc r => if String.eqb r q then q else "\" ++ r end.
Definition lexeme_val (x : lexeme) : string :=
  match x with
  | Word ps => srcs ps
  | Quoted q ps => concat_str (map (unquote q) ps)
  | Sep c => c
  | Note ps => "#" ++ srcs ps
  end.
Definition lexeme_quoted (x : lexeme) : bool := match x with Quoted _ _ => true | _ => false end.

(** A layout: each item behind its gap, and a last gap. *)
Definition gap := list string.
Definition gap_ok (g : gap) : bool := forallb (fun r => one_char r && white r)%bool g.
(** Carriage returns separate nothing. *)
Definition core (g : gap) : gap := filter (fun r => negb (is_cr r)) g.
Definition ends_dollar (ps : list piece) : bool :=
  match rev ps with p :: _ => String.eqb (char_of p) "$" | [] => false end.
Definition one_line (ps : list piece) : bool := forallb (fun p => negb (is_nl (char_of p))) ps.
(** May [g] stand between [x] and [y] ([None]: start or end of the text)? *)
Definition fits (x : option lexeme) (g : gap) (y : option lexeme) : bool :=
  match x with
  | Some (Word ps) =>
    match core g with
    | _ :: _ => true
    | [] => match y with
            | Some (Sep c) => one_line ps && negb (ends_dollar ps && String.eqb c "{")
            | Some _ => false
            | None => true
            end
    end
  | Some (Note _) =>
    match core g with
    | r :: _ => is_nl r
    | [] => match y with Some _ => false | None => true end
    end
  | _ => true
  end%bool.
Fixpoint laid (prev : option lexeme) (L : list (gap * lexeme)) (last : gap) : bool :=
  match L with
  | [] => (gap_ok last && fits prev last None)%bool
  | (g, x) :: L => (gap_ok g && lexeme_ok x && fits prev g (Some x) && laid (Some x) L last)%bool
  end.
Fixpoint render (L : list (gap * lexeme)) (last : gap) : string :=
  match L with
  | [] => concat_str last
  | (g, x) :: L => concat_str g ++ lexeme_src x ++ render L last
  end.
(** The tokens, the text starting on line [line]. *)
Fixpoint tokens_of (line : Z) (L : list (gap * lexeme)) : list token :=
  match L with
  | [] => []
  | (g, x) :: L =>
    let line := (line + newlines (concat_str g))%Z in
    Tok (lexeme_val x) line (lexeme_quoted x) None :: tokens_of (line + newlines (lexeme_src x)) L
  end.
(** Braces and separators as the syntax wants them. *)
Definition proper (toks : list token) : Prop := nested toks /\ spaced toks /\ net toks = 0%Z.
