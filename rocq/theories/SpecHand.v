(** C57: hand-over to external lexers, on any text. *)
From Verif Require Export SpecScan Lex.
Local Open Scope string_scope.

(** Is the name of a directive expected?  Line breaks and separators make it so; a word that is
    over, a comment and "${" end it. *)
Definition breaks (r : string) : bool := Z.ltb 0 (newlines r).
Fixpoint word_fresh (fresh var dollar : bool) (ps : list piece) : bool :=
  match ps with
  | [] => fresh
  | p :: ps =>
    let now := (fresh || breaks (char_of p))%bool in
    if var then word_fresh now (negb (String.eqb (char_of p) "}" || match p with Raw r => white r | Esc _ => false end)) false ps
    else match p with
         | Raw r => if (dollar && String.eqb r "{")%bool then word_fresh false true false ps
                    else word_fresh now false (String.eqb r "$") ps
         | Esc r => word_fresh now false (String.eqb r "$") ps
         end
  end.
Definition item_fresh (fresh : bool) (x : lexeme) : bool :=
  match x with
  | Word [] => fresh
  | Word (p :: ps) => word_fresh (fresh || breaks (char_of p)) false (String.eqb (char_of p) "$") ps
  | Quoted _ ps => (fresh || existsb (fun p => breaks (char_of p)) ps)%bool
  | Sep _ => true
  | Note _ => false
  end.
Definition gap_fresh (fresh : bool) (prev : option lexeme) (g : gap) : bool :=
  match prev, g with
  | Some (Word _), _ :: g => existsb breaks g
  | _, _ => (fresh || existsb breaks g)%bool
  end.
Fixpoint fresh_after (fresh : bool) (prev : option lexeme) (L : list (gap * lexeme)) (e : ending) : bool :=
  match L with
  | [] => match e with
          | Blank g => gap_fresh fresh prev g
          | Unclosed g x => item_fresh (gap_fresh fresh prev g) x
          end
  | (g, x) :: L => fresh_after (item_fresh (gap_fresh fresh prev g) x) (Some x) L e
  end.
(** The item that is not over yet. *)
Fixpoint unfinished (prev : option lexeme) (L : list (gap * lexeme)) (e : ending) : option lexeme :=
  match L with
  | [] => match e with
          | Unclosed _ x => Some x
          | Blank (_ :: _) => None
          | Blank [] => match prev with Some (Word _) | Some (Note _) => prev | _ => None end
          end
  | (_, x) :: L => unfinished (Some x) L e
  end.

(** A division of the characters [P]; [b]: a backslash that belongs to the next character. *)
Definition cut (P : list string) (L : list (gap * lexeme)) (e : ending) (b : string) : Prop :=
  no_cr (concat_str P) = text_of L e ++ b /\ (b = "" \/ b = "\") /\ divided None L e = true.

Section Hand.
  Variable ext : ext_lexers.
  (** The text of the item that is not over is a registered name where the name of a directive is
      expected: the character [la] behind it calls the lexer [f].  [line]: of the first character of
      [P]; [sent]: the tokens sent before, external ones aside. *)
  Record hands (fresh : bool) (line : Z) (sent : list (token * Z)) (P : list string) (la : string)
      (L : list (gap * lexeme)) (e : ending) (b : string) (x : lexeme) f : Prop := {
    h_cut : cut P L e b;
    h_char : is_cr la = false /\ (la = "\" -> b = "\");
    h_item : unfinished None L e = Some x;
    h_name : lexeme_val x <> "" /\ assoc (lexeme_val x) ext = Some f;
    h_place : (fresh_after fresh None L e || breaks la)%bool = true;
    h_sent : orderly (map fst (sent ++ entries line None L e)) }.
  (** The tokens for the characters [rs].  [shown]: the line the token before shows. *)
  Inductive lexing : bool -> Z -> Z -> list (token * Z) -> list string -> list token -> Prop :=
  | lx_end : forall fresh line shown sent rs L e b toks, cut rs L e b ->
      (forall P la rest L' e' b' x f, rs = (P ++ la :: rest)%list -> ~ hands fresh line sent P la L' e' b' x f) ->
      outcome (match L, e with [], Blank _ => shown | _, _ => last_shown line None L e end)
        (line + newlines (text_of L e)) (sent ++ entries line None L e) (map fst sent ++ toks) ->
      lexing fresh line shown sent rs toks
  | lx_hand : forall fresh line shown sent P la rest L e b x f,
      hands fresh line sent P la L e b x f ->
      (forall P' la' rest' L' e' b' x' f', (P ++ la :: rest = P' ++ la' :: rest')%list ->
         hands fresh line sent P' la' L' e' b' x' f' -> List.length P <= List.length P') ->
      let here := (line + newlines (text_of L e) + newlines la)%Z in
      let etoks := fst (f (lexeme_val x) here rest) in
      let n := snd (f (lexeme_val x) here rest) in
      let there := (here + newlines (concat_str (firstn n rest)))%Z in
      (** The quote that ends the name is dropped; any other character is read again behind what
          the external lexer took. *)
      let closing := match x with Quoted q _ => String.eqb (b ++ la) q | _ => false end in
      forall toks,
      lexing true (if closing then there else there - newlines la)%Z (last_shown line None L e) (sent ++ entries line None L e)
        ((if closing then [] else if String.eqb b "" then [la] else [b; la]) ++ skipn n rest)%list toks ->
      lexing fresh line shown sent (P ++ la :: rest) (map fst (entries line None L e) ++ etoks ++ toks)%list.
End Hand.
