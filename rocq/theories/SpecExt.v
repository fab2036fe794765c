(** Hand-over to external lexers (C07, C36, C37). *)
From Verif Require Export SpecLayout Lex Build.
Local Open Scope string_scope.

(** A text after which a directive may start: a following "x" is read as a word of
    its own, and the tokens [ts] before it end, comments aside, with a separator. *)
Definition only_errs (ts : list token) : Prop := Forall (fun t => t_err t <> None) ts.
Definition directive_place (P : string) (ts : list token) : Prop :=
  no_errors ts /\ after_sep true ts = true /\
  (exists e1, only_errs e1 /\ lex [] P = (ts ++ e1)%list) /\
  (exists line e2, only_errs e2 /\ lex [] (P ++ "x") = (ts ++ Tok "x" line false None :: e2)%list).

(** No registered name starts a token. *)
Definition untouched (ext : ext_lexers) (ts : list token) : Prop :=
  forall t n, In t ts -> assoc n ext <> None -> n <> "" -> has_prefix (t_val t) n = false.
(** A registered name may start a token that stands, without a newline, behind an
    unquoted word of the same line and before another token of that line.  [behind]:
    the line of the last unquoted word since the last separator or comment. *)
Fixpoint calm (ext : ext_lexers) (behind : option Z) (ts : list token) : Prop :=
  match ts with
  | [] => True
  | t :: r =>
    ((forall n, assoc n ext <> None -> n <> "" -> has_prefix (t_val t) n = false) \/
     (behind = Some (t_line t) /\ no_newline (t_val t) /\
      match r with u :: _ => t_err u = None /\ t_line u = t_line t | [] => False end)) /\
    calm ext (if t_quoted t then behind else if (sepb t || noteb t)%bool then None else Some (t_line t)) r
  end.
(** Names of letters, digits and underscores. *)
Definition name_char (c : ascii) : bool :=
  (let n := bval c in in_rng 97 122 n || in_rng 65 90 n || in_rng 48 57 n || N.eqb n 95)%bool.
Definition simple_name (n : string) : bool := (negb (String.eqb n "") && forallb name_char (list_of_str n))%bool.
(** No other registered name is a proper beginning of [n]. *)
Definition no_shorter (ext : ext_lexers) (n : string) : Prop :=
  forall a b, n = a ++ b -> a <> "" -> b <> "" -> assoc a ext = None.

(** Lexing [rest] from line [line] inside [depth] open braces, where a directive is
    expected; [start] is the line of the token before. *)
Definition lex_from (ext : ext_lexers) (line start depth : Z) (rest : list string) : list token :=
  lex_run ext 0 (Lst "" line start SkipSpace false false false depth "" true) rest.

(** Registered name: the last registration that lists it. *)
Fixpoint registered {A} (n : string) (rs : list (A * list string)) (d : option A) : option A :=
  match rs with
  | [] => d
  | r :: rs => registered n rs (if existsb (String.eqb n) (snd r) then Some (fst r) else d)
  end.

(** The names Build looks up in a tree. *)
Definition with_ext (o : bopts) (e : list (string * builder)) : bopts := BOpts (b_indent o) (b_tabs o) (b_header o) e (b_print o).
Fixpoint asked (pr : N -> bool) (d : directive) : list string :=
  enquote pr (d_name d) :: match d_block d with Some b => concat (map (asked pr) b) | None => [] end.
