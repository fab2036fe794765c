(** C61: the regular expressions of the generator and what they extract. *)
From Verif Require Export SpecLib.
Local Open Scope string_scope.

(** ** Patterns: literals and repeated classes of characters, some of them groups. *)
Inductive class := Dot | Any | Space | Word.
Inductive atom := Lit (t : string) | Rep (group : bool) (k : class) (least : nat) (lazy : bool).
Definition pattern := list atom.
Definition within (k : class) (c : ascii) : Prop :=
  match k with
  | Dot => c <> "010"%char
  | Any => True
  | Space => In c ["009"; "010"; "012"; "013"; " "]%char
  | Word => inside c (capitals ++ smalls ++ digits ++ "_")
  end.
Definition fits (a : atom) (w : string) : Prop :=
  match a with Lit t => w = t | Rep _ k least _ => least <= slen w /\ forall c, inside c w -> within k c end.
(** The pattern at the beginning of a text: one stretch of text for each atom, and the rest. *)
Inductive divides : pattern -> string -> list string -> string -> Prop :=
| dv_end : forall r, divides [] r [] r
| dv_step : forall a p w s ws r, fits a w -> divides p s ws r -> divides (a :: p) (w ++ s) (w :: ws) r.
(** Among the divisions, the first stretch in which they differ decides: a greedy atom takes as much as
    possible, a lazy one as little. *)
Inductive preferred : pattern -> list string -> list string -> Prop :=
| pf_greedy : forall g k n p w w' ws ws', slen w' < slen w -> preferred (Rep g k n false :: p) (w :: ws) (w' :: ws')
| pf_lazy : forall g k n p w w' ws ws', slen w < slen w' -> preferred (Rep g k n true :: p) (w :: ws) (w' :: ws')
| pf_later : forall a p w ws ws', preferred p ws ws' -> preferred (a :: p) (w :: ws) (w :: ws').
Definition matches (p : pattern) (s : string) (ws : list string) (r : string) : Prop :=
  divides p s ws r /\ forall ws' r', divides p s ws' r' -> ws' = ws \/ preferred p ws ws'.
Definition nowhere (p : pattern) (a s : string) : Prop :=
  forall x y, a = x ++ y -> y <> "" -> ~ exists ws r, divides p (y ++ s) ws r.
(** All matches from the left, none within another. *)
Inductive found (p : pattern) : string -> list (list string) -> Prop :=
| fo_none : forall s, nowhere p s "" -> found p s []
| fo_hit : forall a s ws r l, nowhere p a s -> matches p s ws r -> found p r l -> found p (a ++ s) (ws :: l).
(** The text without them. *)
Inductive erased (p : pattern) : string -> string -> Prop :=
| er_none : forall s, nowhere p s "" -> erased p s s
| er_hit : forall a s ws r t, nowhere p a s -> matches p s ws r -> erased p r t -> erased p (a ++ s) (a ++ t).

(** ** The four patterns (generator_util.go:39, 46, 48, 50). *)
Definition line_comment : pattern := [Lit "//"; Rep false Dot 0 false].
Definition block_comment : pattern := [Lit "/*"; Rep false Any 0 true; Lit "*/"].
Definition command_table : pattern :=
  [Lit "ngx_command_t"; Rep false Space 1 false; Rep true Word 1 false; Lit "[]"; Rep false Space 0 false; Lit "="; Rep false Space 0 false; Lit "{"; Rep true Dot 0 true; Lit "}"; Rep false Space 0 false; Lit ";"].
Definition command : pattern := [Lit "ngx_string("""; Rep true Dot 0 true; Lit """)"; Rep false Dot 0 true; Lit ","; Rep true Dot 0 true; Lit ","].
Definition body_of (ws : list string) : string := nth 8 ws "".
Definition name_masks (ws : list string) : string * string := (nth 1 ws "", nth 5 ws "").
(** As they are written in Go. *)
Definition show_char (c : ascii) : string := if existsb (Ascii.eqb c) ["["; "]"; "("; ")"; "*"]%char then String "\" (String c "") else String c "".
Definition show_class (k : class) : string := match k with Dot => "." | Any => "[\s\S]" | Space => "\s" | Word => "\w" end.
Definition show_atom (a : atom) : string :=
  match a with
  | Lit t => concat_str (map show_char (list_of_str t))
  | Rep g k n l => (if g then "(" else "") ++ show_class k ++ (match n with 0 => "*" | _ => "+" end) ++ (if l then "?" else "") ++ (if g then ")" else "")
  end.
Definition show (p : pattern) : string := concat_str (map show_atom p).

(** The names and masks in a source text. *)
Definition extracted (content : string) (l : list (string * string)) : Prop :=
  exists a b c d tables entries, erased line_comment content a /\ erased block_comment a b /\ replaced (s_cr ++ s_nl) "" b c /\ replaced s_nl "" c d /\
    found command_table d tables /\ Forall2 (fun t es => found command (body_of t) es) tables entries /\ l = map name_masks (concat entries).
