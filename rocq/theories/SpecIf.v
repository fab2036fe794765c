(** Specification of the treatment of "if" arguments (C22). *)
From Verif Require Export GoStr.
Local Open Scope string_scope.

(** A text made of (Unicode) white space only. *)
Definition blank (s : string) : Prop :=
  valid_utf8 s = true /\ Forall (fun r => is_space_rune r = true) (runes s).
Definition starts_blank (s : string) : Prop :=
  exists r l, runes s = r :: l /\ is_space_rune r = true.
Definition ends_blank (s : string) : Prop :=
  exists r l, runes s = (l ++ [r])%list /\ is_space_rune r = true.

(** [t] is [s] without leading (trailing, surrounding) white space. *)
Definition ltrimmed (s t : string) : Prop :=
  exists b, s = b ++ t /\ blank b /\ ~ starts_blank t.
Definition rtrimmed (s t : string) : Prop :=
  exists b, s = t ++ b /\ blank b /\ ~ ends_blank t.
Definition trimmed (s t : string) : Prop := exists u, ltrimmed s u /\ rtrimmed u t.

Definition unless_empty (s : string) : list string := if String.eqb s "" then [] else [s].

(** The first argument opens and the last one closes the parenthesis. *)
Definition enclosed (args : list string) : Prop :=
  args <> [] /\ (exists f, hd "" args = "(" ++ f) /\ (exists l, last args "" = l ++ ")").

Inductive if_result : list string -> list string -> Prop :=
| if_plain : forall args, ~ enclosed args -> if_result args args
| if_one : forall m t, trimmed m t -> t <> "" -> if_result ["(" ++ m ++ ")"] [t]
| if_many : forall f mid l f' l', ltrimmed f f' -> rtrimmed l l' ->
    if_result (("(" ++ f) :: mid ++ [l ++ ")"])
              (unless_empty f' ++ mid ++ unless_empty l').

(** The only shape that has no result: one argument, nothing but blanks inside. *)
Definition blank_parens (args : list string) : Prop :=
  exists m, blank m /\ args = ["(" ++ m ++ ")"].
