(** C22: the statement Parse crashes on. *)
From Verif Require Export SpecMap SpecIf.
Local Open Scope string_scope.

(** An "if" (quoted or not) with a single argument, blank parentheses. *)
Definition crash_site (toks : list token) : Prop :=
  exists pre t args k rest, toks = (pre ++ t :: args ++ k :: rest)%list /\ t_val t = "if" /\
    Forall plain args /\ ~ plain k /\ blank_parens (words args).
