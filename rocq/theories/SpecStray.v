(** Statements that run into the "}" behind them (C33). *)
From Verif Require Export SpecLost SpecValidate SpecContext.
Local Open Scope string_scope.

(** A "}" that comes, comments aside, behind a word instead of ";", "{" or "}". *)
Definition runs_into (toks : list token) : Prop :=
  exists a t b, toks = (a ++ t :: b)%list /\ closesb t = true /\ after_sep true a = false.
(** Every block the masks allow in a context is a map or leads to a context again, except
    for the blocks named in [odd]. *)
Definition blocks_lead (o : popts) (odd : list string) : Prop :=
  forall path b name ms mask, path_bit path = Some b -> knows o name ms -> In mask ms -> bit b mask -> bit 8 mask ->
    map_block name \/ path_bit (below path name) <> None \/ In name odd.
(** All checks on. *)
Definition checking (o : popts) : Prop := o_strict o = true /\ o_skipctx o = false /\ o_skipargs o = false.
(** No token of these values. *)
Definition lacks (names : list string) (toks : list token) : Prop := Forall (fun t => ~ In (t_val t) names) toks.
