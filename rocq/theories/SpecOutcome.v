(** What becomes of every payload given to Combined (C16): the expansion, the first
    include index that is too large, or the first negative one. *)
From Verif Require Export SpecCombine Combine.
Local Open Scope string_scope.

Inductive answer := Dirs (ds : list directive) | Bad (e : goerr) | Negative.
Definition after (ds : list directive) (a : answer) : answer :=
  match a with Dirs r => Dirs (ds ++ r) | _ => a end.
Definition failing (a : answer) : Prop := match a with Dirs _ => False | _ => True end.
(** The text of an include directive, in the error about it. *)
Definition include_text (d : directive) (block : option (list directive)) : string :=
  d_name d ++ " " ++ join (d_args d) " " ++ match block with Some (_ :: _) => " {...}" | _ => "" end.
(** [f]: the file the directives stand in. *)
Inductive outcome (cs : list config) : string -> list directive -> answer -> Prop :=
| oc_nil : forall f, outcome cs f [] (Dirs [])
| oc_inside : forall f d b r a, d_block d = Some b -> outcome cs f b a -> failing a -> outcome cs f (d :: r) a
| oc_keep : forall f d b r a, block_outcome cs f (d_block d) b -> ~ resolved d -> outcome cs f r a ->
    outcome cs f (d :: r) (after [reblock d b] a)
| oc_include : forall f d b is ds r a, block_outcome cs f (d_block d) b -> d_name d = "include" -> d_includes d = Some is ->
    outcomes cs f d b is (Dirs ds) -> outcome cs f r a -> outcome cs f (d :: r) (after ds a)
| oc_broken : forall f d b is r a, block_outcome cs f (d_block d) b -> d_name d = "include" -> d_includes d = Some is ->
    outcomes cs f d b is a -> failing a -> outcome cs f (d :: r) a
with block_outcome (cs : list config) : string -> option (list directive) -> option (list directive) -> Prop :=
| ob_none : forall f, block_outcome cs f None None
| ob_some : forall f b ds, outcome cs f b (Dirs ds) -> block_outcome cs f (Some b) (Some ds)
with outcomes (cs : list config) : string -> directive -> option (list directive) -> list Z -> answer -> Prop :=
| os_nil : forall f d b, outcomes cs f d b [] (Dirs [])
| os_large : forall f d b i is, (Z.of_nat (List.length cs) <= i)%Z ->
    outcomes cs f d b (i :: is)
      (Bad (EParse (PE ("include config with index: " ++ itoa i) (Some f) (Some (d_line d)) (include_text d b) "" None)))
| os_negative : forall f d b i is, (i < 0)%Z -> outcomes cs f d b (i :: is) Negative
| os_fails : forall f d b i is c a, (0 <= i)%Z -> nth_error cs (Z.to_nat i) = Some c ->
    outcome cs (cf_file c) (cf_parsed c) a -> failing a -> outcomes cs f d b (i :: is) a
| os_cons : forall f d b i is c ds a, (0 <= i)%Z -> nth_error cs (Z.to_nat i) = Some c ->
    outcome cs (cf_file c) (cf_parsed c) (Dirs ds) -> outcomes cs f d b is a -> outcomes cs f d b (i :: is) (after ds a).

Scheme outcome_mind := Induction for outcome Sort Prop
  with block_outcome_mind := Induction for block_outcome Sort Prop
  with outcomes_mind := Induction for outcomes Sort Prop.
Combined Scheme outcome_both from outcome_mind, block_outcome_mind, outcomes_mind.

(** Combined ends with [r], whatever the (sufficient) fuel. *)
Definition settles (old : payload) (r : combine_res) : Prop := exists n, forall k, n <= k -> combined k old = r.
