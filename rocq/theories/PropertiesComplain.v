(** What errors say (C53). *)
From Verif Require Import ComplainProofs PathProofs Tables TableProofs PropertiesForest.
Local Open Scope string_scope.

(** C53: a statement outside maps is accepted, or the error for it is the one the
    specification gives: text, file, line, statement and block. *)
Theorem C53_statement : forall o f d term path e, plain_path path -> d_block d = None ->
  (analyze o f d term path = Some e <-> exists what, objects o path d term what /\ EParse e = objection f path d what).
Proof. exact analyze_says. Qed.
Print Assumptions C53_statement.
(** C53: in every path the error is the one for the path the tables take it for. *)
Theorem C53_every_path : forall o f d term path p e, d_block d = None -> meant path p ->
  (analyze o f d term path = Some e <-> exists what, objects o p d term what /\ EParse e = objection f path d what).
Proof. exact says_every_path. Qed.
Print Assumptions C53_every_path.
Example C53_every_case : meant ["http>server"] ["http"; "server"] /\ meant ["x"; "y"] ["y"].
Proof.
  split; [reflexivity|]. unfold meant. cbn [path_bit]. intros q Q E. destruct (path_bit q) as [b|] eqn:B; [|congruence].
  apply path_bit_listed in B. revert E.
  assert (F : Forall (fun q => join q ">" <> join ["x"; "y"] ">") context_paths) by (repeat (constructor; [discriminate|]); constructor).
  exact (proj1 (Forall_forall _ _) F q B).
Qed.
(** C53: the same for the entries of map-like blocks. *)
Theorem C53_entry : forall f d term path e, inside_map path -> d_block d = None ->
  (analyze_map_body f d term (last path "") = Some e <-> exists what, objects_entry (last path "") d term what /\ EParse e = objection f path d what).
Proof. exact map_says. Qed.
Print Assumptions C53_entry.
(** C53: something is said against exactly the statements that are not accepted, and it is one thing. *)
Theorem C53_rejected : forall o path d term, plain_path path -> d_block d = None ->
  (~ accepts o path d term <-> exists what, objects o path d term what).
Proof. exact objects_iff. Qed.
Print Assumptions C53_rejected.
Theorem C53_one : forall o path d term, plain_path path -> d_block d = None -> forall w w',
  objects o path d term w -> objects o path d term w' -> w = w'.
Proof. exact objects_one. Qed.
Print Assumptions C53_one.

(** A table with one name whose two masks want a block with an expression, or a flag. *)
Definition two_masks : popts :=
  Opts [] None (fun _ => inr "") (fun _ => inr "") false false false true true false false
    [fun n => if String.eqb n "x" then Some [N.lor (2 ^ 18) (N.lor (2 ^ 8) (2 ^ 9)); N.lor (2 ^ 18) (2 ^ 10)] else None] (fun _ => None) [].
Definition stmt_x (args : list string) : directive := Dir "x" 7 args "" None None None false.
Example C53_case :
  objects two_masks [] (stmt_x ["maybe"]) ";" "invalid value ""maybe"" in ""x"" directive, it must be ""on"" or ""off""" /\
  objects two_masks [] (stmt_x ["a"; "b"]) ";" "invalid number of arguments in ""x"" directive" /\
  objects two_masks [] (stmt_x ["on"]) "{" "directive ""x"" is not terminated by "";""" /\
  objects two_masks [] (Dir "y" 1 [] "" None None None false) ";" "unknown directive ""y""" /\
  objects two_masks ["http"] (stmt_x ["on"]) ";" """x"" directive is not allowed here" /\
  accepts two_masks [] (stmt_x ["ON"]) ";" /\
  objects_entry "map" (stmt_x ["1"; "2"]) ";" "invalid number of parameters" /\
  objects_entry "map" (stmt_x ["1"]) "{" "unexpected ""{""".
Proof.
  assert (PN : plain_path []) by constructor. assert (PH : plain_path ["http"]) by (apply plainb_plain; reflexivity).
  assert (O : forall path d term e, plain_path path -> d_block d = None -> analyze two_masks "" d term path = Some e -> objects two_masks path d term (pe_what e)).
  { intros path d term e PP NB A. destruct (proj1 (analyze_says two_masks "" d term path e PP NB) A) as (w & W & E). inversion E. exact W. }
  repeat match goal with |- _ /\ _ => split end.
  - apply (O [] (stmt_x ["maybe"]) ";" _ PN eq_refl eq_refl).
  - apply (O [] (stmt_x ["a"; "b"]) ";" _ PN eq_refl eq_refl).
  - apply (O [] (stmt_x ["on"]) "{" _ PN eq_refl eq_refl).
  - apply (O [] (Dir "y" 1 [] "" None None None false) ";" _ PN eq_refl eq_refl).
  - apply (O ["http"] (stmt_x ["on"]) ";" _ PH eq_refl eq_refl).
  - apply (analyze_accepts two_masks ""); auto.
  - apply oe_count; [reflexivity|]. intros F. vm_compute in F. discriminate.
  - apply (oe_end "map" (stmt_x ["1"]) "{"). discriminate.
Qed.
