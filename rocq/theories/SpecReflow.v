(** C78: the same statements on other lines, with other quotes. *)
From Verif Require Export SpecScan SpecOpts Main.
Local Open Scope string_scope.

(** A directive on no line. *)
Fixpoint placeless (d : directive) : directive :=
  Dir (d_name d) 0 (d_args d) (d_file d) (d_includes d)
      (match d_block d with Some b => Some (map placeless b) | None => None end) (d_comment d) (d_ismap d).
Definition same_trees (ds ds' : list directive) : Prop := map placeless ds = map placeless ds'.

(** Errors: one message of an include directive ends with the line of the error. *)
Definition both_lines (l l' : option Z) : Prop := l = None <-> l' = None.
Inductive same_what (l l' : option Z) : string -> string -> Prop :=
| sw_same : forall w, same_what l l' w w
| sw_place : forall pre a b, l = Some a -> l' = Some b -> same_what l l' (pre ++ ":" ++ itoa a) (pre ++ ":" ++ itoa b).
Inductive same_err : goerr -> goerr -> Prop :=
| se_parse : forall w w' f l l' s b orig, both_lines l l' -> same_what l l' w w' ->
    same_err (EParse (PE w f l s b orig)) (EParse (PE w' f l' s b orig))
| se_other : forall m, same_err (EOther m) (EOther m).
(** Values that mean something only without quotes. *)
Definition special (v : string) : Prop := In v ["{"; "}"; ";"] \/ exists r, v = "#" ++ r.
Inductive same_token : token -> token -> Prop :=
| st_plain : forall v l l' q q', q = q' \/ ~ special v -> same_token (Tok v l q None) (Tok v l' q' None)
| st_error : forall v l l' q q' e e', q = q' \/ ~ special v -> same_err e e' -> same_token (Tok v l q (Some e)) (Tok v l' q' (Some e')).

Definition same_cerr (e e' : config_error) : Prop := both_lines (ce_line e) (ce_line e') /\ same_err (ce_err e) (ce_err e').
Definition same_perr (e e' : payload_error) : Prop :=
  py_file e = py_file e' /\ both_lines (py_line e) (py_line e') /\ same_err (py_err e) (py_err e') /\
  (py_cb e = None <-> py_cb e' = None).
Definition same_config (c c' : config) : Prop :=
  cf_file c = cf_file c' /\ cf_status c = cf_status c' /\ Forall2 same_cerr (cf_errors c) (cf_errors c') /\
  same_trees (cf_parsed c) (cf_parsed c').
Definition same_payload (p p' : payload) : Prop :=
  pl_status p = pl_status p' /\ Forall2 same_perr (pl_errors p) (pl_errors p') /\ Forall2 same_config (pl_config p) (pl_config p').
Inductive same_result : result -> result -> Prop :=
| sr_ok : forall p p', same_payload p p' -> same_result (ROk p) (ROk p')
| sr_err : forall e e', same_err e e' -> same_result (RErr e) (RErr e')
| sr_panic : same_result RPanic RPanic
| sr_fuel : same_result RFuel RFuel.

(** Files with the same tokens, line numbers and needless quotes aside. *)
Inductive same_file (ext : ext_lexers) : string + string -> string + string -> Prop :=
| sf_read : forall s s', Forall2 same_token (lex ext s) (lex ext s') -> same_file ext (inl s) (inl s')
| sf_error : forall m, same_file ext (inr m) (inr m).

(** Texts that divide into items of the same values, with any white space between them (SpecScan.v says
    where white space is needed), and any quotes around those that are not special. *)
Definition same_item (x x' : lexeme) : Prop :=
  lexeme_val x = lexeme_val x' /\ (lexeme_quoted x = lexeme_quoted x' \/ ~ special (lexeme_val x)).
Inductive same_ending : ending -> ending -> Prop :=
| sn_blank : forall g g', same_ending (Blank g) (Blank g')
| sn_unclosed : forall g g' x x', same_item x x' -> same_ending (Unclosed g x) (Unclosed g' x').
Definition reflowed (s s' : string) : Prop :=
  exists L e L' e', division s L e /\ division s' L' e' /\ Forall2 same_item (map snd L) (map snd L') /\ same_ending e e'.
