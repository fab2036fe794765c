(** C21: what becomes of the contents of a map-like block. *)
From Verif Require Export SpecForest SpecValidate.
Local Open Scope string_scope.

(** The arguments among the argument tokens: those that are no comments. *)
Definition word (t : token) : bool :=
  match t_val t with String "#"%char _ => t_quoted t | _ => true end.
Definition words (args : list token) : list string := map t_val (filter word args).

(** [entries cm label m F ds bad]: the statements [F] of a block named [m] give the
    map parameters [ds] (with the comments, if [cm]); [bad] are the ones left out. *)
Inductive entries (cm : bool) (label m : string) : list stmt -> list directive -> list stmt -> Prop :=
| en_nil : entries cm label m [] [] []
| en_comment : forall t c F ds bad, t_val t = "#" ++ c -> entries cm label m F ds bad ->
    entries cm label m (SCom t :: F)
      ((if cm then [Dir "#" (t_line t) [] label None None (Some c) false] else []) ++ ds) bad
| en_good : forall h args l F ds bad, fits_arity (entry_arity m (t_val h)) (words args) ->
    entries cm label m F ds bad ->
    entries cm label m (SStm h args l None :: F)
      (Dir (t_val h) (t_line h) (words args) label None None None true :: ds) bad
| en_bad : forall h args l body F ds bad,
    body <> None \/ ~ fits_arity (entry_arity m (t_val h)) (words args) ->
    entries cm label m F ds bad ->
    entries cm label m (SStm h args l body :: F) ds (SStm h args l body :: bad).

(** How the children of a block look. *)
Definition child_ok (block : string) (d : directive) : Prop :=
  d_comment d = None ->
  if existsb (String.eqb block) map_like then
    d_ismap d = true /\ d_block d = None /\ d_includes d = None /\
    fits_arity (entry_arity block (d_name d)) (d_args d)
  else d_ismap d = false.
Definition children_ok (d : directive) : Prop :=
  forall b, d_block d = Some b -> Forall (child_ok (d_name d)) b.

(** The statements outside map-like blocks without the ones named in [I]. *)
Fixpoint prune_out (I : list string) (s : stmt) : list stmt :=
  match s with
  | SCom t => [s]
  | SStm h args l b =>
    if existsb (String.eqb (t_val h)) I then []
    else [SStm h args l (match b with
                         | Some (ss, c) => Some (if existsb (String.eqb (t_val h)) map_like then ss
                                                 else flat_map (prune_out I) ss, c)
                         | None => None end)]
  end.
