(** C11, C56: the text of a tree, when [w] says how words are written. *)
From Verif Require Export SpecBuild SpecQuote.
Local Open Scope string_scope.

Definition remark_of (d : directive) : option string := if String.eqb (d_name d) "#" then d_comment d else None.
Section Text.
  Variable w : string -> string.
  Variable ext : list (string * builder).
  (** Name and arguments; those of "if" in parentheses. *)
  Definition head_as (d : directive) : string :=
    if String.eqb (d_name d) "if" then "if (" ++ join (map w (d_args d)) " " ++ ")"
    else w (d_name d) ++ concat_str (map (fun a => " " ++ w a) (d_args d)).
  Section Loop.
    Variable rows_of : directive -> list row.
    Variable depth : nat.
    (** [last]: the source line of the statement before; a comment on that line is appended. *)
    Fixpoint loop_as (last : Z) (ds : list directive) : list row :=
      match ds with
      | [] => []
      | d :: r =>
        match remark_of d, Z.eqb (d_line d) last with
        | Some c, true => More (" #" ++ c) :: loop_as last r
        | _, _ =>
          match assoc (w (d_name d)) ext with
          | Some f => Row depth (f d) :: loop_as last r
          | None => (rows_of d ++ loop_as (d_line d) r)%list
          end
        end
      end.
  End Loop.
  Fixpoint rows_as (depth : nat) (d : directive) {struct d} : list row :=
    match remark_of d with
    | Some c => [Row depth ("#" ++ c)]
    | None =>
      match d_block d with
      | None => [Row depth (head_as d ++ ";")]
      | Some b => (Row depth (head_as d ++ " {") :: loop_as (rows_as (S depth)) (S depth) (d_line d) b ++ [Row depth "}"])%list
      end
    end.
  Definition all_as (ds : list directive) : list row := loop_as (rows_as 0) 0 0 ds.
End Text.

(** One line break at the very end is dropped. *)
Definition ended (t u : string) : Prop := t = u ++ s_nl \/ t = u /\ ~ exists x, t = x ++ s_nl.
Definition banner : string :=
  concat_str (map (fun l => l ++ s_nl)
    ["# This config was built from JSON using NGINX crossplane."; "# If you encounter any bugs please report them here:";
     "# https://github.com/nginxinc/crossplane/issues"; ""]).
(** [text] is what is to be written for [ds]. *)
Definition text_as (o : bopts) (ds : list directive) (text : string) : Prop :=
  exists w body, (forall s, written_as (b_print o) s (w s)) /\
    ended (rows_text (if Z.eqb (b_indent o) 0 then 4 else b_indent o) (b_tabs o) (all_as w (b_ext o) ds)) body /\
    text = (if b_header o then banner else "") ++ body.
(** Where Build panics: a negative Indent leaves no blanks for the inside of blocks, and not more than 100 tabs. *)
Definition too_deep (o : bopts) (ds : list directive) : Prop :=
  (b_indent o < 0)%Z /\ exists w depth t, (forall s, written_as (b_print o) s (w s)) /\ In (Row depth t) (all_as w (b_ext o) ds) /\
    (if b_tabs o then 100 < depth else 0 < depth).
