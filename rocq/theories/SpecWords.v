(** Specification: the words of a directive tree and the tokens that spell them (C48). *)
From Verif Require Export Types.
Local Open Scope string_scope.

(** The words of a tree in the order of the text: names with their lines, and arguments.
    Comments count as no word; the arguments of an "if" statement are not as written. *)
Inductive word := Name (s : string) (line : Z) | Arg (s : string).
Fixpoint words (d : directive) : list word :=
  match d_comment d with
  | Some _ => []
  | None => Name (d_name d) (d_line d) ::
            (if (String.eqb (d_name d) "if" && negb (d_ismap d))%bool then [] else map Arg (d_args d)) ++
            match d_block d with
            | None => []
            | Some l => flat_map words l
            end
  end%list.

(** Punctuation and comments are not words. *)
Definition mark (t : token) : bool :=
  (negb (t_quoted t) && (String.eqb (t_val t) "{" || String.eqb (t_val t) "}" || String.eqb (t_val t) ";"
                         || prefix "#" (t_val t)))%bool.
Definition spells (w : word) (t : token) : Prop :=
  match w with
  | Name s l => t_val t = s /\ t_line t = l /\ t_err t = None
  | Arg s => t_val t = s /\ mark t = false
  end.
(** The words stand in the tokens, in order, each on a token of its own. *)
Inductive spelled : list word -> list token -> Prop :=
| sp_nil : forall ts, spelled [] ts
| sp_word : forall w ws t ts, spells w t -> spelled ws ts -> spelled (w :: ws) (t :: ts)
| sp_skip : forall ws t ts, spelled ws ts -> spelled ws (t :: ts).

(** The lines of a tree in the order of the text. *)
Definition name_lines (ws : list word) : list Z :=
  flat_map (fun w => match w with Name _ l => [l] | Arg _ => [] end) ws.
Inductive rising (lo hi : Z) : list Z -> Prop :=
| ris_nil : (lo <= hi)%Z -> rising lo hi []
| ris_cons : forall l r, (lo <= l)%Z -> rising l hi r -> rising lo hi (l :: r).
