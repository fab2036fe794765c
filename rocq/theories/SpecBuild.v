(** Layout of built text (C11). *)
From Verif Require Export Build SpecLayout.
Local Open Scope string_scope.

(** Rows of a built configuration: a row starts on its own line at some depth; a
    comment may be appended to the row before it. *)
Inductive row := Row (depth : nat) (text : string) | More (text : string).
(** Name and arguments; those of "if" in parentheses. *)
Definition head_text (o : bopts) (d : directive) : string :=
  let name := enquote (b_print o) (d_name d) in
  if String.eqb name "if" then name ++ " (" ++ join (map (enquote (b_print o)) (d_args d)) " " ++ ")"
  else name ++ concat_str (map (fun a => " " ++ enquote (b_print o) a) (d_args d)).
Definition comment_text (d : directive) : string := match d_comment d with Some c => c | None => "" end.
Section Rows.
  Variable o : bopts.
  Variable rows_of : directive -> list row.
  Variable depth : nat.
  (** [last]: the source line of the statement before. *)
  Fixpoint rows_loop (last : Z) (ds : list directive) : list row :=
    match ds with
    | [] => []
    | d :: r =>
      if (Z.eqb (d_line d) last && is_comment d)%bool then More (" #" ++ comment_text d) :: rows_loop last r
      else match assoc (enquote (b_print o) (d_name d)) (b_ext o) with
           | Some f => Row depth (f d) :: rows_loop last r
           | None => (rows_of d ++ rows_loop (d_line d) r)%list
           end
    end.
End Rows.
Fixpoint rows (o : bopts) (depth : nat) (d : directive) {struct d} : list row :=
  if is_comment d then [Row depth ("#" ++ comment_text d)]
  else match d_block d with
       | None => [Row depth (head_text o d ++ ";")]
       | Some b => (Row depth (head_text o d ++ " {") :: rows_loop o (rows o (S depth)) (S depth) (d_line d) b ++ [Row depth "}"])%list
       end.
(** The blanks in front of a row. *)
Fixpoint times (n : nat) (s : string) : string := match n with O => "" | S n => s ++ times n s end.
Definition blanks (indent : Z) (tabs : bool) (depth : nat) : string :=
  if tabs then times depth s_tab else times depth (times (Z.to_nat indent) s_sp).
Definition row_text (indent : Z) (tabs : bool) (r : row) : string :=
  match r with Row depth t => s_nl ++ blanks indent tabs depth ++ t | More t => t end.
(** No line break before the first row. *)
Definition rows_text (indent : Z) (tabs : bool) (rs : list row) : string :=
  match rs with
  | Row depth t :: rs => blanks indent tabs depth ++ t ++ concat_str (map (row_text indent tabs) rs)
  | rs => concat_str (map (row_text indent tabs) rs)
  end.
Definition all_rows (o : bopts) (ds : list directive) : list row := rows_loop o (rows o 0) 0 0 ds.
(** A statement and a comment, as parsed. *)
Definition mkd (n : string) (line : Z) (args : list string) (blk : option (list directive)) : directive := Dir n line args "" None blk None false.
Definition mkc (line : Z) (text : string) : directive := Dir "#" line [] "" None None (Some text) false.
