(** Specification of directive equality (C23): the same tree up to nil/empty
    slices. *)
From Verif Require Export Types.

Inductive same_tree : directive -> directive -> Prop :=
| same_tree_intro : forall x y,
    d_name x = d_name y ->
    d_line x = d_line y ->
    d_args x = d_args y ->
    d_file x = d_file y ->
    opt_list (d_includes x) = opt_list (d_includes y) ->
    Forall2 same_tree (opt_list (d_block x)) (opt_list (d_block y)) ->
    d_comment x = d_comment y ->
    d_ismap x = d_ismap y ->
    same_tree x y.
