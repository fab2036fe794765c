(** C68: trees with Lua blocks that are built and parsed again. *)
From Verif Require Export SpecRound SpecLua.
Local Open Scope string_scope.

Definition lua_dir (d : directive) : bool := existsb (String.eqb (d_name d)) lua_names.
(** What a Lua directive takes: its code, behind the variable for set_by_lua_block, which is
    no separator and no comment. *)
Definition lua_args (d : directive) : bool :=
  if String.eqb (d_name d) set_by_lua_block
  then match d_args d with [v; code] => (lua_var v && negb (mem v separators) && negb (prefix "#" v) && lua_code code)%bool | _ => false end
  else match d_args d with [code] => lua_code code | _ => false end.
(** A string that does not begin with the name of a Lua directive. *)
Definition clear (s : string) : bool := forallb (fun n => negb (prefix n s)) lua_names.
(** As [apart]; a Lua directive counts as a block and leaves the line to compare with as it was. *)
Definition lua_spot (d : directive) : spot := if lua_dir d then AfterBlock else spot_of d.
Fixpoint lua_apart (ok : spot -> bool) (last : Z) (s : spot) (ds : list directive) : bool :=
  match ds with
  | [] => true
  | d :: r =>
    if (Z.eqb (d_line d) last && is_comment d)%bool then (ok s && lua_apart ok last AfterNote r)%bool
    else lua_apart ok (if lua_dir d then last else d_line d) (lua_spot d) r
  end.
Section LuaWritable.
  Variables (pr : N -> bool) (ok : spot -> bool).
  Fixpoint lua_writable (d : directive) : bool :=
    if is_comment d then
      (note_ok (comment_text d) && match d_args d with [] => true | _ => false end && match d_block d with None => true | _ => false end)%bool
    else
      (match d_comment d with None => true | Some _ => false end &&
       if lua_dir d then lua_args d && match d_block d with None => true | Some _ => false end
       else
         (kept pr (d_name d) && clear (d_name d)) && forallb (fun a => kept pr a && clear a) (d_args d) &&
         (if String.eqb (d_name d) "if" then if_ok (d_args d) else true) &&
         match d_block d with None => true | Some b => lua_apart ok (d_line d) Opening b && forallb lua_writable b end)%bool.
  Definition lua_writables (ds : list directive) : bool := (lua_apart ok 0 Top ds && forallb lua_writable ds)%bool.
End LuaWritable.
