(** C69: the files with Lua blocks that can be formatted in place. *)
From Verif Require Export SpecFormat SpecLuaRound.
Local Open Scope string_scope.

Definition lua_formattable (pr : N -> bool) (ds : list directive) : bool :=
  (lua_writables pr not_note ds && forallb no_if_entry ds && last_kept ds)%bool.
