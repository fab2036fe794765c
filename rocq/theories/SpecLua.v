(** Lua blocks (C07, C38). *)
From Verif Require Export SpecExt Lua.
Local Open Scope string_scope.

(** Braces balance; a quote character opens a string that ends at its next occurrence
    ([q]: the quote to be met, empty outside strings); braces in strings do not count. *)
Fixpoint balanced (depth : nat) (q : string) (rs : list string) : bool :=
  match rs with
  | [] => (Nat.eqb depth 0 && String.eqb q "")%bool
  | r :: rs =>
    if negb (String.eqb q "") then balanced depth (if String.eqb r q then "" else q) rs
    else if mem r quotes then balanced depth r rs
    else if String.eqb r "{" then balanced (S depth) q rs
    else if String.eqb r "}" then match depth with O => false | S d => balanced d q rs end
    else balanced depth q rs
  end.
Definition lua_code (body : string) : bool := (valid_utf8 body && balanced 0 "" (scan_runes body))%bool.
(** The variable of set_by_lua_block: any characters but white space. *)
Definition lua_var (v : string) : bool :=
  (valid_utf8 v && negb (String.eqb v "") && forallb (fun r => negb (white r)) (scan_runes v))%bool.
(** White space that ends the directive name (carriage returns alone do not). *)
Definition name_gap (g : gap) : bool := (gap_ok g && match core g with [] => false | _ => true end)%bool.
Definition first_newline (g : gap) : Z := match g with r :: _ => newlines r | [] => 0%Z end.
