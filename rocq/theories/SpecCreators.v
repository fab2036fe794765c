(** C82: the calls BuildInto makes. *)
From Verif Require Export Creators SpecFiles.
Local Open Scope string_scope.

Definition whole (ws : list string) : string := fold_right String.append "" ws.
(** One file after the other: created, written in some pieces, closed; a configuration that
    cannot be built ends it while its file is open. *)
Inductive plan (o : boptions) : nat -> list config -> list call -> into_result -> Prop :=
| plan_end : forall n, plan o n [] [] IOk
| plan_file : forall n g cs ws calls r, build_text o (cf_parsed g) = Some (whole ws) -> plan o (S n) cs calls r ->
    plan o n (g :: cs) (CCreate (cf_file g) :: map (CWrite n) ws ++ CClose n :: calls)%list r
| plan_panic : forall n g cs ws, build_text o (cf_parsed g) = None ->
    plan o n (g :: cs) (CCreate (cf_file g) :: map (CWrite n) ws)%list IPanic.
(** The calls that are made: up to the first that fails. *)
Fixpoint first_failure (outs : list bool) : option nat :=
  match outs with [] => None | false :: _ => Some 0 | true :: r => option_map S (first_failure r) end.
Definition up_to_failure (calls : list call) (outs : list bool) (r : into_result) : list call * into_result :=
  match first_failure outs with
  | Some k => if Nat.ltb k (List.length calls) then (firstn (S k) calls, IErr) else (calls, r)
  | None => (calls, r)
  end.
(** The calls, made on a StringsCreator. *)
Definition on_strings (c : creator) (x : call) : creator :=
  match x with
  | CCreate p => fst (cr_create p c)
  | CWrite w b => cr_write w b c
  | CClose w => cr_close w c
  end.
