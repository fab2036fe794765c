(** build.go:128-156, 331-347: BuildInto with any Creator.
    BuildIO.v has BuildInto with the package's own StringsCreator, which never fails; here
    every call of Create, Write and Close can return an error.  A writer is the number of the
    successful Create.  The number of bytes Write returns is ignored by Build.  Creators and
    writers that panic are not modelled. *)
From Verif Require Export BuildIO.
Local Open Scope string_scope.

Inductive call := CCreate (path : string) | CWrite (w : nat) (b : string) | CClose (w : nat).
Inductive into_result := IOk | IErr | IPanic.
(** What the calls return, in order: true for no error; no errors behind the end. *)
Definition reply (outs : list bool) : bool * list bool :=
  match outs with [] => (true, []) | b :: r => (b, r) end.
(** Makes the calls in order until one fails; returns those made. *)
Fixpoint run_calls (cs : list call) (outs : list bool) : list call * bool * list bool :=
  match cs with
  | [] => ([], true, outs)
  | c :: r =>
    let '(ok, outs) := reply outs in
    if ok then let '(m, ok, outs) := run_calls r outs in (c :: m, ok, outs) else ([c], false, outs)
  end.
(** build.go:331-347 [BuildInto]; Build writes the header, then the body (133-138, 154). *)
Fixpoint into_calls (cs : list config) (o : boptions) (n : nat) (outs : list bool) : list call * into_result :=
  match cs with
  | [] => ([], IOk)
  | g :: cs =>
    let '(m1, ok, outs) := run_calls (CCreate (cf_file g) :: if bo_header o then [CWrite n header] else []) outs in
    if ok then
      match build_body (plain_opts (build_opts o)) (cf_parsed g) with
      | None => (m1, IPanic)
      | Some t =>
        let '(m2, ok, outs) := run_calls [CWrite n t; CClose n] outs in
        if ok then let '(m3, r) := into_calls cs (build_opts o) (S n) outs in ((m1 ++ m2 ++ m3)%list, r)
        else ((m1 ++ m2)%list, IErr)
      end
    else (m1, IErr)
  end.
