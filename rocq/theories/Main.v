(** parse.go:119-201: Parse. *)
From Verif Require Export Parse Combine.
Local Open Scope string_scope.

(** parse.go:120-124, 150-160: initial payload and parser. *)
Definition init_payload : payload := Pay "ok" [] [].
Definition init_state (filename : string) : pst :=
  Pst [(filename, Slice 0 0)] [(filename, 0%Z)] [] [(filename, 0%Z)] [[]]
      (Cfg EmptyString EmptyString [] []) init_payload [] [] [].

(** Outcome of the loop at parse.go:162-190. *)
Inductive fres :=
| FDone (st : pst)
| FErr (e : goerr) (st : pst)
| FPanic
| FFuel.

(** parse.go:162-190: one queued file. *)
Definition parse_file (o : popts) (dir : string) (path : string) (ctx : slice) (st : pst)
  : fres :=
  let st := log_use (log_open st path) path ctx in
  match o_open o path with
  | inr msg => FErr (EOther msg) st
  | inl content =>
    let toks := lex (o_lexers o) content in
    let st := set_cur st (Cfg path "ok" [] []) in
    match parse o dir (S (List.length toks)) ctx toks st with
    | PPanic => FPanic
    | PFuel => FFuel
    | POk ds _ st =>
      let c := p_cur st in
      let c := Cfg (cf_file c) (cf_status c) (cf_errors c) ds in
      FDone (set_pay st (Pay (pl_status (p_pay st)) (pl_errors (p_pay st))
                             (pl_config (p_pay st) ++ [c])%list))
    | PErr e _ st =>
      if o_stop o then FErr e st
      else
        let st := handle_error o st e in
        FDone (set_pay st (Pay (pl_status (p_pay st)) (pl_errors (p_pay st))
                               (pl_config (p_pay st) ++ [p_cur st])%list))
    end
  end.

(** parse.go:162-190: the loop; one unit of fuel per queued file. *)
Fixpoint run_files (fuel : nat) (o : popts) (dir : string) (st : pst) : fres :=
  match p_queue st with
  | [] => FDone st
  | (path, ctx) :: q =>
    match fuel with
    | O => FFuel
    | S fuel =>
      match parse_file o dir path ctx (set_queue st q) with
      | FDone st => run_files fuel o dir st
      | r => r
      end
    end
  end.

Inductive result :=
| ROk (p : payload)
| RErr (e : goerr)
| RPanic
| RFuel.

Definition cycle_error : goerr := EOther "configs contain include cycle".

(** parse.go:192-200 *)
Definition finish (fuel : nat) (o : popts) (st : pst) : result :=
  if has_cycle (map fst (p_indeg st)) (p_edges st) (p_indeg st) then RErr cycle_error
  else if o_combine o then
    match combined fuel (p_pay st) with
    | CbOk p => ROk p
    | CbErr e => RErr e
    | CbPanic => RPanic
    | CbFuel => RFuel
    end
  else ROk (p_pay st).

(** parse.go:119-201 [Parse]. *)
Definition collect (fuel : nat) (o : popts) (filename : string) : fres :=
  run_files fuel o (dir_name filename) (init_state filename).
Definition parse_main (fuel : nat) (o : popts) (filename : string) : result :=
  match collect fuel o filename with
  | FPanic => RPanic
  | FFuel => RFuel
  | FErr e _ => RErr e
  | FDone st => finish fuel o st
  end.
