(** parse.go:119-201, 204-210, 214-449: the files Parse opens and closes.
    The functions of Parse.v and Main.v once more, with what is opened and closed on the way:
    a call of [parse] closes what it opened when it returns, in reverse order (parse.go:402
    [defer f.Close()]), and so does Parse (parse.go:170 [defer file.Close()]); deferred calls
    are also made when the function panics.  A handle is the number of the successful open.
    That the lexer's goroutine may still read from a file when it is closed is not modelled
    here (see C41); neither are errors of Close, which Parse ignores. *)
From Verif Require Export Main.
Local Open Scope string_scope.

Inductive event := Open (k : nat) (path : string) | Close (k : nat).
Record handles := Hs { h_next : nat; h_log : list event }.
Definition h_open (path : string) (h : handles) : handles :=
  Hs (S (h_next h)) (h_log h ++ [Open (h_next h) path])%list.
(** Deferred calls, the last one first. *)
Definition run_deferred (ds : list nat) (h : handles) : handles :=
  Hs (h_next h) (h_log h ++ map Close ds)%list.

(** parse.go:388-402: what a statement opened.  [p_opens] has all calls of openFile. *)
Definition state_after (st : pst) (d : decision) : pst :=
  match d with
  | DKeep _ st' | DSkip _ st' | DBreak st' | DErr _ st' => st'
  | DMap _ | DPanic => st
  end.
Definition opened_by (o : popts) (st : pst) (d : decision) : option string :=
  match skipn (List.length (p_opens st)) (p_opens (state_after st d)) with
  | p :: _ => match o_open o p with inl _ => Some p | inr _ => None end
  | [] => None
  end.
Definition note_open (p : option string) (ds : list nat) (h : handles) : list nat * handles :=
  match p with
  | Some p => (h_next h :: ds, h_open p h)
  | None => (ds, h)
  end.

(** parse.go:214-449 [parser.parse]; [ds] are the deferred calls of this call. *)
Fixpoint parse_h (o : popts) (dir : string) (fuel : nat) (ctx : slice) (toks : list token)
         (st : pst) (ds : list nat) (h : handles) : pres * handles :=
  let return_ r h := (r, run_deferred ds h) in
  match fuel with
  | O => return_ PFuel h
  | S fuel =>
    match toks with
    | [] => return_ (POk [] [] st) h
    | t :: toks =>
      let block := last_block (read_slice (p_heap st) ctx) in
      let file := cf_file (p_cur st) in
      match t_err t with
      | Some e => return_ (PErr (token_error file block t e) toks st) h
      | None =>
        if tok_is t "}" then return_ (POk [] toks st) h
        else if tok_comment t then
          let '(r, h) := parse_h o dir fuel ctx toks st ds h in
          (padd (if o_comments o
                 then [comment_dir (file_label o st) (t_line t) (drop 1 (t_val t))] else []) r, h)
        else
          match read_args (o_comments o) toks with
          | None => return_ (PErr (premature_error file block (t_line t)) [] st) h
          | Some (args, cs, term, rest) =>
            let d := Dir (t_val t) (t_line t) args (file_label o st) None None None false in
            let cds := map (comment_dir (file_label o st) (t_line t)) cs in
            let dec := decide o dir ctx d term st in
            let '(ds, h) := note_open (opened_by o st dec) ds h in
            let return_ r h := (r, run_deferred ds h) in
            match dec with
            | DPanic => return_ PPanic h
            | DErr e st => return_ (PErr e rest st) h
            | DBreak st => return_ (POk [] rest st) h
            | DSkip eat st =>
              parse_h o dir fuel ctx (if eat then consume 0 rest else rest) st ds h
            | DMap d => let '(r, h) := parse_h o dir fuel ctx rest st ds h in (padd [d] r, h)
            | DKeep d st =>
              if String.eqb term "{" then
                let '(hp, inner) := enter_block (p_heap st) ctx (d_name d) in
                match parse_h o dir fuel inner rest (set_heap st hp) [] h with
                | (POk blk rest st, h) =>
                  let '(r, h) := parse_h o dir fuel ctx rest st ds h in
                  (padd (set_block d blk :: cds) r, h)
                | (r, h) => return_ r h
                end
              else let '(r, h) := parse_h o dir fuel ctx rest st ds h in (padd (d :: cds) r, h)
            end
          end
      end
    end
  end.

(** parse.go:162-190: one queued file; [ds] are the deferred calls of Parse. *)
Definition parse_file_h (o : popts) (dir : string) (path : string) (ctx : slice) (st : pst)
           (ds : list nat) (h : handles) : fres * list nat * handles :=
  let st := log_use (log_open st path) path ctx in
  match o_open o path with
  | inr msg => (FErr (EOther msg) st, ds, h)
  | inl content =>
    let '(ds, h) := note_open (Some path) ds h in
    let toks := lex (o_lexers o) content in
    let st := set_cur st (Cfg path "ok" [] []) in
    let '(r, h) := parse_h o dir (S (List.length toks)) ctx toks st [] h in
    (match r with
     | PPanic => FPanic
     | PFuel => FFuel
     | POk trees _ st =>
       let c := p_cur st in
       let c := Cfg (cf_file c) (cf_status c) (cf_errors c) trees in
       FDone (set_pay st (Pay (pl_status (p_pay st)) (pl_errors (p_pay st))
                              (pl_config (p_pay st) ++ [c])%list))
     | PErr e _ st =>
       if o_stop o then FErr e st
       else
         let st := handle_error o st e in
         FDone (set_pay st (Pay (pl_status (p_pay st)) (pl_errors (p_pay st))
                                (pl_config (p_pay st) ++ [p_cur st])%list))
     end, ds, h)
  end.
Fixpoint run_files_h (fuel : nat) (o : popts) (dir : string) (st : pst) (ds : list nat) (h : handles)
  : fres * list nat * handles :=
  match p_queue st with
  | [] => (FDone st, ds, h)
  | (path, ctx) :: q =>
    match fuel with
    | O => (FFuel, ds, h)
    | S fuel =>
      match parse_file_h o dir path ctx (set_queue st q) ds h with
      | (FDone st, ds, h) => run_files_h fuel o dir st ds h
      | r => r
      end
    end
  end.
(** parse.go:119-201 [Parse]: the result and what was opened and closed. *)
Definition parse_log (fuel : nat) (o : popts) (filename : string) : result * list event :=
  let '(r, ds, h) := run_files_h fuel o (dir_name filename) (init_state filename) [] (Hs 0 []) in
  (match r with
   | FPanic => RPanic
   | FFuel => RFuel
   | FErr e _ => RErr e
   | FDone st => finish fuel o st
   end, h_log (run_deferred ds h)).
