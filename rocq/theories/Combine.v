(** util.go:88-172: Payload.Combined. *)
From Verif Require Export Types.
Local Open Scope string_scope.

(** What a receiver of performIncludes' channel sees up to and including the
    first failure: the directives, or the first error, or the panic of a
    goroutine (negative index into old.Config), or no answer within [fuel].
    Simplification: after an error was forwarded the producing goroutines keep
    running; what becomes of them is modelled in Chan.v. *)
Inductive cres := COk (ds : list directive) | CErr (e : goerr) | CPanic | CFuel.

Definition cadd (ds : list directive) (r : cres) : cres :=
  match r with COk ds' => COk (ds ++ ds')%list | _ => r end.
Definition cseq (a : cres) (b : cres) : cres :=
  match a with COk ds => cadd ds b | _ => a end.

Definition with_block (d : directive) (b : list directive) : directive :=
  Dir (d_name d) (d_line d) (d_args d) (d_file d) (d_includes d) (Some b) (d_comment d) (d_ismap d).

Definition index_error (fromfile : string) (d : directive) (idx : Z) : goerr :=
  EParse (PE ("include config with index: " ++ itoa idx) (Some fromfile) (Some (d_line d))
             (dir_string d) EmptyString None).

(** util.go:132-172 [performIncludes]; each call costs one unit of fuel. *)
Fixpoint perform (fuel : nat) (old : list config) (fromfile : string)
         (block : list directive) : cres :=
  match fuel with
  | O => CFuel
  | S fuel =>
    let expand_idx d :=
      fix go (idxs : list Z) : cres :=
        match idxs with
        | [] => COk []
        | i :: r =>
          if Z.leb (Z.of_nat (List.length old)) i then CErr (index_error fromfile d i)
          else if Z.ltb i 0 then CPanic
          else match nth_error old (Z.to_nat i) with
               | None => CPanic
               | Some c => cseq (perform fuel old (cf_file c) (cf_parsed c)) (go r)
               end
        end in
    (fix loop (block : list directive) : cres :=
       match block with
       | [] => COk []
       | d :: r =>
         match (match d_block d with
                | Some b => match perform fuel old fromfile b with
                            | COk nb => inl (with_block d nb)
                            | e => inr e
                            end
                | None => inl d
                end) with
         | inr e => e
         | inl d' =>
           if negb (is_include d') then cadd [d'] (loop r)
           else cseq (expand_idx d' (opt_list (d_includes d'))) (loop r)
         end
       end) block
  end.

Inductive combine_res := CbOk (p : payload) | CbErr (e : goerr) | CbPanic | CbFuel.

(** util.go:89-130 [combineConfigs], types.go:142-146 [Payload.Combined]. *)
Definition combined (fuel : nat) (old : payload) : combine_res :=
  match pl_config old with
  | [] => CbOk old
  | c0 :: _ =>
    let status := if String.eqb (pl_status old) "" then "ok" else pl_status old in
    let errs := flat_map cf_errors (pl_config old) in
    let cstatus := if existsb (fun c => String.eqb (cf_status c) "failed") (pl_config old)
                   then "failed" else "ok" in
    match perform fuel (pl_config old) (cf_file c0) (cf_parsed c0) with
    | COk ds => CbOk (Pay status (pl_errors old) [Cfg (cf_file c0) cstatus errs ds])
    | CErr e => CbErr e
    | CPanic => CbPanic
    | CFuel => CbFuel
    end
  end.
