(** analyze.go and analyze_map.go: bit masks and directive validation. *)
From Verif Require Export Lex.
Local Open Scope string_scope.

Notation "a .| b" := (N.lor a b) (at level 50, left associativity).

(** analyze.go:59-109: bit masks. *)
Definition ngxConfNoArgs : N := 0x00000001.
Definition ngxConfTake1 : N := 0x00000002.
Definition ngxConfTake2 : N := 0x00000004.
Definition ngxConfTake3 : N := 0x00000008.
Definition ngxConfTake4 : N := 0x00000010.
Definition ngxConfTake5 : N := 0x00000020.
Definition ngxConfTake6 : N := 0x00000040.
Definition ngxConfBlock : N := 0x00000100.
Definition ngxConfExpr : N := 0x00000200.
Definition ngxConfFlag : N := 0x00000400.
Definition ngxConfAny : N := 0x00000800.
Definition ngxConf1More : N := 0x00001000.
Definition ngxConf2More : N := 0x00002000.
Definition ngxConfTake12 : N := ngxConfTake1 .| ngxConfTake2.
Definition ngxConfTake13 : N := ngxConfTake1 .| ngxConfTake3.
Definition ngxConfTake23 : N := ngxConfTake2 .| ngxConfTake3.
Definition ngxConfTake34 : N := ngxConfTake3 .| ngxConfTake4.
Definition ngxConfTake123 : N := ngxConfTake12 .| ngxConfTake3.
Definition ngxConfTake1234 : N := ngxConfTake123 .| ngxConfTake4.
Definition ngxDirectConf : N := 0x000010000.
Definition ngxMgmtMainConf : N := 0x000020000.
Definition ngxMainConf : N := 0x000040000.
Definition ngxEventConf : N := 0x000080000.
Definition ngxMailMainConf : N := 0x000100000.
Definition ngxMailSrvConf : N := 0x000200000.
Definition ngxStreamMainConf : N := 0x000400000.
Definition ngxStreamSrvConf : N := 0x000800000.
Definition ngxStreamUpsConf : N := 0x001000000.
Definition ngxHTTPMainConf : N := 0x002000000.
Definition ngxHTTPSrvConf : N := 0x004000000.
Definition ngxHTTPLocConf : N := 0x008000000.
Definition ngxHTTPUpsConf : N := 0x010000000.
Definition ngxHTTPSifConf : N := 0x020000000.
Definition ngxHTTPLifConf : N := 0x040000000.
Definition ngxHTTPLmtConf : N := 0x080000000.
Definition ngxHTTPOIDCConf : N := 0x100000000.
Definition ngxAnyConf : N :=
  ngxMainConf .| ngxEventConf .| ngxMailMainConf .| ngxMailSrvConf .|
  ngxStreamMainConf .| ngxStreamSrvConf .| ngxStreamUpsConf .|
  ngxHTTPMainConf .| ngxHTTPSrvConf .| ngxHTTPLocConf .| ngxHTTPUpsConf .|
  ngxHTTPSifConf .| ngxHTTPLifConf .| ngxHTTPLmtConf.

(** parse.go:30-32 [blockCtx.key]. *)
Definition ctx_key (c : list string) : string := join c ">".

(** parse.go:34-39 [blockCtx.getLastBlock]. *)
Definition last_block (c : list string) : string :=
  match c with [] => "main" | _ => last c "main" end.

(** analyze.go:114-131 [contexts]. *)
Definition contexts : list (string * N) :=
  [ (ctx_key [], ngxMainConf);
    (ctx_key ["events"], ngxEventConf);
    (ctx_key ["mail"], ngxMailMainConf);
    (ctx_key ["mail"; "server"], ngxMailSrvConf);
    (ctx_key ["stream"], ngxStreamMainConf);
    (ctx_key ["stream"; "server"], ngxStreamSrvConf);
    (ctx_key ["stream"; "upstream"], ngxStreamUpsConf);
    (ctx_key ["http"], ngxHTTPMainConf);
    (ctx_key ["http"; "server"], ngxHTTPSrvConf);
    (ctx_key ["http"; "location"], ngxHTTPLocConf);
    (ctx_key ["http"; "upstream"], ngxHTTPUpsConf);
    (ctx_key ["http"; "server"; "if"], ngxHTTPSifConf);
    (ctx_key ["http"; "location"; "if"], ngxHTTPLifConf);
    (ctx_key ["http"; "location"; "limit_except"], ngxHTTPLmtConf);
    (ctx_key ["mgmt"], ngxMgmtMainConf);
    (ctx_key ["http"; "oidc_provider"], ngxHTTPOIDCConf) ].

(** util.go:51-54 [validFlag]. *)
Definition valid_flag (s : string) : bool :=
  let l := to_lower s in (String.eqb l "on" || String.eqb l "off")%bool.

(** util.go:57-68 [validExpr]. *)
Definition valid_expr (args : list string) : bool :=
  match args with
  | [] => false
  | a0 :: _ =>
    let l := List.length args in
    let ae := last args EmptyString in
    (has_prefix a0 "(" && has_suffix ae ")"
     && ((Nat.eqb l 1 && Nat.ltb 2 (slen a0))
         || (Nat.eqb l 2 && (Nat.ltb 1 (slen a0) || Nat.ltb 1 (slen ae)))
         || Nat.ltb 2 l))%bool
  end.

(** parse.go:56-64 [MatchFunc]. *)
Definition match_func := string -> option (list N).

(** parse.go:67-114 [ParseOptions].  [o_open] and [o_glob] are the effective
    functions (Options.Open or os.Open, Options.Glob or filepath.Glob): the file
    system does not change during a Parse.  [inl] is success, [inr] the error
    message.  [o_default] is DefaultDirectivesMatchFunc (analyze.go:271-274), kept
    abstract here and instantiated in Tables.v. *)
Record popts := Opts {
  o_ignore : list string;
  o_callback : option (goerr -> string);
  o_open : string -> string + string;
  o_glob : string -> (list string) + string;
  o_stop : bool;
  o_combine : bool;
  o_single : bool;
  o_comments : bool;
  o_strict : bool;
  o_skipctx : bool;
  o_skipargs : bool;
  o_sources : list match_func;
  o_default : match_func;
  o_lexers : ext_lexers }.

Definition nz (n : N) : bool := negb (N.eqb n 0).
Definition has_bit (mask bit : N) : bool := nz (N.land mask bit).

(** analyze.go:150-162: masks of a directive and whether it is known. *)
Definition source_masks (sources : list match_func) (name : string) : list N * bool :=
  fold_left (fun acc fn => match fn name with
                           | Some ms => ((fst acc ++ ms)%list, true)
                           | None => acc
                           end) sources ([], false).
Definition find_masks (o : popts) (name : string) : list N * bool :=
  let r := source_masks (o_sources o) name in
  match o_sources o with
  | [] => match o_default o name with Some ms => (ms, true) | None => ([], false) end
  | _ => r
  end.

(** analyze_map.go:99-105 [hasValidArguments]; the same expression is inlined at
    analyze.go:232-236. *)
Definition valid_args (mask : N) (args : list string) : bool :=
  let n := List.length args in
  ((nz (N.land (N.shiftr mask (N.of_nat n)) 1) && Nat.leb n 7)
   || (has_bit mask ngxConfFlag && Nat.eqb n 1
       && match args with a :: _ => valid_flag a | [] => false end)
   || has_bit mask ngxConfAny
   || (has_bit mask ngxConf1More && Nat.leb 1 n)
   || (has_bit mask ngxConf2More && Nat.leb 2 n))%bool.

(** &ParseError{What, File: &fname, Line: &stmt.Line, Statement: stmt.String(), BlockCtx}. *)
Definition stmt_error (fname : string) (d : directive) (block what : string) : parse_error :=
  PE what (Some fname) (Some (d_line d)) (dir_string d) block None.

(** analyze.go:206-242: the loop over the masks; [None] means a mask accepted. *)
Fixpoint check_masks (d : directive) (term what : string) (ms : list N) : option string :=
  match ms with
  | [] => Some what
  | mask :: rest =>
    if (has_bit mask ngxConfExpr && negb (valid_expr (d_args d)))%bool then
      check_masks d term
        ("directive " ++ s_dq ++ d_name d ++ s_dq ++ "'s is not enclosed in parentheses") rest
    else if (has_bit mask ngxConfBlock && negb (String.eqb term "{"))%bool then
      check_masks d term
        ("directive " ++ s_dq ++ d_name d ++ s_dq ++ " has no opening " ++ s_dq ++ "{" ++ s_dq) rest
    else if (negb (has_bit mask ngxConfBlock) && negb (String.eqb term ";"))%bool then
      check_masks d term
        ("directive " ++ s_dq ++ d_name d ++ s_dq ++ " is not terminated by " ++ s_dq ++ ";" ++ s_dq) rest
    else if valid_args mask (d_args d) then None
    else
      let what :=
        match d_args d with
        | [a] =>
          if (has_bit mask ngxConfFlag && negb (valid_flag a))%bool
          then "invalid value " ++ s_dq ++ a ++ s_dq ++ " in " ++ s_dq ++ d_name d ++ s_dq
               ++ " directive, it must be " ++ s_dq ++ "on" ++ s_dq ++ " or " ++ s_dq ++ "off" ++ s_dq
          else "invalid number of arguments in " ++ s_dq ++ d_name d ++ s_dq ++ " directive"
        | _ => "invalid number of arguments in " ++ s_dq ++ d_name d ++ s_dq ++ " directive"
        end in
      check_masks d term what rest
  end.

(** analyze.go:143-251 [analyze]. *)
Definition analyze (o : popts) (fname : string) (d : directive) (term : string)
           (ctx : list string) : option parse_error :=
  let cur := assoc (ctx_key ctx) contexts in
  let '(masks, known) := find_masks o (d_name d) in
  let fail what := Some (stmt_error fname d (last_block ctx) what) in
  if (o_strict o && negb known)%bool then
    fail ("unknown directive " ++ s_dq ++ d_name d ++ s_dq)
  else
    match cur with
    | None => None
    | Some cm =>
      if negb known then None
      else
        let ctx_masks := if o_skipctx o then masks
                         else filter (fun m => has_bit m cm) masks in
        if (negb (o_skipctx o) && match ctx_masks with [] => true | _ => false end)%bool then
          fail (s_dq ++ d_name d ++ s_dq ++ " directive is not allowed here")
        else if o_skipargs o then None
        else match check_masks d term EmptyString ctx_masks with
             | None => None
             | Some what => fail what
             end
    end.

(** analyze.go:253-263 [unionBitmaskMaps]; each map is an association list with
    unique keys, iterated in any order. *)
Definition union_maps (maps : list (list (string * list N))) : list (string * list N) :=
  fold_left (fun u m => fold_left (fun u kv => assoc_set (fst kv) (snd kv) u) m u) maps [].

(** analyze_map.go:14-48 [mapBodies]. *)
Record map_masks := MapMasks { mm_special : list (string * N); mm_default : N }.
Definition map_bodies : list (string * map_masks) :=
  [ ("charset_map", MapMasks [] ngxConfTake1);
    ("geo", MapMasks [("ranges", ngxConfNoArgs); ("proxy_recursive", ngxConfNoArgs)] ngxConfTake1);
    ("map", MapMasks [("volatile", ngxConfNoArgs); ("hostnames", ngxConfNoArgs)] ngxConfTake1);
    ("match", MapMasks [] ngxConf1More);
    ("types", MapMasks [] ngxConf1More);
    ("split_clients", MapMasks [] ngxConfTake1);
    ("geoip2", MapMasks [("auto_reload", ngxConfTake1)] ngxConf1More);
    ("otel_exporter", MapMasks [] ngxConfTake1) ].

(** analyze_map.go:52-97 [analyzeMapBody]. *)
Definition analyze_map_body (fname : string) (d : directive) (term map_ctx : string)
  : option parse_error :=
  match assoc map_ctx map_bodies with
  | None => None
  | Some mm =>
    let fail what := Some (stmt_error fname d map_ctx what) in
    if negb (String.eqb term ";") then fail ("unexpected " ++ s_dq ++ term ++ s_dq)
    else
      match assoc (d_name d) (mm_special mm) with
      | Some mask => if valid_args mask (d_args d) then None
                     else fail "invalid number of parameters"
      | None => if valid_args (mm_default mm) (d_args d) then None
                else fail "invalid number of parameters"
      end
  end.
