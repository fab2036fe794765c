(** parse.go: the parser, the include queue, Parse and the cycle check. *)
From Verif Require Export Analyze GoPath.
Local Open Scope string_scope.

(** ** Slices of block names (parse.go:28 [blockCtx []string]).
    Contexts of queued files share backing arrays with the contexts of later
    blocks, so slices are modelled as (array, length) over a heap of arrays; the
    capacity of a slice is the length of its array (every blockCtx starts at
    index 0 of its array).  Unused array slots hold "". *)
Record slice := Slice { sl_arr : nat; sl_len : nat }.
Definition heap := list (list string).
Definition arr_of (h : heap) (i : nat) : list string := nth i h [].
Definition read_slice (h : heap) (s : slice) : list string :=
  firstn (sl_len s) (arr_of h (sl_arr s)).

Fixpoint set_nth {A} (n : nat) (x : A) (l : list A) : list A :=
  match n, l with
  | _, [] => []
  | O, _ :: r => x :: r
  | S k, y :: r => y :: set_nth k x r
  end.

(** runtime.growslice for one appended string: capacities double (0 becomes 1).
    Simplification: from 512 elements on the runtime grows by less, and from Go 1.22 on
    capacities of 64 and more are rounded up (71, ...). *)
Definition grow_cap (cap : nat) : nat := if Nat.eqb cap 0 then 1 else cap + cap.

(** Go's append(s, x): in place if the capacity allows, else a new array. *)
Definition append_slice (h : heap) (s : slice) (x : string) : heap * slice :=
  let a := arr_of h (sl_arr s) in
  if Nat.ltb (sl_len s) (List.length a) then
    (set_nth (sl_arr s) (set_nth (sl_len s) x a) h, Slice (sl_arr s) (S (sl_len s)))
  else
    let a' := (firstn (sl_len s) a ++ [x])%list in
    let pad := repeat EmptyString (grow_cap (List.length a) - List.length a') in
    ((h ++ [(a' ++ pad)%list])%list, Slice (List.length h) (S (sl_len s))).

(** analyze.go:133-140 [enterBlockCtx]. *)
Definition enter_block (h : heap) (ctx : slice) (name : string) : heap * slice :=
  match read_slice h ctx with
  | c0 :: _ =>
    if (String.eqb c0 "http" && String.eqb name "location")%bool
    then ((h ++ [["http"; "location"]])%list, Slice (List.length h) 2)
    else append_slice h ctx name
  | [] => append_slice h ctx name
  end.

(** ** Parser state: parse.go:46-54 [parser], the Config being parsed, the Payload
    being built, the heap of context arrays, and ghost logs. *)
Record pst := Pst {
  p_queue : list (string * slice);          (* includes *)
  p_included : list (string * Z);           (* included *)
  p_edges : list (string * list string);    (* includeEdges *)
  p_indeg : list (string * Z);              (* includeInDegree *)
  p_heap : heap;
  p_cur : config;
  p_pay : payload;
  p_opens : list string;
  p_asked : list (string * list string);    (* ghost: file and block path of each first include *)
  p_used : list (string * list string) }.   (* ghost: file and context of each file parsed *)

Definition set_queue st v := Pst v (p_included st) (p_edges st) (p_indeg st) (p_heap st) (p_cur st) (p_pay st) (p_opens st) (p_asked st) (p_used st).
Definition set_heap st v := Pst (p_queue st) (p_included st) (p_edges st) (p_indeg st) v (p_cur st) (p_pay st) (p_opens st) (p_asked st) (p_used st).
Definition set_cur st v := Pst (p_queue st) (p_included st) (p_edges st) (p_indeg st) (p_heap st) v (p_pay st) (p_opens st) (p_asked st) (p_used st).
Definition set_pay st v := Pst (p_queue st) (p_included st) (p_edges st) (p_indeg st) (p_heap st) (p_cur st) v (p_opens st) (p_asked st) (p_used st).
Definition log_open st f := Pst (p_queue st) (p_included st) (p_edges st) (p_indeg st) (p_heap st) (p_cur st) (p_pay st) (p_opens st ++ [f])%list (p_asked st) (p_used st).
Definition log_use st f ctx := Pst (p_queue st) (p_included st) (p_edges st) (p_indeg st) (p_heap st) (p_cur st) (p_pay st) (p_opens st) (p_asked st) (p_used st ++ [(f, read_slice (p_heap st) ctx)])%list.

(** parse.go:129-147 [handleError]. *)
Definition err_line (e : goerr) : option Z :=
  match e with EParse p => pe_line p | EOther _ => None end.
Definition handle_error (o : popts) (st : pst) (e : goerr) : pst :=
  let c := p_cur st in
  let pl := p_pay st in
  let cb := match o_callback o with Some f => Some (f e) | None => None end in
  set_pay
    (set_cur st (Cfg (cf_file c) "failed" (cf_errors c ++ [CE (err_line e) e])%list (cf_parsed c)))
    (Pay "failed" (pl_errors pl ++ [PyE (cf_file c) (err_line e) e cb])%list (pl_config pl)).

(** parse.go:217-232: an error token. *)
Definition token_error (file block : string) (t : token) (e : goerr) : goerr :=
  match e with
  | EParse p => EParse (PE (pe_what p) (Some file) (pe_line p) (pe_stmt p) block (pe_orig p))
  | EOther m => EParse (PE m (Some file) (Some (t_line t)) EmptyString block (Some m))
  end.

(** parse.go:24, 274-283, 290-299. *)
Definition premature : string := "premature end of file".
Definition premature_error (file block : string) (line : Z) : goerr :=
  EParse (PE premature (Some file) (Some line) EmptyString block (Some premature)).

Definition tok_is (t : token) (v : string) : bool :=
  (negb (t_quoted t) && String.eqb (t_val t) v)%bool.
Definition is_term (t : token) : bool := (tok_is t "{" || tok_is t ";" || tok_is t "}")%bool.
Definition tok_comment (t : token) : bool := (has_prefix (t_val t) "#" && negb (t_quoted t))%bool.

(** parse.go:272-300: read arguments up to an unquoted terminator.  Result:
    arguments, comments in between, terminator, remaining tokens; [None] at the
    end of the channel.  t.Error is not looked at. *)
Fixpoint read_args (comments : bool) (toks : list token)
  : option (list string * list string * string * list token) :=
  match toks with
  | [] => None
  | t :: r =>
    if is_term t then Some ([], [], t_val t, r)
    else match read_args comments r with
         | None => None
         | Some (args, cs, term, rest) =>
           if negb (tok_comment t) then Some (t_val t :: args, cs, term, rest)
           else if comments then Some (args, drop 1 (t_val t) :: cs, term, rest)
           else Some (args, cs, term, rest)
         end
  end.

(** parse(…, consume=true) (parse.go:236-248): skip to the matching '}'.  Nested
    calls are counted by [depth]; an error token ends the innermost call and its
    error is discarded (parse.go:245). *)
Fixpoint consume (depth : nat) (toks : list token) : list token :=
  match toks with
  | [] => []
  | t :: r =>
    let leave := match depth with O => r | S d => consume d r end in
    match t_err t with
    | Some _ => leave
    | None => if tok_is t "}" then leave
              else if tok_is t "{" then consume (S depth) r
              else consume depth r
    end
  end.

(** util.go:71-86 [prepareIfArgs]; [None] is the slice-bounds panic of line 83. *)
Definition prepare_if (args : list string) : option (list string) :=
  match args with
  | [] => Some args
  | a0 :: _ =>
    let e := Nat.pred (List.length args) in
    if (has_prefix a0 "(" && has_suffix (last args EmptyString) ")")%bool then
      let args1 := set_nth 0 (trim_left is_space_rune (trim_prefix a0 "(")) args in
      let args2 := set_nth e (trim_right is_space_rune
                                (trim_suffix (nth e args1 EmptyString) ")")) args1 in
      let b := if Nat.eqb (slen (nth 0 args2 EmptyString)) 0 then 1 else 0 in
      (* exclusive upper bound e+1, or e if the last argument became empty *)
      let hi := if Nat.eqb (slen (nth e args2 EmptyString)) 0 then e else S e in
      if Nat.ltb hi b then None
      else Some (firstn (hi - b) (skipn b args2))
    else Some args
  end.

(** parse.go:22 [hasMagic]. *)
Definition has_magic (s : string) : bool := contains_any s "*?[".

(** parse.go:403-414: one resolved file name of an include directive. *)
Definition get_z (k : string) (m : list (string * Z)) : Z :=
  match assoc k m with Some z => z | None => 0%Z end.
Definition add_include (ctx : slice) (st : pst) (fname : string) : pst * Z :=
  let '(queue, inc, asked) :=
    match assoc fname (p_included st) with
    | Some _ => (p_queue st, p_included st, p_asked st)
    | None => ((p_queue st ++ [(fname, ctx)])%list,
               assoc_set fname (Z.of_nat (List.length (p_included st))) (p_included st),
               (p_asked st ++ [(fname, read_slice (p_heap st) ctx)])%list)
    end in
  let file := cf_file (p_cur st) in
  let es := match assoc file (p_edges st) with Some l => l | None => [] end in
  (Pst queue inc (assoc_set file (es ++ [fname])%list (p_edges st))
       (assoc_set fname (get_z fname (p_indeg st) + 1)%Z (p_indeg st))
       (p_heap st) (p_cur st) (p_pay st) (p_opens st) asked (p_used st),
   get_z fname inc).

Fixpoint add_includes (ctx : slice) (st : pst) (fnames : list string) : pst * list Z :=
  match fnames with
  | [] => (st, [])
  | f :: r => let '(st1, i) := add_include ctx st f in
              let '(st2, is) := add_includes ctx st1 r in (st2, i :: is)
  end.

Definition set_includes (d : directive) (is : list Z) : directive :=
  Dir (d_name d) (d_line d) (d_args d) (d_file d)
      (match is with [] => d_includes d | _ => Some (opt_list (d_includes d) ++ is)%list end)
      (d_block d) (d_comment d) (d_ismap d).
Definition set_args (d : directive) (a : list string) : directive :=
  Dir (d_name d) (d_line d) a (d_file d) (d_includes d) (d_block d) (d_comment d) (d_ismap d).
Definition set_block (d : directive) (b : list directive) : directive :=
  Dir (d_name d) (d_line d) (d_args d) (d_file d) (d_includes d) (Some b) (d_comment d) (d_ismap d).
Definition set_ismap (d : directive) : directive :=
  Dir (d_name d) (d_line d) (d_args d) (d_file d) (d_includes d) (d_block d) (d_comment d) true.

(** What to do with a complete statement. *)
Inductive decision :=
| DKeep (d : directive) (st : pst)        (* continue with 418-445 *)
| DMap (d : directive)                    (* map parameter: append, continue *)
| DSkip (eat : bool) (st : pst)           (* drop it; [eat]: consume up to '}' *)
| DBreak (st : pst)                       (* break out of the loop *)
| DErr (e : goerr) (st : pst)             (* return nil, err *)
| DPanic.

(** parse.go:352-415: the include part. *)
Definition resolve (dir arg0 : string) : string :=
  if is_abs arg0 then arg0 else join_path dir arg0.
Definition do_include (o : popts) (dir : string) (ctx : slice) (d : directive) (st : pst)
  : decision :=
  let file := cf_file (p_cur st) in
  let block := last_block (read_slice (p_heap st) ctx) in
  match d_args d with
  | [] =>
    DErr (EParse (PE ("invalid number of arguments in " ++ s_dq ++ d_name d ++ s_dq
                      ++ " directive in " ++ file ++ ":" ++ itoa (d_line d))
                     (Some file) (Some (d_line d)) (dir_string d) block None)) st
  | arg0 :: _ =>
    let pattern := resolve dir arg0 in
    if has_magic pattern then
      match o_glob o pattern with
      | inr msg => DErr (EOther msg) st
      | inl fnames =>
        let '(st', is) := add_includes ctx st (sort_strings fnames) in
        DKeep (set_includes d is) st'
      end
    else
      let st := log_open st pattern in
      match o_open o pattern with
      | inr msg =>
        let e := EParse (PE msg (Some file) (Some (d_line d)) (dir_string d) block None) in
        if o_stop o then DErr e st else DKeep d (handle_error o st e)
      | inl _ =>
        let '(st', is) := add_includes ctx st [pattern] in
        DKeep (set_includes d is) st'
      end
  end.

(** parse.go:302-415: from the complete statement to the decision. *)
Definition not_terminated : string := " is not terminated by " ++ s_dq ++ ";" ++ s_dq.
Definition decide (o : popts) (dir : string) (ctx : slice) (d : directive) (term : string)
           (st : pst) : decision :=
  let file := cf_file (p_cur st) in
  let cl := read_slice (p_heap st) ctx in
  let in_map := match cl with
                | [] => None
                | _ => match assoc (last cl EmptyString) map_bodies with
                       | Some _ => Some (last cl EmptyString)
                       | None => None
                       end
                end in
  match in_map with
  | Some m =>                                                       (* 303-320 *)
    match analyze_map_body file d term m with
    | Some e => if o_stop o then DErr (EParse e) st
                else DSkip (String.eqb term "{") (handle_error o st (EParse e))
    | None => DMap (set_ismap d)
    end
  | None =>
    if mem_str (d_name d) (o_ignore o) then                         (* 323-329 *)
      DSkip (String.eqb term "{") st
    else
      match analyze o file d term cl with                           (* 332-348 *)
      | Some e =>
        if o_stop o then DErr (EParse e) st
        else
          let st := handle_error o st (EParse e) in
          if has_suffix (pe_what e) not_terminated then
            if negb (String.eqb term "}") then DSkip true st else DBreak st
          else DSkip false st
      | None =>
        match (if String.eqb (d_name d) "if" then prepare_if (d_args d)   (* 351-353 *)
               else Some (d_args d)) with
        | None => DPanic
        | Some args =>
          let d := set_args d args in
          if (negb (o_single o) && String.eqb (d_name d) "include")%bool  (* 356-415 *)
          then do_include o dir ctx d st
          else DKeep d st
        end
      end
  end.

Inductive pres :=
| POk (ds : list directive) (rest : list token) (st : pst)
| PErr (e : goerr) (rest : list token) (st : pst)
| PPanic
| PFuel.

Definition padd (ds : list directive) (r : pres) : pres :=
  match r with POk ds' rest st => POk (ds ++ ds')%list rest st | _ => r end.

Definition comment_dir (file : string) (line : Z) (c : string) : directive :=
  Dir "#" line [] file None None (Some c) false.

Definition file_label (o : popts) (st : pst) : string :=
  if o_combine o then cf_file (p_cur st) else EmptyString.

(** parse.go:214-449 [parser.parse] with consume=false.  [toks] are the tokens
    still to come on the channel; every recursive call has consumed at least one
    token, so [S (length toks)] is enough fuel (proved in ParseFacts.v). *)
Fixpoint parse (o : popts) (dir : string) (fuel : nat) (ctx : slice) (toks : list token)
         (st : pst) : pres :=
  match fuel with
  | O => PFuel
  | S fuel =>
    match toks with
    | [] => POk [] [] st
    | t :: toks =>
      let block := last_block (read_slice (p_heap st) ctx) in
      let file := cf_file (p_cur st) in
      match t_err t with
      | Some e => PErr (token_error file block t e) toks st
      | None =>
        if tok_is t "}" then POk [] toks st
        else if tok_comment t then                                   (* 262-270 *)
          padd (if o_comments o
                then [comment_dir (file_label o st) (t_line t) (drop 1 (t_val t))] else [])
               (parse o dir fuel ctx toks st)
        else
          match read_args (o_comments o) toks with
          | None => PErr (premature_error file block (t_line t)) [] st
          | Some (args, cs, term, rest) =>
            let d := Dir (t_val t) (t_line t) args (file_label o st) None None None false in
            let cds := map (comment_dir (file_label o st) (t_line t)) cs in
            match decide o dir ctx d term st with
            | DPanic => PPanic
            | DErr e st => PErr e rest st
            | DBreak st => POk [] rest st
            | DSkip eat st =>
              parse o dir fuel ctx (if eat then consume 0 rest else rest) st
            | DMap d => padd [d] (parse o dir fuel ctx rest st)
            | DKeep d st =>
              if String.eqb term "{" then                            (* 418-426 *)
                let '(h, inner) := enter_block (p_heap st) ctx (d_name d) in
                match parse o dir fuel inner rest (set_heap st h) with
                | POk blk rest st =>
                  padd (set_block d blk :: cds) (parse o dir fuel ctx rest st)
                | r => r
                end
              else padd (d :: cds) (parse o dir fuel ctx rest st)
            end
          end
      end
    end
  end.

(** parse.go:456-481 [isAcyclic] (despite its name it returns true for cycles).
    [order] is the order in which the map includeInDegree is iterated. *)
Fixpoint relax (indeg : list (string * Z)) (ns : list string)
  : list (string * Z) * list string :=
  match ns with
  | [] => (indeg, [])
  | f :: r =>
    let v := (get_z f indeg - 1)%Z in
    let '(m, q) := relax (assoc_set f v indeg) r in
    (m, if Z.eqb v 0 then f :: q else q)
  end.
Fixpoint kahn (fuel : nat) (edges : list (string * list string)) (indeg : list (string * Z))
         (queue : list string) (count : nat) : option nat :=
  match queue with
  | [] => Some count
  | f :: q =>
    match fuel with
    | O => None
    | S fuel =>
      let ns := match assoc f edges with Some l => l | None => [] end in
      let '(m, new) := relax indeg ns in
      kahn fuel edges m (q ++ new)%list (S count)
    end
  end.
Definition edge_count (edges : list (string * list string)) : nat :=
  fold_right (fun kv n => List.length (snd kv) + n) 0 edges.
Definition has_cycle (order : list string) (edges : list (string * list string))
           (indeg : list (string * Z)) : bool :=
  let q := filter (fun k => Z.eqb (get_z k indeg) 0) order in
  match kahn (List.length order + edge_count edges) edges indeg q 0 with
  | Some n => negb (Nat.eqb n (List.length indeg))
  | None => false (* excluded by a lemma *)
  end.
