(** C31: the statements the parser reaches, each with the block path obtained from the
    names of the blocks entered (plain lists instead of slices). *)
From Verif Require Export ParseFacts SpecPath.
Local Open Scope string_scope.

Section Reach.
Variables (o : popts) (dir : string).
(** [at_stmt ctx path toks st c p d s]: parsing [toks] from state [st] in context [ctx],
    which stands for [path], reaches statement [d] in state [s] and context [c], inside
    the blocks [p]. *)
Inductive at_stmt : slice -> list string -> list token -> pst -> slice -> list string -> directive -> pst -> Prop :=
| at_here : forall ctx p st t r args cs term rest, starts t ->
    read_args (o_comments o) r = Some (args, cs, term, rest) ->
    at_stmt ctx p (t :: r) st ctx p (fresh o st t args) st
| at_comment : forall ctx p st t r c q d s, t_err t = None -> tok_is t "}" = false -> tok_comment t = true ->
    at_stmt ctx p r st c q d s -> at_stmt ctx p (t :: r) st c q d s
| at_skip : forall ctx p st t r args cs term rest eat st' c q d s, starts t ->
    read_args (o_comments o) r = Some (args, cs, term, rest) ->
    decide o dir ctx (fresh o st t args) term st = DSkip eat st' ->
    at_stmt ctx p (if eat then consume 0 rest else rest) st' c q d s -> at_stmt ctx p (t :: r) st c q d s
| at_map : forall ctx p st t r args cs term rest d' c q d s, starts t ->
    read_args (o_comments o) r = Some (args, cs, term, rest) ->
    decide o dir ctx (fresh o st t args) term st = DMap d' ->
    at_stmt ctx p rest st c q d s -> at_stmt ctx p (t :: r) st c q d s
| at_simple : forall ctx p st t r args cs term rest d' st' c q d s, starts t ->
    read_args (o_comments o) r = Some (args, cs, term, rest) ->
    decide o dir ctx (fresh o st t args) term st = DKeep d' st' -> term <> "{" ->
    at_stmt ctx p rest st' c q d s -> at_stmt ctx p (t :: r) st c q d s
| at_inside : forall ctx p st t r args cs rest d' st' h inner c q d s, starts t ->
    read_args (o_comments o) r = Some (args, cs, "{", rest) ->
    decide o dir ctx (fresh o st t args) "{" st = DKeep d' st' ->
    enter_block (p_heap st') ctx (d_name d') = (h, inner) ->
    at_stmt inner (below p (d_name d')) rest (set_heap st' h) c q d s -> at_stmt ctx p (t :: r) st c q d s
| at_after : forall ctx p st t r args cs rest d' st' h inner blk rest' st'' c q d s, starts t ->
    read_args (o_comments o) r = Some (args, cs, "{", rest) ->
    decide o dir ctx (fresh o st t args) "{" st = DKeep d' st' ->
    enter_block (p_heap st') ctx (d_name d') = (h, inner) ->
    Run o dir inner rest (set_heap st' h) (POk blk rest' st'') ->
    at_stmt ctx p rest' st'' c q d s -> at_stmt ctx p (t :: r) st c q d s.
End Reach.
