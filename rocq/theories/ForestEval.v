(** Evaluation of forests: what the parser does on well-formed token lists, as long as
    no statement leaves the nesting out of step. *)
From Verif Require Export ForestFacts Main.
Local Open Scope string_scope.

Inductive ev := EOk (ds : list directive) (st : pst) | EErr (e : goerr) (st : pst) | EPanic | EWild.
Definition eadd (ds : list directive) (r : ev) : ev :=
  match r with EOk ds' st => EOk (ds ++ ds')%list st | _ => r end.

Section Seq.
  Variable f : stmt -> pst -> ev.
  Fixpoint eseq (F : list stmt) (st : pst) : ev :=
    match F with
    | [] => EOk [] st
    | s :: r => match f s st with EOk ds st' => eadd ds (eseq r st') | e => e end
    end.
End Seq.

Section Eval.
Variables (o : popts) (dir : string).

Fixpoint eval_stmt (ctx : slice) (s : stmt) (st : pst) {struct s} : ev :=
  match s with
  | SCom t => EOk (if o_comments o then [comment_dir (file_label o st) (t_line t) (drop 1 (t_val t))] else []) st
  | SStm h args l body =>
    let term := match body with None => ";" | Some _ => "{" end in
    let cds := comments_of o st (t_line h) (arg_coms (o_comments o) args) in
    match decide o dir ctx (fresh o st h (arg_vals args)) term st with
    | DPanic => EPanic
    | DErr e st' => EErr e st'
    | DBreak _ => EWild
    | DSkip eat st' => if Bool.eqb eat (match body with None => false | Some _ => true end) then EOk [] st' else EWild
    | DMap d => match body with None => EOk [d] st | Some _ => EWild end
    | DKeep d st' =>
      match body with
      | None => EOk (d :: cds) st'
      | Some (b, _) =>
        let '(h', inner) := enter_block (p_heap st') ctx (d_name d) in
        match eseq (eval_stmt inner) b (set_heap st' h') with
        | EOk blk st'' => EOk (set_block d blk :: cds) st''
        | e => e
        end
      end
    end
  end.
Definition eval_forest (ctx : slice) (F : list stmt) (st : pst) : ev := eseq (eval_stmt ctx) F st.

Definition run_like (ctx : slice) (toks : list token) (st : pst) (e : ev) : Prop :=
  match e with
  | EOk ds st1 => forall rest r, Run o dir ctx rest st1 r -> Run o dir ctx (toks ++ rest) st (padd ds r)
  | EErr e st1 => forall rest, exists rest', Run o dir ctx (toks ++ rest) st (PErr e rest' st1)
  | EPanic => forall rest, Run o dir ctx (toks ++ rest) st PPanic
  | EWild => True
  end.
Lemma padd_padd : forall a b r, padd a (padd b r) = padd (a ++ b) r.
Proof. intros a b []; cbn; auto. now rewrite app_assoc. Qed.
Lemma padd_nil : forall r, padd [] r = r.
Proof. now intros []. Qed.

Lemma eval_seq_like : forall ctx F, Forall (fun s => forall st, run_like ctx (stmt_toks s) st (eval_stmt ctx s st)) F ->
  forall st, run_like ctx (flat F) st (eval_forest ctx F st).
Proof.
  intros ctx F H. unfold eval_forest. induction H as [|s F HS H IH]; intros st.
  - intros rest r R. now rewrite padd_nil.
  - unfold flat in *. cbn [flat_map eseq]. specialize (HS st).
    destruct (eval_stmt ctx s st) as [ds st'|e st'| |]; cbn [run_like] in *.
    + specialize (IH st'). destruct (eseq (eval_stmt ctx) F st') as [ds' st''|e st''| |]; cbn [eadd run_like] in *; auto.
      * intros rest r R. rewrite <- app_assoc, <- padd_padd. auto.
      * intros rest. destruct (IH rest) as [rest' R]. exists rest'. rewrite <- app_assoc.
        change (PErr e rest' st'') with (padd ds (PErr e rest' st'')). auto.
      * intros rest. rewrite <- app_assoc. change PPanic with (padd ds PPanic). auto.
    + intros rest. destruct (HS (flat_map stmt_toks F ++ rest)%list) as [rest' R]. rewrite app_assoc in R. eauto.
    + intros rest. rewrite <- app_assoc. auto.
    + auto.
Qed.

Lemma eval_stmt_like : forall s, wf_stmt s -> forall ctx st, run_like ctx (stmt_toks s) st (eval_stmt ctx s st).
Proof.
  intros s. induction s as [t|h args l|h args l b c IH] using stmt_ind2; intros W ctx st.
  - apply wf_com_inv in W as [TE H]. cbn [eval_stmt run_like stmt_toks app].
    intros rest r R. apply R_comment; auto; [now apply hash_not_close|now apply hash_comment].
  - apply wf_stm_inv in W as (TE & P & NH & FA & _).
    assert (ST : starts h). { repeat split; auto; [now apply plain_not_open|now apply not_hash]. }
    assert (RA : forall rest, read_args (o_comments o) ((args ++ [Tok ";" l false None]) ++ rest)%list =
                   Some (arg_vals args, arg_coms (o_comments o) args, ";", rest)).
    { intros rest. rewrite <- app_assoc. cbn [app]. apply read_args_flat; cbn; auto. }
    cbn [eval_stmt stmt_toks].
    destruct (decide o dir ctx (fresh o st h (arg_vals args)) ";" st) as [d st'|d|eat st'|st'|e st'|] eqn:D.
    + intros rest r R. cbn [app].
      exact (R_simple o dir ctx st h _ _ _ ";" _ d st' r ST (RA rest) D eq_refl R).
    + intros rest r R. exact (R_map o dir ctx st h _ _ _ ";" _ d r ST (RA rest) D R).
    + destruct eat; [exact I|]. intros rest r R. rewrite padd_nil.
      exact (R_skip o dir ctx st h _ _ _ ";" _ false st' r ST (RA rest) D R).
    + exact I.
    + intros rest. eexists. exact (R_err o dir ctx st h _ _ _ ";" _ e st' ST (RA rest) D).
    + intros rest. exact (R_panic o dir ctx st h _ _ _ ";" _ ST (RA rest) D).
  - apply wf_stm_inv in W as (TE & P & NH & FA & FB).
    assert (ST : starts h). { repeat split; auto; [now apply plain_not_open|now apply not_hash]. }
    assert (TK : forall rest, (stmt_toks (SStm h args l (Some (b, c))) ++ rest)%list =
              (h :: (args ++ Tok "{" l false None :: (flat b ++ Tok "}" c false None :: rest)))%list).
    { intros rest. cbn [stmt_toks app]. f_equal. rewrite <- app_assoc. cbn [app]. rewrite <- app_assoc. reflexivity. }
    assert (RA : forall rest, read_args (o_comments o) (args ++ Tok "{" l false None :: rest)%list =
                   Some (arg_vals args, arg_coms (o_comments o) args, "{", rest)).
    { intros rest. apply read_args_flat; cbn; auto. }
    cbn [eval_stmt].
    destruct (decide o dir ctx (fresh o st h (arg_vals args)) "{" st) as [d st'|d|eat st'|st'|e st'|] eqn:D.
    + destruct (enter_block (p_heap st') ctx (d_name d)) as [h' inner] eqn:EB.
      assert (SEQ : run_like inner (flat b) (set_heap st' h') (eseq (eval_stmt inner) b (set_heap st' h'))).
      { apply eval_seq_like. clear - IH FB. induction b as [|s b IHb]; constructor; inversion IH; inversion FB; subst; auto. }
      destruct (eseq (eval_stmt inner) b (set_heap st' h')) as [blk st''|e st''| |]; cbn [run_like] in *; auto.
      * intros rest r R. rewrite TK. specialize (SEQ (Tok "}" c false None :: rest) (POk [] rest st'')).
        cbn [padd] in SEQ. rewrite app_nil_r in SEQ.
        refine (R_block o dir ctx st h _ _ _ "{" _ d st' h' inner blk rest st'' r ST (RA _) D eq_refl EB _ R).
        apply SEQ. now constructor.
      * intros rest. rewrite TK. destruct (SEQ (Tok "}" c false None :: rest)) as [rest' R]. exists rest'.
        exact (R_blockfail o dir ctx st h _ _ _ "{" _ d st' h' inner _ ST (RA _) D eq_refl EB R I).
      * intros rest. rewrite TK.
        exact (R_blockfail o dir ctx st h _ _ _ "{" _ d st' h' inner _ ST (RA _) D eq_refl EB (SEQ _) I).
    + exact I.
    + destruct eat; [|exact I]. intros rest r R. rewrite padd_nil, TK.
      refine (R_skip o dir ctx st h _ _ _ "{" _ true st' r ST (RA _) D _).
      rewrite consume_flat by auto. exact R.
    + exact I.
    + intros rest. eexists. rewrite TK. exact (R_err o dir ctx st h _ _ _ "{" _ e st' ST (RA _) D).
    + intros rest. rewrite TK. exact (R_panic o dir ctx st h _ _ _ "{" _ ST (RA _) D).
Qed.
Lemma eval_like : forall F, Forall wf_stmt F -> forall ctx st, run_like ctx (flat F) st (eval_forest ctx F st).
Proof.
  intros F W ctx st. apply eval_seq_like. eapply Forall_impl; [|exact W]. intros s WS st0. now apply eval_stmt_like.
Qed.
Lemma eval_run : forall F ctx st ds st1, Forall wf_stmt F -> eval_forest ctx F st = EOk ds st1 ->
  Run o dir ctx (flat F) st (POk ds [] st1).
Proof.
  intros F ctx st ds st1 W E. pose proof (eval_like F W ctx st) as L. rewrite E in L. cbn in L.
  specialize (L [] (POk [] [] st1) (R_end o dir ctx st1)). cbn [padd] in L. now rewrite !app_nil_r in L.
Qed.
Lemma eval_frame : forall F ctx st ds st1, Forall wf_stmt F -> eval_forest ctx F st = EOk ds st1 ->
  good (p_heap st) ctx -> frame ctx (p_heap st) (p_heap st1).
Proof.
  intros F ctx st ds st1 W E G. apply eval_run in E; auto. apply run_frame in E; auto.
Qed.
Lemma eval_parse : forall F ctx st fuel, Forall wf_stmt F -> List.length (flat F) < fuel ->
  match eval_forest ctx F st with
  | EOk ds st1 => parse o dir fuel ctx (flat F) st = POk ds [] st1
  | EErr e st1 => exists rest, parse o dir fuel ctx (flat F) st = PErr e rest st1
  | EPanic => parse o dir fuel ctx (flat F) st = PPanic
  | EWild => True
  end.
Proof.
  intros F ctx st fuel W L. pose proof (eval_like F W ctx st) as EL.
  destruct (eval_forest ctx F st) as [ds st1|e st1| |] eqn:E; cbn [run_like] in EL; auto.
  - apply run_parse; auto. now apply eval_run.
  - destruct (EL []) as [rest' R]. rewrite app_nil_r in R. exists rest'. now apply run_parse.
  - specialize (EL []). rewrite app_nil_r in EL. now apply run_parse.
Qed.
End Eval.
