(** C09: built text as a layout of lexical items. *)
From Verif Require Export RoundArg ForestFacts.
Local Open Scope string_scope.

(** ** Pieces of layouts *)
Definition item_ := (gap * lexeme)%type.
Fixpoint chain (prev : option lexeme) (L : list item_) : bool :=
  match L with
  | [] => true
  | (g, x) :: L => (gap_ok g && lexeme_ok x && fits prev g (Some x) && chain (Some x) L)%bool
  end.
Fixpoint lastl (prev : option lexeme) (L : list item_) : option lexeme :=
  match L with [] => prev | (_, x) :: L => lastl (Some x) L end.
Fixpoint after (line : Z) (L : list item_) : Z :=
  match L with [] => line | (g, x) :: L => after (line + newlines (concat_str g) + newlines (lexeme_src x)) L end.
Definition rtext (L : list item_) : string := render L [].
Lemma chain_app : forall a prev b, chain prev (a ++ b) = (chain prev a && chain (lastl prev a) b)%bool.
Proof. induction a as [|[g x] a IH]; intros prev b; auto. cbn [app chain lastl]. rewrite IH. now rewrite !andb_assoc. Qed.
Lemma lastl_app : forall a prev b, lastl prev (a ++ b) = lastl (lastl prev a) b.
Proof. induction a as [|[g x] a IH]; intros prev b; auto. cbn [app lastl]. apply IH. Qed.
Lemma laid_chain : forall L prev last, laid prev L last = (chain prev L && laid (lastl prev L) [] last)%bool.
Proof. induction L as [|[g x] a IH]; intros prev last; auto. cbn [laid chain lastl]. rewrite IH. cbn [laid]. now rewrite !andb_assoc. Qed.
Lemma after_app : forall a line b, after line (a ++ b) = after (after line a) b.
Proof. induction a as [|[g x] a IH]; intros line b; auto. cbn [app after]. apply IH. Qed.
Lemma tokens_app : forall a line b, tokens_of line (a ++ b) = (tokens_of line a ++ tokens_of (after line a) b)%list.
Proof. induction a as [|[g x] a IH]; intros line b; auto. cbn [app after tokens_of]. now rewrite IH. Qed.
Lemma render_app : forall a b last, render (a ++ b) last = rtext a ++ render b last.
Proof. induction a as [|[g x] a IH]; intros b last; auto. unfold rtext. cbn [app render]. rewrite IH. unfold rtext. now rewrite !app_assoc_s. Qed.
Lemma rtext_app : forall a b, rtext (a ++ b) = rtext a ++ rtext b.
Proof. intros. unfold rtext. now rewrite render_app. Qed.
Lemma rtext_cons : forall g x L, rtext ((g, x) :: L) = concat_str g ++ lexeme_src x ++ rtext L.
Proof. reflexivity. Qed.

(** ** Statements as items *)
Definition one : gap := [s_sp].
Definition close_lex : piece := Raw ")".
Fixpoint close_items (l : list string) : list item_ :=
  match l with
  | [] => []
  | [a] => if needs_quote a then [(one, arg_lex a); ([], Word [close_lex])] else [(one, Word (arg_pieces a ++ [close_lex]))]
  | a :: r => (one, arg_lex a) :: close_items r
  end.
Definition if_items (args : list string) : list item_ :=
  match args with
  | [] => []
  | [a] => [(one, Word (Raw "(" :: arg_pieces a ++ [close_lex]))]
  | a :: r => (one, Word (Raw "(" :: arg_pieces a)) :: close_items r
  end.
Definition arg_items (d : directive) : list item_ :=
  if String.eqb (d_name d) "if" then if_items (d_args d) else map (fun a => (one, arg_lex a)) (d_args d).
Definition head_items (g : gap) (d : directive) : list item_ := (g, arg_lex (d_name d)) :: arg_items d.
Section Loop.
  Variable items : gap -> directive -> list item_.
  Variable g' : gap.
  Fixpoint iloop (gm g : gap) (last : Z) (ds : list directive) : list item_ :=
    match ds with
    | [] => []
    | d :: r =>
      if (Z.eqb (d_line d) last && is_comment d)%bool then (gm, Note (arg_pieces (comment_text d))) :: iloop one g' last r
      else (items g d ++ iloop one g' (d_line d) r)%list
    end.
End Loop.
Section Items.
  Variable mg : nat -> gap.
  Definition nlg (depth : nat) : gap := s_nl :: mg depth.
  Fixpoint items (depth : nat) (g : gap) (d : directive) {struct d} : list item_ :=
    if is_comment d then [(g, Note (arg_pieces (comment_text d)))]
    else match d_block d with
         | None => (head_items g d ++ [([], Sep ";")])%list
         | Some b => (head_items g d ++ (one, Sep "{") ::
                      iloop (items (S depth)) (nlg (S depth)) one (nlg (S depth)) (d_line d) b ++ [(nlg depth, Sep "}")])%list
         end.
End Items.

(** ** Statements as forests, with their lines *)
Section Place.
  Variables (A : Type) (stm : Z -> directive -> A) (bot : Z -> directive -> Z).
  (** [m], [inc]: line breaks in front of the next comment, of the next row. *)
  Fixpoint place (m inc last line : Z) (ds : list directive) : list A :=
    match ds with
    | [] => []
    | d :: r =>
      if (Z.eqb (d_line d) last && is_comment d)%bool then stm (line + m)%Z d :: place 0 1 last (line + m) r
      else stm (line + inc)%Z d :: place 0 1 (d_line d) (bot (line + inc)%Z d) r
    end.
  Fixpoint pend (m inc last line : Z) (ds : list directive) : Z :=
    match ds with
    | [] => line
    | d :: r =>
      if (Z.eqb (d_line d) last && is_comment d)%bool then pend 0 1 last (line + m) r
      else pend 0 1 (d_line d) (bot (line + inc)%Z d) r
    end.
End Place.
Arguments place {A}.
Fixpoint bottom (line : Z) (d : directive) {struct d} : Z :=
  if is_comment d then line
  else match d_block d with None => line | Some b => (pend bottom 0 1 (d_line d) line b + 1)%Z end.
Definition atok (line : Z) (x : lexeme) : token := Tok (lexeme_val x) line (lexeme_quoted x) None.
Fixpoint plant (line : Z) (d : directive) {struct d} : stmt :=
  if is_comment d then SCom (Tok ("#" ++ comment_text d) line false None)
  else SStm (atok line (arg_lex (d_name d))) (map (fun gx => atok line (snd gx)) (arg_items d)) line
         (match d_block d with None => None | Some b => Some (place plant bottom 0 1 (d_line d) line b, bottom line d) end).

(** ** Arguments *)
Definition arglike (x : lexeme) : Prop :=
  lexeme_ok x = true /\ newlines (lexeme_src x) = 0%Z /\ match x with Word ps => one_line ps = true | Quoted _ _ => True | _ => False end.
Lemma rest_snoc : forall ps v d, word_rest v d ps = true -> word_rest v d (ps ++ [close_lex]) = true.
Proof.
  induction ps as [|p ps IH]; intros v d H; [cbn in *; destruct v; [discriminate|]; destruct d; reflexivity|]. cbn [app word_rest] in *. apply andb_true_iff in H as [-> H]. cbn [andb].
  destruct v; [destruct (_ || _)%bool; auto|]. destruct p as [r|r]; auto. destruct (_ && _)%bool; auto. rewrite !andb_true_iff in *. intuition auto.
Qed.
Lemma word_snoc : forall ps, word_ok ps = true -> word_ok (ps ++ [close_lex]) = true.
Proof. intros [|[r|r] ps] H; [discriminate| |]; cbn [app word_ok] in *; rewrite !andb_true_iff in *; intuition auto using rest_snoc. Qed.
Lemma word_open : forall ps, word_ok ps = true -> word_ok (Raw "(" :: ps) = true.
Proof.
  intros [|p ps] H; [discriminate|]. cbn [word_ok]. change (word_rest false ("(" =? "$") (p :: ps) = true). change ("(" =? "$") with false. cbn [word_rest]. destruct p as [r|r]; cbn [word_ok] in H.
  - rewrite !andb_true_iff in H. destruct H as [[[A B] C] D]. rewrite A, B, D. cbn [andb]. rewrite andb_true_r.
    apply negb_true_iff in C. apply negb_true_iff. unfold mem in *. rewrite existsb_app, orb_false_iff in C. tauto.
  - rewrite !andb_true_iff in H. destruct H as [[A B] C]. now rewrite A, C.
Qed.
Lemma srcs_app : forall a b, srcs (a ++ b) = srcs a ++ srcs b.
Proof. intros. unfold srcs. now rewrite map_app, concat_app_s. Qed.
Lemma one_line_app : forall a b, one_line (a ++ b) = (one_line a && one_line b)%bool.
Proof. intros. unfold one_line. apply forallb_app. Qed.
Lemma word_arglike : forall ps, word_ok ps = true -> one_line ps = true -> arglike (Word ps).
Proof. intros ps W O. split; [exact W|]. split; [|exact O]. apply one_line_nls; auto. now apply word_pieces. Qed.
Lemma kept_like : forall pr s, arg_spec pr s -> arglike (arg_lex s).
Proof. intros pr s A. split; [apply A|]. split; [apply A|]. unfold arg_lex. destruct (needs_quote s) eqn:N; auto. apply (as_word _ _ A). unfold arg_lex. now rewrite N. Qed.
Lemma bare_pieces : forall pr s, arg_spec pr s -> needs_quote s = false -> word_ok (arg_pieces s) = true /\ one_line (arg_pieces s) = true /\ srcs (arg_pieces s) = s /\ enquote pr s = s.
Proof.
  intros pr s A N. destruct (as_word _ _ A (arg_pieces s)) as (B & C & D & _); [unfold arg_lex; now rewrite N|]. repeat split; auto. unfold enquote. now rewrite N.
Qed.
Lemma if_words : forall ps, word_ok ps = true -> one_line ps = true ->
  arglike (Word (Raw "(" :: ps)) /\ arglike (Word (ps ++ [close_lex])) /\ arglike (Word (Raw "(" :: ps ++ [close_lex])).
Proof.
  intros ps W O. assert (O2 : one_line (ps ++ [close_lex]) = true) by (rewrite one_line_app, O; reflexivity).
  repeat split; try (apply word_arglike; auto using word_snoc, word_open). 
Qed.

Definition like_items (A : list item_) : Prop := Forall (fun gx => arglike (snd gx) /\ newlines (concat_str (fst gx)) = 0%Z) A.
Definition chains (A : list item_) : Prop := forall x, arglike x -> chain (Some x) A = true.
Lemma one_fits : forall x y, arglike x -> fits (Some x) one (Some y) = true.
Proof. intros [ps|q ps|c|ps] y (_ & _ & H); cbn; auto; contradiction. Qed.
Lemma chains_one : forall x A, arglike x -> chain (Some x) A = true -> chains ((one, x) :: A).
Proof. intros x A L C y Y. cbn [chain]. rewrite one_fits by auto. rewrite C. destruct L as (-> & _). reflexivity. Qed.
Lemma chains_cons : forall x A, arglike x -> chains A -> chains ((one, x) :: A).
Proof. intros x A L C. apply chains_one; auto. Qed.
Lemma chains_nil : chains [].
Proof. intros x _. reflexivity. Qed.

Record args_spec (pr : N -> bool) (args : list string) (vals : list string) (text : string) (A : list item_) : Prop := {
  ar_like : like_items A;
  ar_chain : chains A;
  ar_vals : map (fun gx : item_ => lexeme_val (snd gx)) A = vals;
  ar_text : rtext A = text }.
Definition sp_join (pr : N -> bool) (args : list string) : string := concat_str (map (fun a => " " ++ enquote pr a) args).
Lemma plain_args : forall pr args, ascii_right pr -> forallb (kept pr) args = true ->
  args_spec pr args args (sp_join pr args) (map (fun a => (one, arg_lex a)) args).
Proof.
  intros pr args AR K. induction args as [|a args IH]; [constructor; try reflexivity; constructor|]. cbn [forallb] in K. apply andb_true_iff in K as [K1 K2].
  specialize (IH K2). destruct IH as [I1 I2 I3 I4]. pose proof (kept_arg pr a AR K1) as S. pose proof (kept_like pr a S) as L. cbn [map]. constructor.
  - constructor; auto.
  - now apply chains_cons.
  - cbn [map snd]. now rewrite I3, (as_val _ _ S).
  - rewrite rtext_cons, I4, (as_src _ _ S). unfold sp_join. cbn [map concat_str]. rewrite app_assoc_s. reflexivity.
Qed.
Lemma close_args : forall pr args, ascii_right pr -> forallb (kept pr) args = true -> args <> [] ->
  args_spec pr args (close args) (sp_join pr args ++ ")") (close_items args).
Proof.
  intros pr args AR K NE. induction args as [|a args IH]; [congruence|]. cbn [forallb] in K. apply andb_true_iff in K as [K1 K2].
  pose proof (kept_arg pr a AR K1) as S. pose proof (kept_like pr a S) as L.
  assert (T : rtext [(one, arg_lex a)] = " " ++ enquote pr a) by (rewrite rtext_cons, (as_src _ _ S); cbn; now rewrite app_nil_r_s).
  destruct args as [|b args].
  - cbn [close close_items]. destruct (needs_quote a) eqn:N.
    + assert (CL : arglike (Word [close_lex])) by (split; [reflexivity|split; reflexivity]). constructor.
      * repeat constructor; try apply L; try apply CL.
      * apply chains_one; auto. cbn [chain]. unfold arg_lex. rewrite N. reflexivity.
      * cbn [map snd]. now rewrite (as_val _ _ S).
      * rewrite !rtext_cons, (as_src _ _ S). unfold sp_join. cbn [map concat_str]. rewrite !app_nil_r_s, !app_assoc_s. reflexivity.
    + destruct (bare_pieces pr a S N) as (W & O & E & Q). destruct (if_words _ W O) as (_ & B & _). constructor.
      * repeat constructor; apply B.
      * apply chains_cons; auto. apply chains_nil.
      * cbn [map snd lexeme_val]. now rewrite srcs_app, E.
      * rewrite rtext_cons. cbn [lexeme_src]. rewrite srcs_app, E. unfold sp_join. cbn [map concat_str]. rewrite Q, !app_nil_r_s, !app_assoc_s. reflexivity.
  - destruct (IH K2) as [I1 I2 I3 I4]; [discriminate|]. change (close (a :: b :: args)) with (a :: close (b :: args)). change (close_items (a :: b :: args)) with ((one, arg_lex a) :: close_items (b :: args)). constructor.
    + constructor; auto.
    + now apply chains_cons.
    + cbn [map snd]. now rewrite I3, (as_val _ _ S).
    + rewrite rtext_cons, I4, (as_src _ _ S). unfold sp_join. cbn [map concat_str]. rewrite !app_assoc_s. reflexivity.
Qed.
Lemma join_sp : forall pr a args, join (map (enquote pr) (a :: args)) " " = enquote pr a ++ sp_join pr args.
Proof.
  intros pr a args. revert a. induction args as [|b args IH]; intros a; [cbn; now rewrite app_nil_r_s|]. specialize (IH b).
  change (join (map (enquote pr) (a :: b :: args)) " ") with (enquote pr a ++ " " ++ join (map (enquote pr) (b :: args)) " "). rewrite IH. unfold sp_join. cbn [map concat_str]. now rewrite !app_assoc_s.
Qed.
Lemma if_args : forall pr args, ascii_right pr -> forallb (kept pr) args = true -> if_ok args = true ->
  args_spec pr args (parens args) (" (" ++ join (map (enquote pr) args) " " ++ ")") (if_items args).
Proof.
  intros pr args AR K I. destruct args as [|a args]; [discriminate|]. cbn [if_ok] in I. apply andb_true_iff in I as [N _]. apply negb_true_iff in N.
  cbn [forallb] in K. apply andb_true_iff in K as [K1 K2]. pose proof (kept_arg pr a AR K1) as S. destruct (bare_pieces pr a S N) as (W & O & E & Q). destruct (if_words _ W O) as (B1 & _ & B2).
  rewrite join_sp, Q. destruct args as [|b args].
  - cbn [parens if_items]. constructor.
    + repeat constructor; apply B2.
    + apply chains_cons; auto. apply chains_nil.
    + cbn [map snd lexeme_val]. unfold srcs. cbn [map concat_str src]. rewrite map_app. fold (srcs (arg_pieces a)). rewrite concat_app_s. fold (srcs (arg_pieces a)). now rewrite E.
    + rewrite rtext_cons. cbn [lexeme_src]. change (Raw "(" :: arg_pieces a ++ [close_lex])%list with ([Raw "("] ++ arg_pieces a ++ [close_lex])%list. rewrite !srcs_app, E. cbn. now rewrite !app_nil_r_s.
  - destruct (close_args pr (b :: args) AR K2) as [I1 I2 I3 I4]; [discriminate|].
    change (parens (a :: b :: args)) with (("(" ++ a) :: close (b :: args)). change (if_items (a :: b :: args)) with ((one, Word (Raw "(" :: arg_pieces a)) :: close_items (b :: args)). constructor.
    + constructor; auto.
    + now apply chains_cons.
    + cbn [map snd lexeme_val]. rewrite I3. f_equal. change (Raw "(" :: arg_pieces a)%list with ([Raw "("] ++ arg_pieces a)%list. now rewrite srcs_app, E.
    + rewrite rtext_cons, I4. cbn [lexeme_src]. change (Raw "(" :: arg_pieces a)%list with ([Raw "("] ++ arg_pieces a)%list. rewrite srcs_app, E.
      change (concat_str one) with " ". change (srcs [Raw "("]) with "(". change " (" with (" " ++ "("). now rewrite !app_assoc_s.
Qed.
Lemma name_if : forall pr s, arg_spec pr s -> String.eqb (enquote pr s) "if" = String.eqb s "if".
Proof.
  intros pr s A. destruct (needs_quote s) eqn:N; [|unfold enquote; now rewrite N]. rewrite <- (as_src _ _ A). unfold arg_lex. rewrite N.
  destruct (String.eqb_spec s "if") as [->|_]; [discriminate|]. cbn [lexeme_src]. now destruct (has_dq s).
Qed.
Lemma stmt_args : forall pr ok d, ascii_right pr -> is_comment d = false -> writable pr ok d = true ->
  arg_spec pr (d_name d) /\ exists t, args_spec pr (d_args d) (d_args (written d)) t (arg_items d) /\
  (forall o, b_print o = pr -> enquote pr (d_name d) ++ t = head_text o d).
Proof.
  intros pr ok d AR C W. destruct d as [nm line args file inc blk cm mp]. cbn [writable] in W. rewrite C in W. cbn [d_comment d_name d_args d_block] in W. rewrite !andb_true_iff in W.
  destruct W as [[[[_ KN] KA] IF] _]. pose proof (kept_arg pr nm AR KN) as S. split; auto. unfold written, arg_items, head_text. cbn [d_args d_name mkd].
  destruct (String.eqb_spec nm "if") as [->|N].
  - exists (" (" ++ join (map (enquote pr) args) " " ++ ")"). split; [apply (if_args pr args AR KA IF)|]. intros o <-. reflexivity.
  - exists (sp_join pr args). split; [apply (plain_args pr args AR KA)|]. intros o <-. rewrite (name_if _ _ S). apply String.eqb_neq in N. rewrite N. reflexivity.
Qed.
