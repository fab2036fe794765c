(** Token lists of forests: reading arguments, skipping blocks. *)
From Verif Require Export HeapFacts SpecForest.
Local Open Scope string_scope.

Lemma plain_not_term : forall t, plain t -> is_term t = false.
Proof.
  intros t P. unfold is_term, tok_is. destruct (t_quoted t) eqn:Q; [reflexivity|]. cbn [negb andb].
  destruct P as [P|P]; [congruence|].
  assert (N : forall x, In x ["{"; "}"; ";"] -> String.eqb (t_val t) x = false).
  { intros x I. apply String.eqb_neq. intros E. apply P. now rewrite E. }
  rewrite !N by (cbn; auto). reflexivity.
Qed.
Lemma plain_not_open : forall t, plain t -> tok_is t "{" = false /\ tok_is t "}" = false.
Proof.
  intros t P. apply plain_not_term in P. unfold is_term in P.
  apply orb_false_iff in P as [P P3]. apply orb_false_iff in P as [P1 P2]. auto.
Qed.
Lemma hash_comment : forall t, hash t <-> tok_comment t = true.
Proof.
  intros t. unfold hash, tok_comment. rewrite andb_true_iff, negb_true_iff, has_prefix_iff. tauto.
Qed.
Lemma not_hash : forall t, ~ hash t <-> tok_comment t = false.
Proof. intros t. rewrite hash_comment. destruct (tok_comment t); split; congruence. Qed.
Lemma hash_not_close : forall t, hash t -> tok_is t "}" = false /\ tok_is t "{" = false.
Proof.
  intros t [Q [r E]]. unfold tok_is. rewrite Q, E. split; reflexivity.
Qed.

(** Arguments proper and comments among argument tokens. *)
Definition arg_vals (args : list token) : list string :=
  map t_val (filter (fun t => negb (tok_comment t)) args).
Definition arg_coms (cm : bool) (args : list token) : list string :=
  if cm then map (fun t => drop 1 (t_val t)) (filter tok_comment args) else [].

Lemma read_args_flat : forall cm args term l rest, Forall (fun a => t_err a = None /\ plain a) args ->
  In term ["{"; ";"; "}"] ->
  read_args cm (args ++ Tok term l false None :: rest)%list = Some (arg_vals args, arg_coms cm args, term, rest).
Proof.
  intros cm args term l rest F IT. induction F as [|a args [_ P] F IH].
  - cbn [app read_args].
    assert (T : is_term (Tok term l false None) = true).
    { destruct IT as [<-|[<-|[<-|[]]]]; reflexivity. }
    rewrite T. unfold arg_coms. cbn. now destruct cm.
  - cbn [app read_args]. rewrite (plain_not_term _ P), IH. unfold arg_vals, arg_coms. cbn [filter].
    destruct (tok_comment a); cbn [negb map]; destruct cm; reflexivity.
Qed.

Lemma consume_plain : forall n args rest, Forall (fun a => t_err a = None /\ plain a) args ->
  consume n (args ++ rest)%list = consume n rest.
Proof.
  intros n args rest F. induction F as [|a args [E P] F IH]; [reflexivity|]. cbn [app consume].
  rewrite E. destruct (plain_not_open _ P) as [-> ->]. exact IH.
Qed.

Section StmtInd.
  Variable P : stmt -> Prop.
  Hypothesis HC : forall t, P (SCom t).
  Hypothesis HS : forall h args l, P (SStm h args l None).
  Hypothesis HB : forall h args l b c, Forall P b -> P (SStm h args l (Some (b, c))).
  Fixpoint stmt_ind2 (s : stmt) : P s :=
    match s with
    | SCom t => HC t
    | SStm h args l None => HS h args l
    | SStm h args l (Some (b, c)) =>
      HB h args l b c ((fix go (b : list stmt) : Forall P b :=
        match b with [] => Forall_nil P | s :: r => Forall_cons s (stmt_ind2 s) (go r) end) b)
    end.
End StmtInd.

Lemma wf_com_inv : forall t, wf_stmt (SCom t) -> t_err t = None /\ hash t.
Proof. intros t W. inversion W; auto. Qed.
Lemma wf_stm_inv : forall h args l b, wf_stmt (SStm h args l b) ->
  t_err h = None /\ plain h /\ ~ hash h /\ Forall (fun a => t_err a = None /\ plain a) args /\
  match b with Some (ss, _) => Forall wf_stmt ss | None => True end.
Proof. intros h args l b W. inversion W; subst; auto. Qed.
Lemma consume_stmt : forall s, wf_stmt s -> forall n rest, consume n (stmt_toks s ++ rest)%list = consume n rest.
Proof.
  intros s. induction s as [t|h args l|h args l b c IH] using stmt_ind2; intros W n rest.
  - apply wf_com_inv in W as [TE H]. cbn [stmt_toks app consume]. rewrite TE.
    destruct (hash_not_close _ H) as [-> ->]. reflexivity.
  - apply wf_stm_inv in W as (TE & P & NH & FA & _). cbn [stmt_toks app]. rewrite <- app_assoc. cbn [consume]. rewrite TE.
    destruct (plain_not_open _ P) as [-> ->]. rewrite consume_plain by auto. reflexivity.
  - apply wf_stm_inv in W as (TE & P & NH & FA & FB). cbn [stmt_toks app].
    rewrite <- app_assoc. cbn [app]. rewrite <- app_assoc. cbn [consume]. rewrite TE.
    destruct (plain_not_open _ P) as [-> ->]. rewrite consume_plain by auto. cbn [app consume t_err].
    change (tok_is (Tok "{" l false None) "}") with false. change (tok_is (Tok "{" l false None) "{") with true.
    cbn iota.
    assert (B : forall n rest, consume n (flat_map stmt_toks b ++ rest)%list = consume n rest).
    { clear - IH FB. induction b as [|s b IHb]; intros n rest; [reflexivity|].
      inversion IH as [|? ? IS IB]; subst. inversion FB as [|? ? WS WB]; subst.
      cbn [flat_map]. rewrite <- app_assoc, IS by auto. auto. }
    rewrite B. reflexivity.
Qed.
Lemma consume_flat : forall F, Forall wf_stmt F -> forall n rest, consume n (flat F ++ rest)%list = consume n rest.
Proof.
  intros F H. induction H as [|s F W H IH]; intros n rest; [reflexivity|].
  unfold flat in *. cbn [flat_map]. rewrite <- app_assoc, consume_stmt by auto. apply IH.
Qed.

(** ** Items: what may remain to be parsed when blocks were left open *)
Inductive pitem := It (s : stmt) | Cl (line : Z).
Definition item_toks (i : pitem) : list token :=
  match i with It s => stmt_toks s | Cl l => [Tok "}" l false None] end.
Definition flatI (l : list pitem) : list token := flat_map item_toks l.
Definition wfI (l : list pitem) : Prop := Forall (fun i => match i with It s => wf_stmt s | Cl _ => True end) l.
Fixpoint after_close (l : list pitem) : list pitem :=
  match l with [] => [] | Cl _ :: r => r | It _ :: r => after_close r end.
Lemma flatI_app : forall a b, flatI (a ++ b) = (flatI a ++ flatI b)%list.
Proof. intros. apply flat_map_app. Qed.
Lemma flatI_it : forall F, flatI (map It F) = flat F.
Proof. induction F as [|s F IH]; [reflexivity|]. unfold flatI, flat in *. cbn. now rewrite IH. Qed.
Lemma wfI_app : forall a b, wfI (a ++ b) <-> wfI a /\ wfI b.
Proof. intros. apply Forall_app. Qed.
Lemma wfI_it : forall F, wfI (map It F) <-> Forall wf_stmt F.
Proof. intros. unfold wfI. rewrite Forall_map. reflexivity. Qed.
Lemma after_close_wf : forall l, wfI l -> wfI (after_close l).
Proof. induction 1 as [|[s|c] l W H IH]; cbn; auto. constructor. Qed.
Lemma consume_items : forall l, wfI l -> consume 0 (flatI l) = flatI (after_close l).
Proof.
  induction 1 as [|[s|c] l W H IH]; [reflexivity| |reflexivity].
  unfold flatI. cbn [flat_map item_toks after_close]. rewrite consume_stmt by auto. exact IH.
Qed.
Lemma after_close_app : forall F c r, after_close (map It F ++ Cl c :: r) = r.
Proof. induction F as [|s F IH]; intros c r; [reflexivity|]. cbn. apply IH. Qed.
(** The first token decides which pitem it is. *)
Lemma flatI_cons : forall t r l, (t :: r)%list = flatI l -> wfI l -> t_err t = None /\
  ((exists c l', l = Cl c :: l' /\ t = Tok "}" c false None /\ r = flatI l') \/
   (exists l', l = It (SCom t) :: l' /\ hash t /\ r = flatI l') \/
   (exists args tl l', l = It (SStm t args tl None) :: l' /\ plain t /\ ~ hash t /\
      Forall (fun a => t_err a = None /\ plain a) args /\ r = (args ++ Tok ";" tl false None :: flatI l')%list) \/
   (exists args tl b c l', l = It (SStm t args tl (Some (b, c))) :: l' /\ plain t /\ ~ hash t /\
      Forall (fun a => t_err a = None /\ plain a) args /\ Forall wf_stmt b /\
      r = (args ++ Tok "{" tl false None :: flatI (map It b ++ Cl c :: l'))%list)).
Proof.
  intros t r l E W. destruct l as [|i l]; [discriminate|]. inversion W as [|? ? WI WL]; subst.
  unfold flatI in E. cbn [flat_map] in E. destruct i as [s|c].
  - destruct WI; cbn [item_toks stmt_toks app] in E.
    + inversion E; subst. split; auto. right. left. eauto.
    + inversion E; subst. split; auto. right. right. left. exists args, l0, l. rewrite <- app_assoc. auto 7.
    + inversion E; subst. split; auto. right. right. right. exists args, l0, b, c, l.
      repeat (split; auto). rewrite <- app_assoc. cbn [app]. rewrite <- app_assoc.
      rewrite flatI_app, flatI_it. reflexivity.
  - cbn in E. inversion E; subst. split; auto. left. eauto.
Qed.

(** Map contexts. *)
Definition is_map (path : list string) : bool :=
  match path with
  | [] => false
  | _ => match assoc (last path EmptyString) map_bodies with Some _ => true | None => false end
  end.
Lemma map_like_iff : forall n, In n map_like <-> assoc n map_bodies <> None.
Proof.
  intros n. split.
  - intros I. repeat (destruct I as [<-|I]; [vm_compute; discriminate|]). destruct I.
  - intros H. unfold map_bodies in H. cbn [assoc] in H.
    repeat match type of H with
    | (if String.eqb n ?x then _ else _) <> None =>
      destruct (String.eqb_spec n x); [subst; cbn; auto 10|]
    | (if String.eqb ?x n then _ else _) <> None =>
      destruct (String.eqb_spec x n); [subst; cbn; auto 10|]
    end. congruence.
Qed.
Lemma last_snoc : forall A (l : list A) x d, last (l ++ [x]) d = x.
Proof. induction l as [|y l IH]; intros x d; [reflexivity|]. cbn. destruct (l ++ [x])%list eqn:E; [now destruct l|]. rewrite <- E. apply IH. Qed.
Lemma is_map_enter : forall path name, is_map (enter_path path name) = true -> In name map_like.
Proof.
  intros path name H. apply map_like_iff. unfold is_map, enter_path in H.
  destruct path as [|c0 r].
  - cbn [last] in H. destruct (assoc name map_bodies); congruence.
  - destruct (String.eqb c0 "http" && String.eqb name "location")%bool eqn:E; [vm_compute in H; discriminate|].
    rewrite last_snoc in H. destruct ((c0 :: r) ++ [name])%list; [discriminate|].
    destruct (assoc name map_bodies); congruence.
Qed.
