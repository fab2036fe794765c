(** Computing forests and checking well-formedness, for the concrete cases beside the
    theorems. *)
From Verif Require Export SpecForest ForestFacts.
Local Open Scope string_scope.

Definition is_word (t : token) : bool :=
  (t_quoted t || negb (existsb (String.eqb (t_val t)) ["{"; "}"; ";"]))%bool.
Definition is_hash (t : token) : bool :=
  (negb (t_quoted t) && match t_val t with String "#"%char _ => true | _ => false end)%bool.
Definition no_err (t : token) : bool := match t_err t with None => true | Some _ => false end.
Fixpoint span_words (toks : list token) : list token * list token :=
  match toks with
  | t :: r => if is_word t then let '(a, b) := span_words r in (t :: a, b) else ([], toks)
  | [] => ([], [])
  end.
Fixpoint forest (fuel : nat) (toks : list token) : list stmt * list token :=
  match fuel, toks with
  | S fuel, t :: r =>
    if String.eqb (t_val t) "}" && negb (t_quoted t) then ([], toks)
    else if is_hash t then let '(F, rest) := forest fuel r in (SCom t :: F, rest)
    else let '(args, r1) := span_words r in
      match r1 with
      | e :: r2 =>
        if String.eqb (t_val e) "{" then
          let '(b, r3) := forest fuel r2 in
          match r3 with
          | c :: r4 => let '(F, rest) := forest fuel r4 in (SStm t args (t_line e) (Some (b, t_line c)) :: F, rest)
          | [] => ([], toks)
          end
        else let '(F, rest) := forest fuel r2 in (SStm t args (t_line e) None :: F, rest)
      | [] => ([], toks)
      end
  | _, _ => ([], toks)
  end%bool.
Definition forest_of (toks : list token) : list stmt := fst (forest (S (List.length toks)) toks).

Definition okb (t : token) : bool := (no_err t && is_word t)%bool.
Fixpoint wfb (s : stmt) : bool :=
  match s with
  | SCom t => no_err t && is_hash t
  | SStm h args _ b => okb h && negb (is_hash h) && forallb okb args &&
      match b with Some (ss, _) => forallb wfb ss | None => true end
  end%bool.
Lemma is_word_plain : forall t, is_word t = true -> plain t.
Proof.
  intros t. unfold is_word, plain. destruct (t_quoted t); auto. cbn [orb]. intros H. right. intros I.
  apply negb_true_iff in H. rewrite <- not_true_iff_false in H. apply H. apply existsb_exists.
  exists (t_val t). split; auto. apply String.eqb_refl.
Qed.
Lemma is_hash_hash : forall t, is_hash t = true <-> hash t.
Proof.
  intros t. unfold is_hash, hash. split.
  - intros H. apply andb_true_iff in H as [A B]. apply negb_true_iff in A. split; auto.
    destruct (t_val t) as [|c r]; [discriminate|]. destruct c as [[] [] [] [] [] [] [] []]; try discriminate. now exists r.
  - intros [-> [r ->]]. reflexivity.
Qed.
Lemma okb_ok : forall t, okb t = true -> t_err t = None /\ plain t.
Proof.
  intros t H. apply andb_true_iff in H as [A B]. split; [|now apply is_word_plain].
  unfold no_err in A. now destruct (t_err t).
Qed.
Lemma wfb_wf : forall s, wfb s = true -> wf_stmt s.
Proof.
  intros s. induction s as [t|h args l|h args l b c IH] using stmt_ind2; cbn [wfb]; intros H;
    repeat match goal with X : (_ && _)%bool = true |- _ => apply andb_true_iff in X as [? ?] end.
  - apply wf_com; [unfold no_err in *; now destruct (t_err t)|now apply is_hash_hash].
  - apply okb_ok in H as [? ?]. apply wf_simple; auto.
    + intros X. apply is_hash_hash in X. now rewrite X in *.
    + apply Forall_forall. intros x X. apply okb_ok. rewrite forallb_forall in *. auto.
  - apply okb_ok in H as [? ?]. apply wf_block; auto.
    + intros X. apply is_hash_hash in X. now rewrite X in *.
    + apply Forall_forall. intros x X. apply okb_ok. rewrite forallb_forall in *. auto.
    + apply Forall_forall. intros x X. rewrite Forall_forall in IH. rewrite forallb_forall in *. auto.
Qed.
Lemma all_wf : forall F, forallb wfb F = true -> Forall wf_stmt F.
Proof. intros F H. apply Forall_forall. intros s I. apply wfb_wf. rewrite forallb_forall in H. auto. Qed.
Fixpoint clearb (ig : list string) (s : stmt) : bool :=
  match s with
  | SCom _ => true
  | SStm h _ _ None => true
  | SStm h _ _ (Some (b, _)) =>
    (negb (existsb (String.eqb (t_val h)) map_like) ||
     forallb (fun s => match s with SCom _ => true | SStm h _ _ _ => negb (existsb (String.eqb (t_val h)) ig) end) b)
    && forallb (clearb ig) b
  end%bool.
Lemma clearb_clear : forall ig s, clearb ig s = true -> maps_clear ig s.
Proof.
  intros ig s. induction s as [t|h args l|h args l b c IH] using stmt_ind2; cbn [clearb]; intros H; try constructor;
    apply andb_true_iff in H as [A B].
  - intros M. apply orb_true_iff in A as [A|A].
    + exfalso. apply negb_true_iff in A. rewrite <- not_true_iff_false in A. apply A. apply existsb_exists.
      exists (t_val h). split; auto. apply String.eqb_refl.
    + apply Forall_forall. intros s I. rewrite forallb_forall in A. specialize (A s I).
      destruct s as [t|h' a' l' b']; cbn [named]; auto. intros X. apply negb_true_iff in A.
      rewrite <- not_true_iff_false in A. apply A. apply existsb_exists. exists (t_val h'). split; auto. apply String.eqb_refl.
  - apply Forall_forall. intros s I. rewrite Forall_forall in IH. rewrite forallb_forall in B. auto.
Qed.
Lemma all_clear : forall ig F, forallb (clearb ig) F = true -> Forall (maps_clear ig) F.
Proof. intros ig F H. apply Forall_forall. intros s I. apply clearb_clear. rewrite forallb_forall in H. auto. Qed.
