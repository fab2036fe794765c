(** The generator on source texts. *)
From Verif Require Export GenProofs.
From Verif Require Import Util Utf8 IfProofs.
Local Open Scope string_scope.

(** ** Characters *)
Lemma in_app_str : forall c a b, In c (list_of_str (a ++ b)) <-> In c (list_of_str a) \/ In c (list_of_str b).
Proof. intros c. induction a as [|x a IH]; intros b; cbn [String.append list_of_str In]; [tauto|]. rewrite IH. tauto. Qed.
Lemma lacks_app : forall c a b, lacks c (a ++ b) <-> lacks c a /\ lacks c b.
Proof. intros c a b. unfold lacks. rewrite in_app_str. tauto. Qed.
Lemma contains_any_false : forall s chars, contains_any s chars = false <-> forall c, In c (list_of_str chars) -> lacks c s.
Proof.
  intros s chars. unfold contains_any, str_exists, lacks. split.
  - intros H c I J. assert (X : existsb (fun c0 => existsb (Ascii.eqb c0) (list_of_str chars)) (list_of_str s) = true); [|congruence].
    apply existsb_exists. exists c. split; auto. apply existsb_exists. exists c. split; auto. apply Ascii.eqb_refl.
  - intros H. destruct (existsb _ _) eqn:E; auto. apply existsb_exists in E as (c & I & X). apply existsb_exists in X as (d & J & Y). apply Ascii.eqb_eq in Y. subst d. exfalso. eapply H; eauto.
Qed.
Lemma none_of_iff : forall chars s, none_of chars s = true <-> forall c, In c (list_of_str chars) -> lacks c s.
Proof. intros chars s. unfold none_of. rewrite negb_true_iff. apply contains_any_false. Qed.
Lemma all_lacks : forall p c s, forallb p (list_of_str s) = true -> p c = false -> lacks c s.
Proof. intros p c s F N I. rewrite forallb_forall in F. rewrite (F c I) in N. discriminate. Qed.
Lemma lit_app : forall p r, lit p (p ++ r) = Some r.
Proof. intros p r. unfold lit. rewrite (proj2 (prefix_iff p (p ++ r))) by eauto. now rewrite drop_app. Qed.
Lemma lit_none : forall c p a s, a <> c -> lit (String c p) (String a s) = None.
Proof. intros c p a s N. unfold lit. cbn [prefix]. destruct (ascii_dec c a); [congruence|reflexivity]. Qed.
Lemma lit_some : forall p s r, lit p s = Some r -> s = p ++ r.
Proof. intros p s r. unfold lit. destruct (prefix p s) eqn:E; [|discriminate]. apply prefix_iff in E as [x ->]. rewrite drop_app. congruence. Qed.
Lemma lit_none_iff : forall p s, lit p s = None <-> ~ exists r, s = p ++ r.
Proof.
  intros p s. unfold lit. destruct (prefix p s) eqn:E.
  - split; [discriminate|]. intros H. exfalso. apply H. now apply prefix_iff.
  - split; auto. intros _ H. apply prefix_iff in H. congruence.
Qed.
Lemma upto_char : forall c p a r, lacks c a -> upto (String c p) (a ++ String c p ++ r) = Some (a, r).
Proof.
  intros c p. induction a as [|x a IH]; intros r L.
  - cbn [String.append]. change (String c (p ++ r)) with (String c p ++ r). destruct p as [|y p]; cbn [upto String.append]; [change (String c r) with (str1 c ++ r)|change (String c (String y (p ++ r))) with (String c (String y p) ++ r)]; now rewrite lit_app.
  - apply lacks_cons in L as [N L]. change (String x a ++ String c p ++ r) with (String x (a ++ String c p ++ r)). cbn [upto]. rewrite lit_none by auto. now rewrite IH.
Qed.

(** ** Removing comments and line ends *)
Lemma slash2 : forall x, prefix "//" (String "/" (String "/" x)) = true.
Proof. intros x. apply prefix_iff. now exists x. Qed.
Lemma star2 : forall x, prefix "*/" (String "*" (String "/" x)) = true.
Proof. intros x. apply prefix_iff. now exists x. Qed.
Lemma strip_line_plain : forall s r, lacks "/"%char s -> strip_line false (s ++ r) = s ++ strip_line false r.
Proof.
  induction s as [|c s IH]; intros r L; auto. apply lacks_cons in L as [N L]. change (String c s ++ r) with (String c (s ++ r)). cbn [strip_line].
  assert (X : prefix "//" (String c (s ++ r)) = false) by (cbn [prefix]; destruct (ascii_dec "/" c); congruence). rewrite X, IH by auto. reflexivity.
Qed.
Lemma strip_line_in : forall s r, lacks "010"%char s -> strip_line true (s ++ String "010" r) = String "010" (strip_line false r).
Proof.
  induction s as [|c s IH]; intros r L; [reflexivity|]. apply lacks_cons in L as [N L]. change (String c s ++ String "010" r) with (String c (s ++ String "010" r)). cbn [strip_line].
  destruct (Ascii.eqb_spec c "010"); [congruence|]. now apply IH.
Qed.
Definition no_slash (r : string) : Prop := match r with String "/" _ => False | _ => True end.
Lemma no_slash_iff : forall r, no_slash r <-> ~ exists t, r = String "/" t.
Proof.
  intros [|c r]; cbn [no_slash]; [split; [intros _ [t H]; discriminate|auto]|]. split.
  - intros H [t E]. inversion E; subst. exact H.
  - intros H. destruct c as [[|] [|] [|] [|] [|] [|] [|] [|]]; auto. apply H. now exists r.
Qed.
Lemma strip_line_block : forall x r, has_sub "//" x = false -> no_slash r -> strip_line false (x ++ r) = x ++ strip_line false r.
Proof.
  induction x as [|c x IH]; intros r H N; auto. cbn [has_sub] in H. apply orb_false_iff in H as [P H]. change (String c x ++ r) with (String c (x ++ r)). cbn [strip_line].
  assert (X : prefix "//" (String c (x ++ r)) = false).
  { destruct (prefix "//" (String c (x ++ r))) eqn:E; auto. apply prefix_iff in E as [t E]. cbn in E. inversion E as [[E1 E2]]. subst c. destruct x as [|y x].
    - exfalso. apply no_slash_iff in N. apply N. exists t. exact E2.
    - cbn in E2. inversion E2; subst. rewrite slash2 in P. discriminate. }
  rewrite X, IH by auto. reflexivity.
Qed.
Lemma strip_block_skip : forall k s, strip_block k s = strip_block 0 (drop k s).
Proof. induction k as [|k IH]; intros s; [now rewrite drop_0|]. destruct s as [|c s]; auto. cbn [strip_block drop]. apply IH. Qed.
Lemma strip_block_plain : forall s r, lacks "/"%char s -> strip_block 0 (s ++ r) = s ++ strip_block 0 r.
Proof.
  induction s as [|c s IH]; intros r L; auto. apply lacks_cons in L as [N L]. change (String c s ++ r) with (String c (s ++ r)). cbn [strip_block]. rewrite lit_none by congruence. cbn [bind]. now rewrite IH.
Qed.
Lemma upto_close : forall s r, has_sub "*/" s = false -> upto "*/" (s ++ "*/" ++ r) = Some (s, r).
Proof.
  induction s as [|c s IH]; intros r H.
  - cbn [String.append upto]. change (String "*" (String "/" r)) with ("*/" ++ r). now rewrite lit_app.
  - cbn [has_sub] in H. apply orb_false_iff in H as [P H]. change (String c s ++ "*/" ++ r) with (String c (s ++ "*/" ++ r)). cbn [upto].
    assert (X : lit "*/" (String c (s ++ "*/" ++ r)) = None).
    { apply lit_none_iff. intros [t E]. cbn in E. inversion E as [[E1 E2]]. subst c. destruct s as [|y s]; cbn in E2; inversion E2; subst. rewrite star2 in P. discriminate. }
    rewrite X, IH by auto. reflexivity.
Qed.
Lemma strip_block_comment : forall s r, has_sub "*/" s = false -> strip_block 0 ("/*" ++ s ++ "*/" ++ r) = strip_block 0 r.
Proof.
  intros s r H. change ("/*" ++ s ++ "*/" ++ r) with (String "/" (String "*" (s ++ "*/" ++ r))). cbn [strip_block].
  assert (L : lit "/*" (String "/" (String "*" (s ++ "*/" ++ r))) = Some (s ++ "*/" ++ r)) by apply (lit_app "/*"). rewrite L. cbn [bind]. rewrite upto_close by auto.
  change (strip_block (2 + slen s) (s ++ "*/" ++ r) = strip_block 0 r). rewrite (strip_block_skip (2 + slen s)). f_equal.
  replace (s ++ "*/" ++ r) with ((s ++ "*/") ++ r) by apply app_assoc_s.
  replace (2 + slen s) with (slen (s ++ "*/")) by (rewrite app_slen; cbn; lia). apply drop_app.
Qed.
Lemma replace_plain : forall c old s r, lacks c s -> replace_from (String c old) "" 0 (s ++ r) = s ++ replace_from (String c old) "" 0 r.
Proof.
  intros c old. induction s as [|x s IH]; intros r L; auto. apply lacks_cons in L as [N L]. change (String x s ++ r) with (String x (s ++ r)). cbn [replace_from].
  assert (X : prefix (String c old) (String x (s ++ r)) = false) by (cbn [prefix]; destruct (ascii_dec c x); congruence). rewrite X, IH by auto. reflexivity.
Qed.
Lemma replace_crlf : forall r, replace_from (s_cr ++ s_nl) "" 0 (s_cr ++ s_nl ++ r) = replace_from (s_cr ++ s_nl) "" 0 r.
Proof.
  intros r. change (s_cr ++ s_nl ++ r) with (String "013" (String "010" r)). change (s_cr ++ s_nl) with (String "013" (String "010" "")). cbn [replace_from].
  assert (P : prefix (String "013" (String "010" "")) (String "013" (String "010" r)) = true) by (apply prefix_iff; now exists r). rewrite P. reflexivity.
Qed.
Lemma replace_lf : forall r, replace_from s_nl "" 0 (s_nl ++ r) = replace_from s_nl "" 0 r.
Proof.
  intros r. change (s_nl ++ r) with (String "010" r). unfold s_nl, str1. cbn [replace_from].
  assert (P : prefix (String "010" "") (String "010" r) = true) by (apply prefix_iff; now exists r). rewrite P. reflexivity.
Qed.

Lemma code_lacks : forall s, piece_ok (Code s) = true -> lacks "/"%char s /\ lacks "013"%char s /\ lacks "010"%char s /\ s <> "".
Proof.
  intros s H. cbn [piece_ok] in H. apply andb_true_iff in H as [N H]. apply negb_true_iff in N, H. apply String.eqb_neq in N.
  rewrite contains_any_false in H. repeat split; auto; apply H; cbn; auto.
Qed.
Definition unline (p : piece) : piece := match p with LineC _ _ => Eol false | p => p end.
Lemma source_cons : forall p ps, source (p :: ps) = piece_text p ++ source ps.
Proof. reflexivity. Qed.
Lemma source_no_slash : forall p ps, piece_ok p = true -> is_comment_piece p = false -> no_slash (source (p :: ps)).
Proof.
  intros p ps O C. rewrite source_cons. apply no_slash_iff. intros [t E]. destruct p as [s|cr|s cr|s]; try discriminate.
  - apply code_lacks in O as (L & _ & _ & N). destruct s as [|c s]; [congruence|]. cbn in E. inversion E; subst. apply lacks_cons in L. tauto.
  - destruct cr; discriminate.
Qed.
Lemma has_sub_app_char : forall x c, has_sub "//" x = false -> c <> "/"%char -> has_sub "//" (x ++ String c "/") = false.
Proof.
  induction x as [|y x IH]; intros c H N.
  - change ("" ++ String c "/") with (String c "/"). cbn [has_sub]. assert (X : prefix "//" (String c "/") = false); [|rewrite X; reflexivity].
    cbn [prefix]. destruct (ascii_dec "/" c); [congruence|reflexivity].
  - cbn [has_sub] in H. apply orb_false_iff in H as [P H]. change (String y x ++ String c "/") with (String y (x ++ String c "/")). cbn [has_sub]. rewrite IH by auto. rewrite orb_false_r.
    destruct (prefix "//" (String y (x ++ String c "/"))) eqn:E; auto. apply prefix_iff in E as [t E]. cbn in E. inversion E as [[E1 E2]]. subst y. destruct x as [|z x]; cbn in E2; inversion E2; subst; [congruence|]. rewrite slash2 in P. discriminate.
Qed.
Lemma strip_line_source : forall ps, pieces_ok ps = true -> strip_line false (source ps) = source (map unline ps).
Proof.
  induction ps as [|p ps IH]; intros H; auto. cbn [pieces_ok] in H. rewrite !andb_true_iff in H. destruct H as [[O C] H]. specialize (IH H). rewrite source_cons. cbn [map]. rewrite source_cons, <- IH.
  destruct p as [s|cr|s cr|s]; cbn [piece_text unline].
  - apply strip_line_plain. now apply code_lacks in O.
  - apply strip_line_plain. destruct cr; intros X; cbn in X; intuition discriminate.
  - cbn [piece_ok] in O. apply negb_true_iff in O. rewrite contains_any_false in O. assert (L : lacks "010"%char s) by (apply O; now left).
    change (("//" ++ s ++ eol cr) ++ source ps) with (String "/" (String "/" ((s ++ eol cr) ++ source ps))). cbn [strip_line]. rewrite slash2.
    change (("/" =? "010")%char) with false. cbv iota.
    rewrite app_assoc_s. destruct cr; cbn [eol].
    + change (s ++ (s_cr ++ s_nl) ++ source ps) with (s ++ s_cr ++ String "010" (source ps)). rewrite <- app_assoc_s. rewrite strip_line_in; [reflexivity|]. apply lacks_app. split; auto. intros X. cbn in X. intuition discriminate.
    + change (s ++ s_nl ++ source ps) with (s ++ String "010" (source ps)). now rewrite strip_line_in.
  - cbn [piece_ok] in O. apply andb_true_iff in O as [O1 O2]. apply negb_true_iff in O1, O2. apply strip_line_block.
    + change ("/*" ++ s ++ "*/") with (String "/" (String "*" (s ++ String "*" "/"))). cbn [has_sub]. rewrite has_sub_app_char by (auto; discriminate). reflexivity.
    + destruct ps as [|q ps]; [exact I|]. apply source_no_slash; [|now apply negb_true_iff in C]. cbn [pieces_ok] in H. rewrite !andb_true_iff in H. apply H.
Qed.
Definition unblock (p : piece) : piece := match p with BlockC _ => Code "" | p => p end.
Lemma strip_block_source : forall ps, Forall (fun p => piece_ok p = true) ps -> Forall (fun p => match p with LineC _ _ => False | _ => True end) ps ->
  strip_block 0 (source ps) = source (map unblock ps).
Proof.
  induction ps as [|p ps IH]; intros O N; auto. inversion O; subst. inversion N; subst. rewrite source_cons. cbn [map]. rewrite source_cons, <- IH by auto.
  destruct p as [s|cr|s cr|s]; cbn [piece_text unblock]; [apply strip_block_plain; now apply code_lacks in H1| |contradiction|].
  - apply strip_block_plain. destruct cr; intros X; cbn in X; intuition discriminate.
  - cbn [piece_ok] in H1. apply andb_true_iff in H1 as [_ O2]. apply negb_true_iff in O2. rewrite !app_assoc_s. now rewrite strip_block_comment.
Qed.
(** The text between comments and line ends. *)
Lemma flatten_source : forall ps, pieces_ok ps = true -> flatten (source ps) = code ps.
Proof.
  intros ps H. unfold flatten. rewrite strip_line_source by auto.
  assert (O : Forall (fun p => piece_ok p = true) ps).
  { clear -H. induction ps as [|p ps IH]; constructor; cbn [pieces_ok] in H; rewrite !andb_true_iff in H; [tauto|]. apply IH. tauto. }
  rewrite strip_block_source.
  2: { rewrite Forall_map. eapply Forall_impl; [|exact O]. intros [s|cr|s cr|s] X; auto. }
  2: { rewrite Forall_map. apply Forall_forall. intros [s|cr|s cr|s] _; exact I. }
  rewrite map_map. unfold replace_all.
  set (l := map (fun p => unblock (unline p)) ps).
  assert (L : Forall (fun p => match p with Code s => lacks "013"%char s /\ lacks "010"%char s | Eol _ => True | _ => False end) l /\ code l = code ps).
  { unfold l. clear l H. split; [rewrite Forall_map; eapply Forall_impl; [|exact O]; intros [s|cr|s cr|s] X; cbn [unline unblock]; auto; [apply code_lacks in X; tauto|split; intros []]|].
    clear O. unfold code. f_equal. rewrite map_map. apply map_ext. intros [s|cr|s cr|s]; reflexivity. }
  destruct L as [L <-]. clearbody l. clear O H.
  assert (R1 : replace_from (s_cr ++ s_nl) "" 0 (source l) = source (filter (fun p => match p with Eol true => false | _ => true end) l)).
  { induction L as [|p l P L IH]; auto. rewrite source_cons. destruct p as [s|[|]|s cr|s]; try contradiction; cbn [filter]; rewrite ?source_cons, <- IH; cbn [piece_text eol].
    - destruct P as [P _]. apply (replace_plain "013" s_nl). exact P.
    - rewrite app_assoc_s. apply replace_crlf.
    - apply (replace_plain "013" s_nl). intros X. cbn in X. intuition discriminate. }
  rewrite R1. assert (L2 : Forall (fun p => match p with Code s => lacks "010"%char s | Eol false => True | _ => False end) (filter (fun p => match p with Eol true => false | _ => true end) l)).
  { clear R1. induction L as [|p l P L IH]; [constructor|]. destruct p as [s|[|]|s cr|s]; try contradiction; cbn [filter]; auto. constructor; tauto. }
  assert (CE : code l = code (filter (fun p => match p with Eol true => false | _ => true end) l)).
  { clear. unfold code. induction l as [|p l IH]; auto. cbn [map concat_str filter]. rewrite IH. destruct p as [s|[|]|s cr|s]; reflexivity. }
  rewrite CE. clear CE R1 L. set (k := filter _ l) in *. clearbody k. induction L2 as [|p k P L2 IH]; auto. rewrite source_cons. destruct p as [s|[|]|s cr|s]; try contradiction.
  - unfold code. cbn [map concat_str]. rewrite (replace_plain "010" ""); auto. f_equal. exact IH.
  - unfold code. cbn [map concat_str piece_text eol]. rewrite replace_lf. exact IH.
Qed.

(** ** Searching *)
Lemma find_all_skip : forall A (m : string -> option (A * string)) k s, find_all m k s = find_all m 0 (drop k s).
Proof. intros A m. induction k as [|k IH]; intros s; [now rewrite drop_0|]. destruct s as [|c s]; auto. cbn [find_all drop]. apply IH. Qed.
Lemma find_all_hit : forall A (m : string -> option (A * string)) t r a, t <> "" -> m (t ++ r) = Some (a, r) -> find_all m 0 (t ++ r) = a :: find_all m 0 r.
Proof.
  intros A m t r a N H. destruct t as [|c t]; [congruence|]. change (String c t ++ r) with (String c (t ++ r)) in *. cbn [find_all]. rewrite H. f_equal.
  rewrite find_all_skip. f_equal. rewrite app_slen. replace (slen t + slen r - slen r) with (slen t) by lia. apply drop_app.
Qed.
(** [m] fails everywhere in [j], with [r] behind it. *)
Fixpoint misses {A} (m : string -> option (A * string)) (j r : string) : Prop :=
  match j with "" => True | String _ j' => m (j ++ r) = None /\ misses m j' r end.
Lemma find_all_miss : forall A (m : string -> option (A * string)) j r, misses m j r -> find_all m 0 (j ++ r) = find_all m 0 r.
Proof.
  intros A m. induction j as [|c j IH]; intros r H; auto. cbn [misses] in H. destruct H as [M H]. change (String c j ++ r) with (String c (j ++ r)) in *. cbn [find_all]. rewrite M. auto.
Qed.
Definition ends_run (p : ascii -> bool) (r : string) : Prop := match r with "" => True | String c _ => p c = false end.
Lemma run_app : forall p a r, forallb p (list_of_str a) = true -> ends_run p r -> run p (a ++ r) = (a, r).
Proof.
  intros p. induction a as [|c a IH]; intros r F E.
  - cbn [String.append]. destruct r as [|x r]; auto. cbn [run]. cbn in E. now rewrite E.
  - cbn [list_of_str forallb] in F. apply andb_true_iff in F as [C F]. change (String c a ++ r) with (String c (a ++ r)). cbn [run]. now rewrite C, IH.
Qed.
Lemma run_split : forall p s, exists a b, s = a ++ b /\ run p s = (a, b) /\ forallb p (list_of_str a) = true /\ ends_run p b.
Proof.
  intros p. induction s as [|c s (a & b & E & R & F & N)]; [exists "", ""; repeat split|]. cbn [run]. destruct (p c) eqn:C.
  - exists (String c a), b. rewrite R, E. repeat split; auto. cbn [list_of_str forallb]. now rewrite C, F.
  - exists "", (String c s). repeat split. exact C.
Qed.

(** ** Tables in other code *)
(** What follows other code: nothing, or a table. *)
Definition table_next (T : string) : Prop := T = "" \/ exists c R, re_space c = true /\ T = "ngx_command_t" ++ String c R.
Lemma prefix_early : forall k T, table_next T -> 0 < k < 13 -> lit "ngx_command_t" (take k "ngx_command_t" ++ T) = None.
Proof.
  intros k T [->|(c & R & _ & ->)] L; apply lit_none_iff; intros [r E].
  - rewrite app_nil_r_s in E. apply (f_equal slen) in E. rewrite slen_take, app_slen in E. cbn [String.length] in E. lia.
  - do 13 (destruct k as [|k]; [try lia; cbn in E; discriminate|]). lia.
Qed.
Lemma lit_long : forall x T, lit "ngx_command_t" (x ++ T) <> None -> x <> "" -> table_next T -> exists y, x = "ngx_command_t" ++ y.
Proof.
  intros x T H N TN. destruct (lit "ngx_command_t" (x ++ T)) as [r|] eqn:E; [|congruence]. clear H. destruct (le_lt_dec 13 (slen x)) as [L|L].
  - apply lit_some in E. exists (drop 13 x). rewrite <- (take_drop 13 x) at 1. f_equal.
    assert (X : take 13 (x ++ T) = take 13 ("ngx_command_t" ++ r)) by now rewrite E. rewrite take_app_le in X by lia. rewrite X. reflexivity.
  - exfalso. assert (X : x = take (slen x) "ngx_command_t").
    { apply lit_some in E. assert (X : take (slen x) (x ++ T) = take (slen x) ("ngx_command_t" ++ r)) by now rewrite E. rewrite take_app in X. rewrite X at 1. apply take_app_le. cbn. lia. }
    rewrite X in E. rewrite prefix_early in E; auto; [discriminate|]. destruct x; [congruence|cbn [String.length] in *; lia].
Qed.
Definition start_tail (s : string) : bool :=
  let '(sp, s) := run re_space s in let '(w, s) := run re_word s in (negb (String.eqb sp "") && negb (String.eqb w "") && prefix "[]" s)%bool.
Lemma word_not_space : forall c, re_word c = true -> re_space c = false.
Proof. intros [[|] [|] [|] [|] [|] [|] [|] [|]]; vm_compute; auto. Qed.
Lemma prefix_app_long : forall p a r, slen p <= slen a -> prefix p (a ++ r) = prefix p a.
Proof.
  induction p as [|c p IH]; intros a r L; [destruct a, r; reflexivity|]. destruct a as [|x a]; cbn [String.length] in L; [lia|].
  change (String x a ++ r) with (String x (a ++ r)). cbn [prefix]. destruct (ascii_dec c x); auto. apply IH. lia.
Qed.
Lemma start_tail_space : forall y T, table_next T -> start_tail (y ++ T) = start_tail (y ++ " ").
Proof.
  intros y T TN. destruct (run_split re_space y) as (a & b & -> & _ & FA & EB). unfold start_tail. rewrite !app_assoc_s.
  destruct (string_dec b "") as [->|NB].
  - cbn [String.append]. assert (R2 : run re_space (a ++ " ") = (a ++ " ", "")).
    { rewrite <- (app_nil_r_s (a ++ " ")) at 1. apply run_app; [|exact I]. clear -FA. induction a as [|c a IH]; auto. cbn [String.append list_of_str forallb] in *. apply andb_true_iff in FA as [X F]. now rewrite X, IH. }
    rewrite R2. cbn [run]. rewrite andb_false_r. cbn [andb]. destruct TN as [->|(c & R & S1 & ->)].
    + rewrite (run_app re_space a "" FA I). cbn [run]. now rewrite andb_false_r.
    + rewrite (run_app re_space a ("ngx_command_t" ++ String c R) FA eq_refl). rewrite (run_app re_word "ngx_command_t" (String c R) eq_refl).
      * assert (P : prefix "[]" (String c R) = false); [|rewrite P; now rewrite andb_false_r]. cbn [prefix]. destruct (ascii_dec "[" c) as [<-|]; auto. vm_compute in S1. discriminate.
      * cbn. destruct (re_word c) eqn:W; auto. apply word_not_space in W. congruence.
  - destruct (run_split re_word b) as (w & q & -> & _ & FW & EQ).
    assert (RS : forall r, run re_space (a ++ (w ++ q) ++ r) = (a, (w ++ q) ++ r)).
    { intros r. apply run_app; auto. destruct (w ++ q) eqn:X; [congruence|exact EB]. }
    rewrite !RS, !app_assoc_s. destruct (string_dec q "") as [->|NQ].
    + cbn [String.append]. rewrite (run_app re_word w " " FW eq_refl). assert (F0 : forall b1 : bool, (b1 && prefix "[]" " ")%bool = false) by (intros; now rewrite andb_false_r). rewrite F0.
      destruct TN as [->|(c & R & S1 & ->)].
      * rewrite (run_app re_word w "" FW I). now rewrite andb_false_r.
      * rewrite <- app_assoc_s. rewrite (run_app re_word (w ++ "ngx_command_t") (String c R)).
        -- assert (P : prefix "[]" (String c R) = false); [|rewrite P; now rewrite andb_false_r]. cbn [prefix]. destruct (ascii_dec "[" c) as [<-|]; auto. vm_compute in S1. discriminate.
        -- clear -FW. induction w as [|x w IH]; auto. cbn [String.append list_of_str forallb] in *. apply andb_true_iff in FW as [X F]. now rewrite X, IH.
        -- cbn. destruct (re_word c) eqn:W; auto. apply word_not_space in W. congruence.
    + assert (RW : forall r, run re_word (w ++ q ++ r) = (w, q ++ r)) by (intros r; apply run_app; auto; destruct q; [congruence|exact EQ]). rewrite !RW. f_equal.
      destruct (le_lt_dec 2 (slen q)) as [L|L]; [now rewrite !prefix_app_long by (cbn; lia)|]. destruct q as [|c [|d q]]; [congruence| |cbn in L; lia].
      cbn [String.append prefix]. destruct (ascii_dec "[" c); auto. destruct TN as [->|(c' & R & S1 & ->)]; reflexivity.
Qed.
Lemma table_start_eq : forall x, table_start ("ngx_command_t" ++ x) = start_tail x.
Proof. intros x. unfold table_start. rewrite lit_app. reflexivity. Qed.
Lemma table_start_next : forall x T, x <> "" -> table_next T -> table_start (x ++ T) = table_start (x ++ " ").
Proof.
  intros x T N TN. destruct (lit "ngx_command_t" (x ++ T)) eqn:E.
  - destruct (lit_long x T) as [y ->]; auto; [congruence|]. rewrite !app_assoc_s, !table_start_eq. now apply start_tail_space.
  - destruct (lit "ngx_command_t" (x ++ " ")) eqn:E2; [|unfold table_start; now rewrite E, E2].
    exfalso. apply lit_some in E2. destruct (le_lt_dec 13 (slen x)) as [L|L].
    + apply lit_none_iff in E. apply E. assert (X : take 13 (x ++ " ") = "ngx_command_t") by now rewrite E2. rewrite take_app_le in X by lia.
      exists (drop 13 x ++ T). rewrite <- X, <- app_assoc_s, take_drop. reflexivity.
    + apply (f_equal slen) in E2 as L2. rewrite !app_slen in L2. cbn [String.length] in L2. assert (s = "") by (apply slen_0; cbn in L2; lia). subst s.
      assert (X : take (slen x) (x ++ " ") = take (slen x) "ngx_command_t") by now rewrite E2. assert (Y : drop (slen x) (x ++ " ") = drop (slen x) "ngx_command_t") by now rewrite E2. rewrite drop_app in Y.
      assert (LX : slen x = 12) by (cbn in L2; lia). rewrite LX in Y. discriminate.
Qed.
Lemma match_start : forall s, match_table s <> None -> table_start s = true.
Proof.
  intros s. unfold match_table, table_start. destruct (lit "ngx_command_t" s) as [r|]; [|intros H; now destruct H]. cbn [bind]. destruct (run re_space r) as [sp r1]. destruct (String.eqb sp ""); [intros H; now destruct H|].
  destruct (run re_word r1) as [w r2]. destruct (String.eqb w ""); [intros H; now destruct H|]. unfold lit at 1. destruct (prefix "[]" r2); [reflexivity|intros H; now destruct H].
Qed.
Lemma other_misses : forall j T, other_code j = true -> table_next T -> misses match_table j T.
Proof.
  induction j as [|c j IH]; intros T O TN; [exact I|]. cbn [other_code] in O. apply andb_true_iff in O as [O1 O]. apply negb_true_iff in O1. split; [|apply IH; auto].
  destruct (match_table (String c j ++ T)) eqn:E; auto. exfalso. assert (X : table_start (String c j ++ T) = true) by (apply match_start; congruence).
  rewrite table_start_next in X by (auto; discriminate). congruence.
Qed.

(** ** A table *)
Lemma upto_end_body : forall b sp r, lacks ";"%char b -> re_blank sp = true -> upto_end (b ++ "}" ++ sp ++ ";" ++ r) = Some (b, r).
Proof.
  assert (TE : forall sp r, re_blank sp = true -> table_end ("}" ++ sp ++ ";" ++ r) = Some r).
  { intros sp r B. unfold table_end. rewrite lit_app. rewrite (run_app re_space sp (";" ++ r) B eq_refl). cbn [snd]. apply lit_app. }
  induction b as [|c b IH]; intros sp r L B.
  - cbn [String.append]. pose proof (TE sp r B) as X. cbn [String.append] in X. cbn [upto_end]. now rewrite X.
  - apply lacks_cons in L as [N L]. change (String c b ++ "}" ++ sp ++ ";" ++ r) with (String c (b ++ "}" ++ sp ++ ";" ++ r)). cbn [upto_end].
    assert (X : table_end (String c (b ++ "}" ++ sp ++ ";" ++ r)) = None); [|rewrite X, IH by auto; reflexivity].
    unfold table_end. destruct (lit "}" (String c (b ++ "}" ++ sp ++ ";" ++ r))) as [q|] eqn:E; auto. apply lit_some in E. inversion E; subst c q.
    destruct (run_split re_space b) as (x & y & -> & _ & F & EY). rewrite app_assoc_s. change (String "}" (sp ++ String ";" r)) with ("}" ++ sp ++ ";" ++ r). rewrite (run_app re_space x (y ++ "}" ++ sp ++ ";" ++ r) F); [|destruct y; [reflexivity|exact EY]]. cbn [snd].
    apply lacks_app in L as [_ L]. destruct y as [|d y]; [reflexivity|]. apply lacks_cons in L as [N2 L]. change (String d y ++ "}" ++ sp ++ ";" ++ r) with (String d (y ++ "}" ++ sp ++ ";" ++ r)). now apply lit_none.
Qed.
Definition body (t : table) : string := concat_str (map item_text (t_items t)) ++ t_tail t.
(** Names of bit masks are plain words. *)
Lemma ngx_words : forall n g, go_name n = Some g -> forallb re_word (list_of_str n) = true /\ n <> "".
Proof.
  assert (X : forallb (fun x : string * string => forallb re_word (list_of_str (fst x)) && negb (String.eqb (fst x) ""))%bool ngx_names = true) by (vm_compute; reflexivity).
  intros n g H. rewrite <- ngx_names_ok in H. apply assoc_In in H. rewrite forallb_forall in X. specialize (X _ H). cbn [fst] in X. apply andb_true_iff in X as [A B]. apply negb_true_iff in B. apply String.eqb_neq in B. auto.
Qed.
Lemma lacks_join : forall c l sep, Forall (lacks c) l -> lacks c sep -> lacks c (join l sep).
Proof.
  intros c l sep F S1. induction F as [|x l L F IH]; [intros []|]. destruct l as [|y l]; [exact L|]. rewrite join_cons. apply lacks_app. split; auto. apply lacks_app. auto.
Qed.
Lemma lacks_concat : forall c l, Forall (lacks c) l -> lacks c (concat_str l).
Proof. intros c l F. induction F as [|x l L F IH]; [intros []|]. cbn [concat_str]. apply lacks_app. auto. Qed.
Lemma blank_lacks : forall c s, ascii_blank s = true -> c <> " "%char -> c <> "009"%char -> lacks c s.
Proof.
  intros c s B N1 N2. eapply all_lacks; [exact B|]. cbn. destruct (Ascii.eqb_spec c " "); [congruence|]. destruct (Ascii.eqb_spec c "009"); [congruence|reflexivity].
Qed.
Definition mask_ok (x : string * string * string) : bool := let '(a, n, b) := x in (ascii_blank a && match go_name n with Some _ => true | None => false end && ascii_blank b)%bool.
Lemma item_ok_eq : forall i, item_ok i = true -> (none_of (s_dq ++ ";") (i_pre i) = true /\ forallb re_word (list_of_str (i_name i)) = true /\ none_of ",;" (i_gap i) = true /\
  i_masks i <> [] /\ Forall (fun x => mask_ok x = true) (i_masks i)).
Proof.
  intros i H. unfold item_ok in H. rewrite !andb_true_iff in H. destruct H as [[[A B] C] D]. repeat split; auto.
  - destruct (i_masks i); [discriminate|congruence].
  - apply Forall_forall. intros x I. destruct (i_masks i) as [|y l]; [destruct I|]. rewrite forallb_forall in D. specialize (D x I). destruct x as [[a n] b]. exact D.
Qed.
Lemma masks_lacks : forall c l, re_word c = false -> c <> " "%char -> c <> "009"%char -> c <> "|"%char -> Forall (fun x => mask_ok x = true) l -> lacks c (masks_text l).
Proof.
  intros c l W N1 N2 N3 F. unfold masks_text. apply lacks_join; [|intros [X|[]]; congruence]. rewrite Forall_map. eapply Forall_impl; [|exact F]. intros [[a n] b] H. cbn [mask_ok] in H. rewrite !andb_true_iff in H. destruct H as [[A M] B].
  destruct (go_name n) eqn:E; [|discriminate]. apply ngx_words in E as [E _]. apply lacks_app. split; [now apply blank_lacks|]. apply lacks_app. split; [eapply all_lacks; eauto|now apply blank_lacks].
Qed.
Lemma item_lacks : forall i, item_ok i = true -> lacks ";"%char (item_text i).
Proof.
  intros i H. apply item_ok_eq in H as (A & B & C & D & E). unfold item_text. rewrite none_of_iff in A, C.
  repeat (apply lacks_app; split); try (intros X; cbn in X; intuition discriminate).
  - apply A. cbn. auto.
  - eapply all_lacks; eauto.
  - apply C. cbn. auto.
  - apply masks_lacks; auto; discriminate.
Qed.
Lemma match_table_text : forall t r, table_ok t = true -> match_table (table_text t ++ r) = Some (body t, r).
Proof.
  intros t r H. unfold table_ok in H. rewrite !andb_true_iff in H. destruct H as [[[[[[[[N1 B1] N2] W] B2] B3] IT] TL] B4].
  apply negb_true_iff in N1, N2. unfold table_text. rewrite !app_assoc_s. unfold match_table. rewrite lit_app. cbn [bind].
  rewrite (run_app re_space (t_sp t)); [|exact B1|]. 2: { apply String.eqb_neq in N2. destruct (t_name t) as [|c n]; [congruence|]. cbn [list_of_str forallb] in W. apply andb_true_iff in W as [W _]. now apply word_not_space. }
  rewrite N1. rewrite (run_app re_word (t_name t)); [|exact W|reflexivity]. rewrite N2. rewrite lit_app. cbn [bind].
  rewrite (run_app re_space (t_sp1 t)); [|exact B2|reflexivity]. cbn [snd]. rewrite lit_app. cbn [bind]. rewrite (run_app re_space (t_sp2 t)); [|exact B3|reflexivity]. cbn [snd]. rewrite lit_app. cbn [bind].
  rewrite <- (app_assoc_s _ (t_tail t)). fold (body t). apply upto_end_body; auto. unfold body. apply lacks_app. split.
  - apply lacks_concat. rewrite Forall_map. apply Forall_forall. intros i I. apply item_lacks. rewrite forallb_forall in IT. auto.
  - rewrite none_of_iff in TL. apply TL. cbn. auto.
Qed.
(** ** Its definitions *)
Lemma lit_quote : forall q c u w, prefix (q ++ str1 c) (u ++ w) = true -> slen q < slen u -> ~ lacks c u.
Proof.
  induction q as [|x q IH]; intros c u w P L.
  - destruct u as [|y u]; [cbn in L; lia|]. apply prefix_iff in P as [r E]. cbn in E. inversion E; subst. intros H. apply H. now left.
  - destruct u as [|y u]; [cbn in L; lia|]. apply prefix_iff in P as [r E]. cbn in E. inversion E; subst. intros H. apply lacks_cons in H as [_ H]. apply (IH c u w); auto; [|cbn in L; lia]. apply prefix_iff. exists r. assumption.
Qed.
Lemma entry_misses : forall j r, lacks "034"%char j -> (r = "" \/ exists x, r = "ngx_string(" ++ s_dq ++ x) -> misses match_entry j r.
Proof.
  induction j as [|c j IH]; intros r L R; [exact I|]. apply lacks_cons in L as L'. split; [|apply IH; tauto].
  unfold match_entry. destruct (lit _ _) as [q|] eqn:E; [|reflexivity]. exfalso. unfold lit in E. destruct (prefix _ _) eqn:P; [|discriminate].
  destruct R as [->|[x ->]].
  - rewrite app_nil_r_s in P. apply prefix_iff in P as [y P]. rewrite P in L. rewrite !lacks_app in L. destruct L as [[_ L] _]. apply L. now left.
  - assert (P2 : prefix ("ngx_string(" ++ s_dq) ((String c j ++ "ngx_string(") ++ s_dq ++ x) = true) by (now rewrite app_assoc_s). apply (lit_quote "ngx_string(" "034"%char) in P2.
    + apply P2. apply lacks_app. split; auto. intros X. cbn in X. intuition discriminate.
    + rewrite app_slen. cbn [String.length]. lia.
Qed.
Lemma match_entry_item : forall i r, item_ok i = true ->
  match_entry ("ngx_string(" ++ s_dq ++ i_name i ++ s_dq ++ ")" ++ i_gap i ++ "," ++ masks_text (i_masks i) ++ "," ++ r) = Some ((i_name i, masks_text (i_masks i)), r).
Proof.
  intros i r H. apply item_ok_eq in H as (_ & B & C & _ & E). rewrite none_of_iff in C. unfold match_entry.
  rewrite <- (app_assoc_s "ngx_string("). rewrite lit_app. cbn [bind].
  rewrite <- (app_assoc_s s_dq ")"). change (s_dq ++ ")") with (String "034" ")"). rewrite upto_char by (eapply all_lacks; eauto). cbn [bind].
  change "," with (str1 ","). unfold str1. rewrite upto_char by (apply C; cbn; auto). cbn [bind]. rewrite upto_char by (apply masks_lacks; auto; discriminate). reflexivity.
Qed.
Lemma entries_body : forall l tail, Forall (fun i => item_ok i = true) l -> none_of (s_dq ++ ";") tail = true ->
  find_all match_entry 0 (concat_str (map item_text l) ++ tail) = map (fun i => (i_name i, masks_text (i_masks i))) l.
Proof.
  intros l tail F T. rewrite none_of_iff in T. induction F as [|i l O F IH].
  - cbn [map concat_str]. change ("" ++ tail) with tail. rewrite <- (app_nil_r_s tail). rewrite find_all_miss; [reflexivity|]. apply entry_misses; auto. apply T. now left.
  - cbn [map concat_str]. rewrite <- IH. clear IH. unfold item_text at 1. rewrite !app_assoc_s. set (r := concat_str (map item_text l) ++ tail).
    pose proof O as O2. apply item_ok_eq in O2 as (A & _). rewrite none_of_iff in A. rewrite find_all_miss by (apply entry_misses; [apply A; now left|right; eauto]).
    set (hd := "ngx_string(" ++ s_dq ++ i_name i ++ s_dq ++ ")" ++ i_gap i ++ "," ++ masks_text (i_masks i) ++ ",").
    assert (EQ : "ngx_string(" ++ s_dq ++ i_name i ++ s_dq ++ ")" ++ i_gap i ++ "," ++ masks_text (i_masks i) ++ "," ++ r = hd ++ r) by (unfold hd; now rewrite !app_assoc_s).
    rewrite EQ. apply find_all_hit; [discriminate|]. rewrite <- EQ. now apply match_entry_item.
Qed.
(** ASCII text has one element per character. *)
Lemma scan_ascii_str : forall s, forallb (fun c => N.ltb (bval c) 128) (list_of_str s) = true -> scan s = map (fun c => Item (bval c) (str1 c) true) (list_of_str s).
Proof.
  induction s as [|c s IH]; intros H; auto. cbn [list_of_str forallb] in H. apply andb_true_iff in H as [L H]. cbn [list_of_str map]. rewrite <- IH by auto.
  assert (D : decode_rune (String c s) = (bval c, 1, true)) by (unfold decode_rune; now rewrite L). rewrite (scan_eq (String c s) ltac:(discriminate) _ _ _ D). destruct s; reflexivity.
Qed.
Lemma word_ascii : forall c, re_word c = true -> N.ltb (bval c) 128 = true /\ is_space_rune (bval c) = false.
Proof. intros [[|] [|] [|] [|] [|] [|] [|] [|]]; vm_compute; auto; discriminate. Qed.
Lemma word_items : forall n, forallb re_word (list_of_str n) = true -> runes n = map bval (list_of_str n) /\ Forall (fun r => is_space_rune r = false) (runes n).
Proof.
  intros n H. assert (A : forallb (fun c => N.ltb (bval c) 128) (list_of_str n) = true) by (apply forallb_forall; intros c I; rewrite forallb_forall in H; now apply word_ascii, H).
  unfold runes. rewrite (scan_ascii_str n A), map_map. split; [reflexivity|]. rewrite Forall_map. apply Forall_forall. intros c I. rewrite forallb_forall in H. now apply word_ascii, H.
Qed.
Lemma blank_blank : forall s, ascii_blank s = true -> blank s.
Proof.
  intros s B. assert (A : forall c, In c (list_of_str s) -> N.ltb (bval c) 128 = true /\ is_space_rune (bval c) = true).
  { intros c I. unfold ascii_blank in B. rewrite forallb_forall in B. specialize (B c I). apply existsb_exists in B as (d & ID & EQ). apply Ascii.eqb_eq in EQ. subst d. destruct ID as [<-|[<-|[]]]; split; reflexivity. }
  apply scan_blank. rewrite scan_ascii_str by (apply forallb_forall; intros c I; now apply A). rewrite Forall_map. apply Forall_forall. intros c I. now apply A.
Qed.
Lemma trim_word : forall a n b, ascii_blank a = true -> ascii_blank b = true -> forallb re_word (list_of_str n) = true -> n <> "" -> trim_space (a ++ n ++ b) = n.
Proof.
  intros a n b A B W N. apply trim_space_iff. destruct (word_items n W) as [R F]. exists (n ++ b). split.
  - exists a. split; auto. split; [now apply blank_blank|]. intros (r & l & E & S1). destruct (blank_blank b B) as [VB _].
    unfold runes in E. rewrite scan_app_boundary in E by now apply valid_boundary. rewrite map_app in E. fold (runes n) in E. destruct (runes n) as [|x l'] eqn:RN.
    + destruct n; [congruence|discriminate].
    + cbn in E. inversion E; subst. inversion F; subst. congruence.
  - exists b. split; auto. split; [now apply blank_blank|]. intros (r & l & E & S1). rewrite E in F. apply Forall_app in F as [_ F]. inversion F; subst. congruence.
Qed.
Lemma trim_word0 : forall n, forallb re_word (list_of_str n) = true -> trim_space n = n.
Proof.
  intros n W. destruct (string_dec n "") as [->|N]; [reflexivity|]. replace n with ("" ++ n ++ "") at 1 by (rewrite app_nil_r_s; reflexivity). now apply trim_word.
Qed.
Lemma def_item : forall i, item_ok i = true -> def_of (i_name i, masks_text (i_masks i)) = Some (i_name i, item_mask i).
Proof.
  intros i H. apply item_ok_eq in H as (_ & B & _ & NE & E). unfold def_of. cbn [fst snd]. rewrite trim_word0 by auto.
  assert (S1 : split "|"%char (masks_text (i_masks i)) = map (fun '(a, n, b) => a ++ n ++ b) (i_masks i)).
  { apply split_iff. split; [reflexivity|]. split; [destruct (i_masks i); [congruence|discriminate]|]. rewrite Forall_map. eapply Forall_impl; [|exact E]. intros [[a n] b] H. cbn [mask_ok] in H. rewrite !andb_true_iff in H. destruct H as [[A M] B1].
    destruct (go_name n) eqn:X; [|discriminate]. apply ngx_words in X as [X _]. apply lacks_app. split; [apply blank_lacks; auto; discriminate|]. apply lacks_app. split; [eapply all_lacks; eauto|apply blank_lacks; auto; discriminate]. }
  rewrite S1, map_map. unfold item_mask. clear S1 NE B. induction E as [|[[a n] b] l M E IH]; [reflexivity|]. cbn [map opt_all]. cbn [mask_ok] in M. rewrite !andb_true_iff in M. destruct M as [[A M] B1].
  destruct (go_name n) eqn:X; [|discriminate]. pose proof X as X2. apply ngx_words in X2 as [W N]. rewrite trim_word by auto. rewrite X.
  destruct (opt_all (map _ l)); cbn [option_map] in *; [|discriminate]. inversion IH. reflexivity.
Qed.
Lemma opt_all_some : forall A B (f : A -> option B) g l, Forall (fun x => f x = Some (g x)) l -> opt_all (map f l) = Some (map g l).
Proof. intros A B f g l F. induction F as [|x l E F IH]; auto. cbn [map opt_all]. rewrite E, IH. reflexivity. Qed.
Lemma opt_all_app : forall A (a b : list (option A)) x y, opt_all a = Some x -> opt_all b = Some y -> opt_all (a ++ b) = Some (x ++ y)%list.
Proof.
  intros A. induction a as [|o a IH]; intros b x y E1 E2; cbn [opt_all app] in *; [inversion E1; auto|]. destruct o as [v|]; [|discriminate]. destruct (opt_all a) as [x'|] eqn:X; [|discriminate]. cbn in E1. inversion E1; subst. rewrite (IH b x' y eq_refl E2). reflexivity.
Qed.
Lemma tables_found : forall l first, other_code first = true -> Forall (fun x => table_ok (fst x) = true /\ other_code (snd x) = true) l ->
  find_all match_table 0 (with_tables first l) = map (fun x => body (fst x)) l.
Proof.
  assert (TN : forall t r, table_ok t = true -> table_next (table_text t ++ r)).
  { intros t r H. right. unfold table_ok in H. rewrite !andb_true_iff in H. destruct H as [[[[[[[[N1 B1] _] _] _] _] _] _] _]. apply negb_true_iff in N1. apply String.eqb_neq in N1.
    unfold table_text. destruct (t_sp t) as [|c sp]; [congruence|]. cbn [re_blank list_of_str forallb] in B1. unfold re_blank in B1. cbn [list_of_str forallb] in B1. apply andb_true_iff in B1 as [B1 _]. eexists c, _. split; [exact B1|]. rewrite !app_assoc_s. reflexivity. }
  intros l first O F. unfold with_tables. revert first O. induction F as [|[t j] l [T J] F IH]; intros first O.
  - cbn [map concat_str]. rewrite find_all_miss; [reflexivity|]. apply other_misses; auto. now left.
  - cbn [map concat_str fst snd] in *. rewrite app_assoc_s. rewrite find_all_miss by (apply other_misses; auto). rewrite (find_all_hit _ _ (table_text t) _ (body t)); [|discriminate|now apply match_table_text]. f_equal. now apply IH.
Qed.
(** Tables are read back, whatever the layout and the code around them. *)
Lemma tables_read : forall ps first l, pieces_ok ps = true -> code ps = with_tables first l -> other_code first = true ->
  Forall (fun x => table_ok (fst x) = true /\ other_code (snd x) = true) l ->
  exists m, masks_of_text (source ps) = inl m /\ maps m (flat_map (fun x => table_defs (fst x)) l).
Proof.
  intros ps first l P C O F. pose proof (masks_of_text_ok (source ps)) as M.
  assert (D : opt_all (map def_of (pairs (source ps))) = Some (flat_map (fun x => table_defs (fst x)) l)).
  { unfold pairs. rewrite flatten_source, C by auto. rewrite tables_found by auto. clear -F. induction F as [|[t j] l [T J] F IH]; [reflexivity|].
    cbn [map flat_map fst]. rewrite map_app. apply opt_all_app; auto. unfold table_ok in T. cbn [fst] in T. rewrite !andb_true_iff in T. destruct T as [[[[[[[[N1 B1] N2] W] B2] B3] IT] TL] B4].
    rewrite forallb_forall in IT. unfold body. rewrite entries_body; auto; [|now apply Forall_forall]. rewrite map_map. apply opt_all_some. apply Forall_forall. intros i I. apply def_item. auto. }
  destruct (masks_of_text (source ps)) as [m|e]; [|congruence]. destruct M as (ds & E & M). rewrite D in E. inversion E; subst. eauto.
Qed.
(** ** Mask names are those of constants *)
Lemma opt_all_in : forall {A B} (f : A -> option B) l r y, opt_all (map f l) = Some r -> In y r -> exists x, In x l /\ f x = Some y.
Proof.
  intros A B f. induction l as [|a l IH]; intros r y E I; cbn [map opt_all] in E; [inversion E; subst; destruct I|].
  destruct (f a) eqn:F; [|discriminate]. destruct (opt_all (map f l)) as [r'|]; [|discriminate]. cbn [option_map] in E. inversion E; subst.
  destruct I as [<-|I]; [exists a; split; [now left|auto]|]. destruct (IH _ _ eq_refl I) as (x & J & X). exists x. split; [now right|auto].
Qed.
Lemma masks_constants : forall t m d ms k n, masks_of_text t = inl m -> assoc d m = Some ms -> In k ms -> In n k ->
  In n go_constants \/ n = "ngxConfTake7".
Proof.
  intros t m d ms k n E A K N. pose proof (masks_of_text_ok t) as H. rewrite E in H. destruct H as (ds & D & _ & M). rewrite M in A.
  assert (I : In k (defs_of d ds)) by (destruct (defs_of d ds); [discriminate|inversion A; subst; auto]).
  unfold defs_of in I. apply in_map_iff in I as [[d' k'] [<- I]]. apply filter_In in I as [I _]. cbn [snd] in N.
  destruct (opt_all_in _ _ _ _ D I) as ([a b] & _ & X). unfold def_of in X. cbn [fst snd] in X.
  destruct (opt_all (map (fun n => go_name (trim_space n)) (split "|"%char b))) as [r|] eqn:O; [|discriminate]. cbn [option_map] in X. inversion X; subst.
  destruct (opt_all_in _ _ _ _ O N) as (x & _ & G). unfold go_name in G. destruct (mem_str _ c_names); [|discriminate].
  apply find_some in G as [G _]. apply in_app_or in G as [G|[G|[]]]; auto.
Qed.
