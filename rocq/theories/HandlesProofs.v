(** What is opened is closed (C81). *)
From Verif Require Export SpecHandles Effects ParseFacts Util.
Local Open Scope string_scope.

(** ** The results are those of Parse.v and Main.v *)
Lemma parse_h_same : forall o dir fuel ctx toks st ds h, fst (parse_h o dir fuel ctx toks st ds h) = parse o dir fuel ctx toks st.
Proof.
  intros o dir. induction fuel as [|fuel IH]; intros ctx toks st ds h; [reflexivity|]. cbn [parse_h parse].
  destruct toks as [|t toks]; [reflexivity|]. destruct (t_err t); [reflexivity|]. destruct (tok_is t "}"); [reflexivity|].
  destruct (tok_comment t).
  { rewrite <- (IH ctx toks st ds h). now destruct (parse_h o dir fuel ctx toks st ds h). }
  destruct (read_args (o_comments o) toks) as [[[[args cs] term] rest]|]; [|reflexivity].
  cbv zeta. destruct (note_open _ ds h) as [ds1 h1].
  destruct (decide o dir ctx _ term st) as [d st1|d|eat st1|st1|e st1|]; try reflexivity.
  - destruct (String.eqb term "{").
    + destruct (enter_block _ _ _) as [hp inner]. rewrite <- (IH inner rest (set_heap st1 hp) [] h1).
      destruct (parse_h o dir fuel inner rest (set_heap st1 hp) [] h1) as [[blk rest2 st2| | |] h2]; cbn [fst]; try reflexivity.
      rewrite <- (IH ctx rest2 st2 ds1 h2). now destruct (parse_h o dir fuel ctx rest2 st2 ds1 h2).
    + rewrite <- (IH ctx rest st1 ds1 h1). now destruct (parse_h o dir fuel ctx rest st1 ds1 h1).
  - rewrite <- (IH ctx rest st ds1 h1). now destruct (parse_h o dir fuel ctx rest st ds1 h1).
  - apply IH.
Qed.
Lemma parse_file_h_same : forall o dir path ctx st ds h, fst (fst (parse_file_h o dir path ctx st ds h)) = parse_file o dir path ctx st.
Proof.
  intros o dir path ctx st ds h. unfold parse_file_h, parse_file. destruct (o_open o path) as [c|m]; [|reflexivity]. cbv zeta. cbn [note_open].
  match goal with |- context [parse_h ?a ?b ?n ?d ?e ?f ?g ?i] => rewrite <- (parse_h_same a b n d e f g i); destruct (parse_h a b n d e f g i) as [r h1] end.
  cbn [fst]. now destruct r.
Qed.
Lemma run_files_h_same : forall o dir fuel st ds h, fst (fst (run_files_h fuel o dir st ds h)) = run_files fuel o dir st.
Proof.
  intros o dir. induction fuel as [|fuel IH]; intros st ds h; cbn [run_files_h run_files]; destruct (p_queue st) as [|[path ctx] q]; try reflexivity.
  rewrite <- (parse_file_h_same o dir path ctx (set_queue st q) ds h).
  destruct (parse_file_h o dir path ctx (set_queue st q) ds h) as [[[st1| | |] ds1] h1]; cbn [fst]; try reflexivity. apply IH.
Qed.
Lemma log_same : forall fuel o filename, fst (parse_log fuel o filename) = parse_main fuel o filename.
Proof.
  intros fuel o filename. unfold parse_log, parse_main, collect. rewrite <- (run_files_h_same o (dir_name filename) fuel (init_state filename) [] (Hs 0 [])).
  now destruct (run_files_h _ _ _ _ _ _) as [[r ds] h].
Qed.

(** ** Everything is closed *)
Lemma paired_app : forall a b, paired a -> paired b -> paired (a ++ b)%list.
Proof. intros a b A B. induction A as [|k p x y X _ Y IH]; [exact B|]. cbn [app]. rewrite <- app_assoc. cbn [app]. now constructor. Qed.
Lemma opens_app : forall a b, opens (a ++ b)%list = (opens a ++ opens b)%list.
Proof. induction a as [|[k p|k] a IH]; intros b; cbn; rewrite ?IH; reflexivity. Qed.
Lemma opens_close : forall ds, opens (map Close ds) = [].
Proof. induction ds; auto. Qed.
(** From [h] to [h'] the log grew by [n], with fresh numbers. *)
Definition grew (h h' : handles) (n : list event) : Prop :=
  h_log h' = (h_log h ++ n)%list /\ map fst (opens n) = seq (h_next h) (List.length (opens n)) /\ h_next h' = h_next h + List.length (opens n).
Lemma grew_refl : forall h, grew h h [].
Proof. intros h. repeat split; cbn; [now rewrite app_nil_r|apply plus_n_O]. Qed.
Lemma grew_trans : forall a b c m n, grew a b m -> grew b c n -> grew a c (m ++ n)%list.
Proof.
  intros a b c m n (A1 & A2 & A3) (B1 & B2 & B3). split; [|split].
  - now rewrite B1, A1, app_assoc.
  - rewrite opens_app, map_app, app_length, seq_app, A2, B2, A3. reflexivity.
  - rewrite opens_app, app_length, B3, A3. symmetry. apply Nat.add_assoc.
Qed.
Lemma grew_open : forall p h, grew h (h_open p h) [Open (h_next h) p].
Proof. intros p h. repeat split; cbn. now rewrite Nat.add_1_r. Qed.
Lemma grew_close : forall ds h, grew h (run_deferred ds h) (map Close ds).
Proof. intros ds h. unfold grew. rewrite opens_close. repeat split. cbn. apply plus_n_O. Qed.

Lemma parse_h_closed : forall o dir fuel ctx toks st ds h,
  exists n, paired n /\ grew h (snd (parse_h o dir fuel ctx toks st ds h)) (n ++ map Close ds)%list.
Proof.
  intros o dir. induction fuel as [|fuel IH]; intros ctx toks st ds h.
  { exists []. split; [constructor|]. apply grew_close. }
  assert (Z : forall ds h (r : pres), exists n, paired n /\ grew h (snd (r, run_deferred ds h)) (n ++ map Close ds)%list)
    by (intros; exists []; split; [constructor|apply grew_close]).
  cbn [parse_h]. destruct toks as [|t toks]; [apply Z|]. destruct (t_err t); [apply Z|]. destruct (tok_is t "}"); [apply Z|].
  destruct (tok_comment t).
  { specialize (IH ctx toks st ds h). now destruct (parse_h o dir fuel ctx toks st ds h). }
  destruct (read_args (o_comments o) toks) as [[[[args cs] term] rest]|]; [|apply Z].
  cbv zeta. match goal with |- context [note_open ?p ds h] => set (w := p) end.
  set (dec := decide o dir ctx _ term st). clearbody w dec.
  assert (N : forall (X : list nat -> handles -> pres * handles),
    (forall ds h, exists n, paired n /\ grew h (snd (X ds h)) (n ++ map Close ds)%list) ->
    exists n, paired n /\ grew h (snd (let '(ds, h) := note_open w ds h in X ds h)) (n ++ map Close ds)%list).
  { intros X HX. destruct w as [p|]; cbn [note_open]; [|apply HX].
    destruct (HX (h_next h :: ds) (h_open p h)) as (n & P & G). exists (Open (h_next h) p :: n ++ Close (h_next h) :: [])%list. split; [now repeat constructor|].
    pose proof (grew_trans _ _ _ _ _ (grew_open p h) G) as G2. cbn [map app] in *. rewrite <- app_assoc. exact G2. }
  apply N. clear N ds h w. intros ds h.
  destruct dec as [d st1|d|eat st1|st1|e st1|]; try apply Z.
  - destruct (String.eqb term "{").
    + destruct (enter_block _ _ _) as [hp inner]. destruct (IH inner rest (set_heap st1 hp) [] h) as (n & P & G). cbn [map] in G. rewrite app_nil_r in G.
      destruct (parse_h o dir fuel inner rest (set_heap st1 hp) [] h) as [[blk rest2 st2| | |] h2]; cbn [snd] in *;
        [|exists n; split; [exact P|apply (grew_trans _ _ _ _ _ G); apply grew_close]..].
      destruct (IH ctx rest2 st2 ds h2) as (m & P2 & G2). destruct (parse_h o dir fuel ctx rest2 st2 ds h2) as [r h3]. cbn [snd] in *.
      exists (n ++ m)%list. split; [now apply paired_app|]. rewrite <- app_assoc. exact (grew_trans _ _ _ _ _ G G2).
    + specialize (IH ctx rest st1 ds h). now destruct (parse_h o dir fuel ctx rest st1 ds h).
  - specialize (IH ctx rest st ds h). now destruct (parse_h o dir fuel ctx rest st ds h).
  - apply IH.
Qed.

(** What Parse has open between the files. *)
Inductive pending : list event -> list (nat * string) -> Prop :=
| pend_nil : pending [] []
| pend_open : forall l ks k p n, pending l ks -> paired n -> pending (l ++ Open k p :: n)%list ((k, p) :: ks).
Lemma pending_closed : forall l ks, pending l ks -> paired (l ++ map Close (map fst ks))%list.
Proof.
  assert (A : forall l ks, pending l ks -> forall m, paired m -> paired (l ++ m ++ map Close (map fst ks))%list).
  { intros l ks H. induction H as [|l ks k p n H IH N]; intros m P; [cbn; now rewrite app_nil_r|].
    cbn [map fst]. rewrite <- app_assoc. cbn [app].
    replace (Open k p :: n ++ m ++ Close k :: map Close (map fst ks))%list with ((Open k p :: (n ++ m) ++ Close k :: []) ++ map Close (map fst ks))%list
      by (cbn [app]; rewrite <- !app_assoc; reflexivity).
    apply IH. constructor; [now apply paired_app|constructor]. }
  intros l ks H. exact (A l ks H [] paired_nil).
Qed.
Lemma parse_file_h_pending : forall o dir path ctx st ks h, pending (h_log h) ks -> map fst (opens (h_log h)) = seq 0 (h_next h) ->
  let '(r, ds, h') := parse_file_h o dir path ctx st (map fst ks) h in
  map fst (opens (h_log h')) = seq 0 (h_next h') /\
  (ds = map fst ks /\ h' = h /\ (forall st', r <> FDone st') \/ exists k, ds = k :: map fst ks /\ pending (h_log h') ((k, path) :: ks)).
Proof.
  intros o dir path ctx st ks h P Q. unfold parse_file_h. destruct (o_open o path) as [c|m]; [|split; [exact Q|]; left; repeat split; discriminate].
  cbv zeta. cbn [note_open].
  match goal with |- context [parse_h ?a ?b ?n ?d ?e ?f ?g ?i] => destruct (parse_h_closed a b n d e f g i) as (n1 & P1 & G); destruct (parse_h a b n d e f g i) as [r h1] end.
  cbn [snd map] in G. rewrite app_nil_r in G. pose proof (grew_trans _ _ _ _ _ (grew_open path h) G) as (G1 & G2 & G3). cbn [app] in *.
  split.
  - rewrite G1, opens_app, map_app, Q, G2, G3, seq_app. reflexivity.
  - right. exists (h_next h). split; [reflexivity|]. rewrite G1. now constructor.
Qed.
Lemma run_files_h_pending : forall o dir fuel st ks h, pending (h_log h) ks -> map fst (opens (h_log h)) = seq 0 (h_next h) ->
  let '(r, ds, h') := run_files_h fuel o dir st (map fst ks) h in
  map fst (opens (h_log h')) = seq 0 (h_next h') /\ exists ks', ds = map fst ks' /\ pending (h_log h') ks'.
Proof.
  intros o dir. induction fuel as [|fuel IH]; intros st ks h P Q; cbn [run_files_h]; destruct (p_queue st) as [|[path ctx] q]; try (split; eauto; fail).
  pose proof (parse_file_h_pending o dir path ctx (set_queue st q) ks h P Q) as F.
  destruct (parse_file_h o dir path ctx (set_queue st q) (map fst ks) h) as [[r ds] h1]. destruct F as (Q1 & F).
  assert (E : exists ks', ds = map fst ks' /\ pending (h_log h1) ks').
  { destruct F as [(-> & -> & _)|(k & -> & F)]; [eauto|]. now exists ((k, path) :: ks). }
  destruct E as (ks1 & -> & P1). destruct r as [st1|e st1| |]; [now apply IH|split; eauto..].
Qed.
Lemma log_closed : forall fuel o filename r log, parse_log fuel o filename = (r, log) -> paired log /\ NoDup (map fst (opens log)).
Proof.
  intros fuel o filename r log H. unfold parse_log in H.
  pose proof (run_files_h_pending o (dir_name filename) fuel (init_state filename) [] (Hs 0 []) pend_nil eq_refl) as R. cbn [map] in R.
  destruct (run_files_h _ _ _ _ _ _) as [[fr ds] h]. destruct R as (Q & ks & -> & P). injection H as _ <-. cbn [run_deferred h_log]. split; [now apply pending_closed|].
  rewrite opens_app, opens_close, app_nil_r, Q. apply seq_NoDup.
Qed.

(** ** The log has all calls that opened a file *)
Definition told (o : popts) (st : pst) (h : handles) : Prop := map snd (opens (h_log h)) = filter (can_open o) (p_opens st).
Lemma filter_app_l : forall A (f : A -> bool) a b, filter f (a ++ b)%list = (filter f a ++ filter f b)%list.
Proof. intros A f a b. induction a as [|x a IH]; cbn; [reflexivity|]. destruct (f x); cbn; now rewrite IH. Qed.
Lemma skipn_self : forall A (a b : list A), skipn (List.length a) (a ++ b)%list = b.
Proof. induction a; auto. Qed.
Lemma effect_opens : forall o ctx st st', effect o ctx st st' -> p_opens st' = p_opens st \/ exists p, p_opens st' = (p_opens st ++ [p])%list.
Proof.
  intros o ctx st st' H. destruct H as [|e _|p _|p e _ _|p c _ _|p fs _ _]; auto.
  - right. now exists p.
  - right. now exists p.
  - right. exists p. now destruct (add_includes_frame ctx [p] (log_open st p)) as (_ & _ & _ & ->).
  - left. now destruct (add_includes_frame ctx (sort_strings fs) st) as (_ & _ & _ & ->).
Qed.
Lemma told_decide : forall o dir ctx d term st ds h, told o st h ->
  told o (state_after st (decide o dir ctx d term st)) (snd (note_open (opened_by o st (decide o dir ctx d term st)) ds h)).
Proof.
  intros o dir ctx d term st ds h T. pose proof (decide_effect o dir ctx d term st) as E. apply effect_opens in E. unfold opened_by.
  assert (S : state_after st (decide o dir ctx d term st) = decision_state st (decide o dir ctx d term st)) by (now destruct (decide o dir ctx d term st)).
  rewrite S. unfold told in *. destruct E as [->|(p & ->)].
  - replace (p_opens st) with (p_opens st ++ [])%list at 2 by apply app_nil_r. rewrite skipn_self. exact T.
  - rewrite skipn_self, filter_app_l, <- T. cbn [filter]. unfold can_open. destruct (o_open o p); cbn [note_open snd h_open h_log].
    + rewrite opens_app, map_app. reflexivity.
    + now rewrite app_nil_r.
Qed.
Definition told_res (o : popts) (r : pres) (h : handles) : Prop :=
  match r with POk _ _ st | PErr _ _ st => told o st h | _ => True end.
Lemma told_padd : forall o ds r h, told_res o r h -> told_res o (padd ds r) h.
Proof. intros o ds r h H. now destruct r. Qed.
Lemma told_deferred : forall o st ds h, told o st h -> told o st (run_deferred ds h).
Proof. intros o st ds h H. unfold told. cbn. now rewrite opens_app, opens_close, app_nil_r. Qed.
Lemma parse_h_told : forall o dir fuel ctx toks st ds h, told o st h ->
  let '(r, h') := parse_h o dir fuel ctx toks st ds h in told_res o r h'.
Proof.
  intros o dir. induction fuel as [|fuel IH]; intros ctx toks st ds h T; [exact I|].
  cbn [parse_h]. destruct toks as [|t toks]; [now apply told_deferred|]. destruct (t_err t); [now apply told_deferred|]. destruct (tok_is t "}"); [now apply told_deferred|].
  destruct (tok_comment t).
  { specialize (IH ctx toks st ds h T). destruct (parse_h o dir fuel ctx toks st ds h). now apply told_padd. }
  destruct (read_args (o_comments o) toks) as [[[[args cs] term] rest]|]; [|now apply told_deferred].
  cbv zeta. match goal with |- context [decide o dir ctx ?x term st] => set (d0 := x) end.
  pose proof (told_decide o dir ctx d0 term st ds h T) as T1.
  destruct (note_open (opened_by o st (decide o dir ctx d0 term st)) ds h) as [ds1 h1]. cbn [snd] in T1.
  destruct (decide o dir ctx d0 term st) as [d st1|d|eat st1|st1|e st1|]; cbn [state_after] in T1.
  - destruct (String.eqb term "{").
    + destruct (enter_block _ _ _) as [hp inner]. specialize (IH inner rest (set_heap st1 hp) [] h1 T1) as R1.
      destruct (parse_h o dir fuel inner rest (set_heap st1 hp) [] h1) as [[blk rest2 st2|e rest2 st2| |] h2]; cbn [told_res] in *; try exact I; [|now apply told_deferred].
      specialize (IH ctx rest2 st2 ds1 h2 R1). destruct (parse_h o dir fuel ctx rest2 st2 ds1 h2). now apply told_padd.
    + specialize (IH ctx rest st1 ds1 h1 T1). destruct (parse_h o dir fuel ctx rest st1 ds1 h1). now apply told_padd.
  - specialize (IH ctx rest st ds1 h1 T1). destruct (parse_h o dir fuel ctx rest st ds1 h1). now apply told_padd.
  - now apply IH.
  - now apply told_deferred.
  - now apply told_deferred.
  - exact I.
Qed.
Lemma parse_file_h_told : forall o dir path ctx st ds h, told o st h ->
  let '(r, _, h') := parse_file_h o dir path ctx st ds h in match r with FDone st' | FErr _ st' => told o st' h' | _ => True end.
Proof.
  intros o dir path ctx st ds h T. unfold parse_file_h.
  assert (T0 : forall h1, map snd (opens (h_log h1)) = (map snd (opens (h_log h)) ++ if can_open o path then [path] else [])%list ->
    told o (log_use (log_open st path) path ctx) h1).
  { intros h1 E. unfold told in *. cbn [p_opens log_use log_open]. rewrite filter_app_l, E, T. cbn [filter]. reflexivity. }
  unfold can_open in T0. destruct (o_open o path) as [c|m]; [|apply T0; now rewrite app_nil_r].
  cbv zeta. cbn [note_open].
  match goal with |- context [parse_h ?a ?b ?n ?d ?e ?f ?g ?i] => pose proof (parse_h_told a b n d e f g i) as R; destruct (parse_h a b n d e f g i) as [r h1] end.
  assert (T1 : told o (log_use (log_open st path) path ctx) (h_open path h)) by (apply T0; cbn; now rewrite opens_app, map_app).
  specialize (R T1). destruct r as [trees rest st1|e rest st1| |]; cbn [told_res] in R; auto. now destruct (o_stop o).
Qed.
Lemma run_files_h_told : forall o dir fuel st ds h, told o st h ->
  let '(r, _, h') := run_files_h fuel o dir st ds h in match r with FDone st' | FErr _ st' => told o st' h' | _ => True end.
Proof.
  intros o dir. induction fuel as [|fuel IH]; intros st ds h T; cbn [run_files_h]; destruct (p_queue st) as [|[path ctx] q]; auto.
  pose proof (parse_file_h_told o dir path ctx (set_queue st q) ds h T) as F.
  destruct (parse_file_h o dir path ctx (set_queue st q) ds h) as [[[st1|e st1| |] ds1] h1]; auto. now apply IH.
Qed.
Lemma log_told : forall fuel o filename st r log, parse_log fuel o filename = (r, log) ->
  collect fuel o filename = FDone st \/ (exists e, collect fuel o filename = FErr e st) ->
  map snd (opens log) = filter (can_open o) (p_opens st).
Proof.
  intros fuel o filename st r log H C. unfold parse_log in H. unfold collect in C.
  rewrite <- (run_files_h_same o (dir_name filename) fuel (init_state filename) [] (Hs 0 [])) in C.
  pose proof (run_files_h_told o (dir_name filename) fuel (init_state filename) [] (Hs 0 []) eq_refl) as T.
  destruct (run_files_h _ _ _ _ _ _) as [[fr ds] h]. cbn [fst] in C. injection H as _ <-. cbn [run_deferred h_log]. rewrite opens_app, opens_close, app_nil_r.
  destruct C as [->|(e & ->)]; exact T.
Qed.

(** ** All files of the payload are open at once *)
Lemma run_cur : forall o dir ctx toks st r, Run o dir ctx toks st r ->
  match r with POk _ _ st' | PErr _ _ st' => cf_file (p_cur st') = cf_file (p_cur st) /\ map cf_file (pl_config (p_pay st')) = map cf_file (pl_config (p_pay st)) | _ => True end.
Proof.
  intros o dir ctx toks st r H.
  pose proof (run_state_rel o dir (fun a b => cf_file (p_cur b) = cf_file (p_cur a) /\ map cf_file (pl_config (p_pay b)) = map cf_file (pl_config (p_pay a)))) as R.
  assert (X : forall c s s', effect o c s s' -> cf_file (p_cur s') = cf_file (p_cur s) /\ map cf_file (pl_config (p_pay s')) = map cf_file (pl_config (p_pay s))).
  { intros c s s' E. destruct E as [|e _|p _|p e _ _|p x _ _|p fs _ _]; auto.
    - destruct (add_includes_frame c [p] (log_open s p)) as (_ & -> & -> & _). auto.
    - destruct (add_includes_frame c (sort_strings fs) s) as (_ & -> & -> & _). auto. }
  refine (R _ _ X _ ctx toks st r H); auto. intros a b c0 [A1 A2] [B1 B2]. split; congruence.
Qed.
Lemma parse_file_files : forall o dir path ctx st st', parse_file o dir path ctx st = FDone st' ->
  map cf_file (pl_config (p_pay st')) = (map cf_file (pl_config (p_pay st)) ++ [path])%list.
Proof.
  intros o dir path ctx st st' H. unfold parse_file in H. destruct (o_open o path) as [c|m]; [|discriminate].
  set (toks := lex (o_lexers o) c) in *. set (st1 := set_cur _ _) in H.
  pose proof (run_cur _ _ _ _ _ _ (parse_run o dir ctx toks st1)) as R.
  destruct (parse o dir (S (List.length toks)) ctx toks st1) as [ds rest st2|e rest st2| |]; try discriminate.
  - injection H as <-. destruct R as [R1 R2]. cbn [p_pay set_pay pl_config]. rewrite map_app, R2. cbn [map cf_file]. now rewrite R1.
  - destruct (o_stop o); [discriminate|]. injection H as <-. destruct R as [R1 R2]. cbn [p_pay set_pay pl_config]. rewrite map_app. unfold handle_error. cbn [p_pay set_pay set_cur pl_config p_cur cf_file map]. rewrite R2. now rewrite R1.
Qed.
Lemma run_files_h_open : forall o dir fuel st ks h, pending (h_log h) ks -> map fst (opens (h_log h)) = seq 0 (h_next h) ->
  rev (map snd ks) = map cf_file (pl_config (p_pay st)) ->
  forall st' ds h', run_files_h fuel o dir st (map fst ks) h = (FDone st', ds, h') ->
  exists ks', ds = map fst ks' /\ pending (h_log h') ks' /\ map fst (opens (h_log h')) = seq 0 (h_next h') /\ rev (map snd ks') = map cf_file (pl_config (p_pay st')).
Proof.
  intros o dir. induction fuel as [|fuel IH]; intros st ks h P Q E st' ds h' H; cbn [run_files_h] in H; destruct (p_queue st) as [|[path ctx] q];
    try (injection H as <- <- <-; now exists ks); try discriminate.
  pose proof (parse_file_h_pending o dir path ctx (set_queue st q) ks h P Q) as F.
  pose proof (parse_file_h_same o dir path ctx (set_queue st q) (map fst ks) h) as S.
  destruct (parse_file_h o dir path ctx (set_queue st q) (map fst ks) h) as [[r ds1] h1]. destruct F as (Q1 & F). cbn [fst] in S.
  destruct r as [st1|e st1| |]; try discriminate. destruct F as [(_ & _ & F)|(k & -> & F)]; [now destruct (F st1)|].
  apply (IH st1 ((k, path) :: ks) h1 F Q1); [|exact H]. cbn [map snd rev]. rewrite E. symmetry. exact (parse_file_files _ _ _ _ _ _ (eq_sym S)).
Qed.
Lemma closed_app : forall a b k, closed_in (a ++ b)%list k = (closed_in a k || closed_in b k)%bool.
Proof. intros a b k. unfold closed_in. apply existsb_app. Qed.
Lemma paired_keys : forall n, paired n -> forall k, closed_in n k = true <-> In k (map fst (opens n)).
Proof.
  intros n H. induction H as [|j p a b A IA B IB]; intros k; [split; [discriminate|intros []]|].
  change (Open j p :: a ++ Close j :: b)%list with ([Open j p] ++ a ++ [Close j] ++ b)%list. rewrite !closed_app, !opens_app, !map_app, !in_app_iff, !orb_true_iff, IA, IB.
  cbn. rewrite orb_false_r, Nat.eqb_eq. intuition (try discriminate; auto).
Qed.
Lemma pending_keys : forall l ks, pending l ks -> forall k, closed_in l k = true -> In k (map fst (opens l)).
Proof.
  intros l ks H. induction H as [|l ks j p n H IH N]; intros k C; [discriminate|]. rewrite closed_app in C. rewrite opens_app, map_app, in_app_iff.
  apply orb_true_iff in C as [C|C]; [left; auto|right]. cbn. right. apply (paired_keys n N). exact C.
Qed.
Lemma filter_none : forall A (f : A -> bool) l, (forall x, In x l -> f x = false) -> filter f l = [].
Proof. intros A f l H. induction l as [|x l IH]; [reflexivity|]. cbn. rewrite (H x (or_introl eq_refl)). apply IH. intros y Y. apply H. now right. Qed.
Lemma nodup_left : forall A (a b : list A), NoDup (a ++ b)%list -> NoDup a.
Proof. intros A a b H. induction a as [|x a IH]; [constructor|]. inversion H; subst. constructor; [|auto]. intros I. apply H2. apply in_or_app. now left. Qed.
Lemma nodup_right : forall A (a b : list A), NoDup (a ++ b)%list -> NoDup b.
Proof. intros A a b H. induction a as [|x a IH]; [exact H|]. inversion H; subst. auto. Qed.
Lemma pending_open : forall l ks, pending l ks -> NoDup (map fst (opens l)) -> filter (fun x => negb (closed_in l (fst x))) (opens l) = rev ks.
Proof.
  intros l ks H. induction H as [|l ks k p n H IH N]; intros D; [reflexivity|]. rewrite opens_app in *. cbn [opens] in *. rewrite map_app in D. cbn [map fst] in D.
  assert (D1 : NoDup (map fst (opens l))) by (eapply nodup_left; exact D).
  assert (D2 : forall j, In j (map fst (opens l)) -> ~ In j (k :: map fst (opens n))).
  { intros j A B. apply in_split in A as (a1 & a2 & A). rewrite A, <- app_assoc in D. cbn [app] in D. apply NoDup_remove_2 in D. apply D. rewrite !in_app_iff. auto. }
  assert (D3 : ~ In k (map fst (opens n))) by (apply nodup_right in D; now inversion D).
  rewrite filter_app_l. cbn [rev]. rewrite <- (IH D1). f_equal.
  - apply filter_ext_in. intros [j q] J. cbn [fst]. f_equal. rewrite closed_app. cbn. fold (closed_in n j). destruct (closed_in n j) eqn:C; [|apply orb_false_r].
    apply (paired_keys n N) in C. exfalso. apply (D2 j); [|now right]. apply (in_map fst) in J. exact J.
  - cbn [filter fst]. replace (closed_in (l ++ Open k p :: n)%list k) with false.
    + cbn [negb]. f_equal. apply filter_none. intros [j q] J. cbn [fst]. rewrite closed_app. cbn. fold (closed_in n j).
      assert (C : closed_in n j = true) by (apply (paired_keys n N); apply (in_map fst) in J; exact J). rewrite C, orb_true_r. reflexivity.
    + symmetry. rewrite closed_app. cbn. fold (closed_in n k). apply orb_false_iff. split; apply not_true_is_false; intros C.
      * apply (pending_keys l ks H) in C. apply (D2 k C). now left.
      * now apply (paired_keys n N) in C.
Qed.
Lemma log_all_open : forall fuel o filename st r log, parse_log fuel o filename = (r, log) -> collect fuel o filename = FDone st ->
  exists pre post, log = (pre ++ post)%list /\ opens post = [] /\ still_open pre = map cf_file (pl_config (p_pay st)).
Proof.
  intros fuel o filename st r log H C. unfold parse_log in H. unfold collect in C.
  rewrite <- (run_files_h_same o (dir_name filename) fuel (init_state filename) [] (Hs 0 [])) in C.
  pose proof (run_files_h_open o (dir_name filename) fuel (init_state filename) [] (Hs 0 []) pend_nil eq_refl eq_refl) as T. cbn [map] in T.
  destruct (run_files_h _ _ _ _ _ _) as [[fr ds] h]. cbn [fst] in C. subst fr. destruct (T st ds h eq_refl) as (ks & -> & P & Q & E). injection H as _ <-.
  exists (h_log h), (map Close (map fst ks)). split; [reflexivity|]. split; [apply opens_close|]. unfold still_open. rewrite (pending_open _ _ P) by (rewrite Q; apply seq_NoDup). now rewrite map_rev.
Qed.
Lemma main_open : forall fuel o filename p log, parse_log fuel o filename = (ROk p, log) -> o_combine o = false ->
  exists pre post, log = (pre ++ post)%list /\ opens post = [] /\ still_open pre = map cf_file (pl_config p).
Proof.
  intros fuel o filename p log H C. pose proof (log_same fuel o filename) as S. rewrite H in S. cbn [fst] in S. symmetry in S. unfold parse_main in S.
  destruct (collect fuel o filename) as [st| | |] eqn:E; try discriminate. destruct (log_all_open _ _ _ _ _ _ H E) as (pre & post & A & B & D). exists pre, post. split; [exact A|]. split; [exact B|].
  unfold finish in S. destruct (has_cycle _ _ _); [discriminate|]. rewrite C in S. injection S as <-. exact D.
Qed.
