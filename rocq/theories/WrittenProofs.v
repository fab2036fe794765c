(** C74: the JSON that is written. *)
From Verif Require Export SpecWritten JsonDirs JsonTextProofs.
From Verif Require Import TreeFacts CharsProofs.
Local Open Scope string_scope.

(** ** What the text stands for *)
Lemma print_value : forall j, wf j -> value (depth j) (print_json j) (clean_json j).
Proof.
  intros j W. pose proof (all_read j (slen (print_json j)) (depth j) "" W (or_introl eq_refl) (le_n _)) as R.
  rewrite N.leb_refl in R. apply (proj1 (read_sound _)) in R. destruct R as (w & t & E & F & V).
  rewrite !app_nil_r_s in E.
  destruct (print_first j W) as (c & u & P & NW & _). rewrite P in E.
  destruct w as [|x w].
  - cbn in E. rewrite P, E. exact V.
  - cbn in E. injection E as -> _. apply blank_cons in F. destruct F as [F _]. congruence.
Qed.
Lemma text_valid : forall s, text_is s (JStr (to_valid s)).
Proof. intros s. exists (to_valid s). split; [now apply repaired_iff|reflexivity]. Qed.
Lemma array_map : forall A (R : A -> json -> Prop) (f : A -> json) l, Forall (fun a => R a (clean_json (f a))) l ->
  array R l (clean_json (JArr (map f l))).
Proof. intros A R f l H. cbn [clean_json]. rewrite map_map. constructor. induction H; constructor; auto. Qed.
Lemma slice_map : forall A (R : A -> json -> Prop) (f : A -> json) nil l, Forall (fun a => R a (clean_json (f a))) l ->
  slice_is R l (clean_json (slice_json f nil l)).
Proof.
  intros A R f nil l H. unfold slice_json. destruct l as [|a l].
  - destruct nil; [constructor|]. apply sl_some. constructor. constructor.
  - apply sl_some. now apply array_map.
Qed.
Definition cleaned (l : list (string * json)) : list (string * json) := map (fun kv => (to_valid (fst kv), clean_json (snd kv))) l.
Lemma dir_written : forall na d, dir_as d (clean_json (to_json na d)).
Proof.
  intros na. induction d as [d IH] using dir_ind'. rewrite to_json_eq. cbn [clean_json]. rewrite !map_app.
  repeat match goal with |- context [map (fun kv : string * json => (to_valid (fst kv), clean_json (snd kv))) ?l] =>
    change (map (fun kv : string * json => (to_valid (fst kv), clean_json (snd kv))) l) with (cleaned l) end.
  refine (da d (JStr (to_valid (d_name d))) (JNum (itoa (d_line d))) _ _ _ _ _ _ (text_valid _) eq_refl _ _ _ _ _ _).
  - destruct (d_args d) as [|a l] eqn:A.
    + destruct (na d); [constructor|]. apply sl_some. constructor. constructor.
    + apply sl_some. apply (array_map _ text_is JStr). apply Forall_forall. intros s _. apply text_valid.
  - unfold some_text. destruct (String.eqb (d_file d) ""); [constructor|]. apply (om_in "file"). apply text_valid.
  - destruct (d_includes d) as [[|z l]|]; cbn [some_list]; [constructor| |constructor].
    apply (om_in "includes"). apply (array_map _ int_is (fun z => JNum (itoa z))). apply Forall_forall. reflexivity.
  - destruct (d_block d) as [[|b l]|]; cbn [some_list]; [constructor| |constructor].
    apply (om_in "block"). apply array_map. exact IH.
  - destruct (d_comment d) as [c|]; [|constructor]. apply (om_in "comment"). apply text_valid.
  - destruct (d_ismap d); [|constructor]. apply (om_in "mapBlockParameter"). reflexivity.
Qed.
Lemma dir_text : forall na d, exists n j, value n (marshal na d) j /\ dir_as d j.
Proof.
  intros na d. exists (depth (to_json na d)), (clean_json (to_json na d)).
  split; [apply print_value, to_json_wf|apply dir_written].
Qed.

Section Payload.
Variables (na : directive -> bool) (ne nc np : bool) (other cb : string -> json).
Hypothesis OW : forall m, wf (other m).
Hypothesis CW : forall c, wf (cb c).
Lemma line_written : forall z, line_is z (clean_json (line_json z)).
Proof. intros [z|]; reflexivity. Qed.
Lemma error_written : forall e, error_as other e (clean_json (err_json other e)).
Proof.
  intros [p|m]; cbn; [apply text_valid|]. exists (depth (other m)). apply print_value, OW.
Qed.
Lemma cerr_written : forall e, cerr_as other e (clean_json (cerr_json other e)).
Proof. intros e. exact (ca other e _ _ (line_written _) (error_written _)). Qed.
Lemma perr_written : forall e, perr_as other cb e (clean_json (perr_json other cb e)).
Proof.
  intros e. unfold perr_json. cbn [clean_json]. rewrite map_app.
  refine (pa other cb e (JStr (to_valid (py_file e))) _ _ _ (text_valid _) (line_written _) (error_written _) _).
  destruct (py_cb e) as [c|]; [|constructor]. apply (om_in "callback"). exists (depth (cb c)). apply print_value, CW.
Qed.
Lemma config_written : forall c, config_as other c (clean_json (config_json na ne np other c)).
Proof.
  intros c. refine (cf other c _ _ _ _ (text_valid _) (text_valid _) (slice_map _ _ (cerr_json other) ne _ _) (slice_map _ _ (to_json na) np _ _)).
  - apply Forall_forall. intros e _. apply cerr_written.
  - apply Forall_forall. intros d _. apply dir_written.
Qed.
Lemma payload_written : forall p, payload_as other cb p (clean_json (payload_json na ne nc np other cb p)).
Proof.
  intros p. refine (pl other cb p _ _ _ (text_valid _) (slice_map _ _ (perr_json other cb) ne _ _) (slice_map _ _ (config_json na ne np other) nc _ _)).
  - apply Forall_forall. intros e _. apply perr_written.
  - apply Forall_forall. intros c _. apply config_written.
Qed.
Lemma slice_wf : forall A (f : A -> json) nil l, (forall a, wf (f a)) -> wf (slice_json f nil l).
Proof.
  intros A f nil l H. unfold slice_json. destruct l as [|a l]; [destruct nil; exact I|].
  apply wf_arr. apply Forall_map. apply Forall_forall. auto.
Qed.
Lemma line_wf : forall z, wf (line_json z).
Proof. intros [z|]; [apply num_wf|exact I]. Qed.
Lemma error_wf : forall e, wf (err_json other e).
Proof. intros [p|m]; [exact I|apply OW]. Qed.
Lemma payload_wf : forall p, wf (payload_json na ne nc np other cb p).
Proof.
  intros p. apply wf_obj. repeat constructor; cbn [snd].
  - apply slice_wf. intros e. apply wf_obj. apply Forall_app. split.
    + repeat constructor; cbn [snd]; auto using line_wf, error_wf.
    + destruct (py_cb e); repeat constructor. apply CW.
  - apply slice_wf. intros c. apply wf_obj. repeat constructor; cbn [snd].
    + apply slice_wf. intros e. apply wf_obj. repeat constructor; cbn [snd]; auto using line_wf, error_wf.
    + apply slice_wf. intros d. apply to_json_wf.
Qed.
Lemma payload_text : forall p, exists n j, value n (marshal_payload na ne nc np other cb p) j /\ payload_as other cb p j.
Proof.
  intros p. exists (depth (payload_json na ne nc np other cb p)), (clean_json (payload_json na ne nc np other cb p)).
  split; [apply print_value, payload_wf|apply payload_written].
Qed.
End Payload.

(** ** Characters *)
Lemma safe_app : forall a b, safe a -> safe b -> safe (a ++ b).
Proof. intros a b A B. induction A as [|n t s U H A IH]; [exact B|]. rewrite app_assoc_s. eapply sf_char; eauto. Qed.
Lemma safe_one : forall n t, utf8 n t -> harmless n -> safe t.
Proof. intros n t U H. rewrite <- (app_nil_r_s t). eapply sf_char; eauto. constructor. Qed.
Definition fine (c : ascii) : bool :=
  (N.leb 32 (bval c) && N.ltb (bval c) 128 && negb (existsb (N.eqb (bval c)) [0x26; 0x3C; 0x3E]%N))%bool.
Lemma fine_safe : forall c, fine c = true -> safe (str1 c).
Proof.
  intros c H. unfold fine in H. apply andb_prop in H as [H N3]. apply andb_prop in H as [N1 N2].
  apply N.leb_le in N1. apply N.ltb_lt in N2. apply negb_true_iff in N3. cbn in N3. rewrite !orb_false_iff in N3.
  apply (safe_one (bval c)).
  - replace (str1 c) with (of_bytes [bval c]); [apply u8_one; exact N2|]. cbn [of_bytes]. change (str1 (byte (bval c)) = str1 c). now rewrite byte_bval.
  - split; [exact N1|]. cbn. destruct N3 as (E1 & E2 & E3 & _). apply N.eqb_neq in E1, E2, E3. lia.
Qed.
Lemma fine_all : forall s, forallb fine (list_of_str s) = true -> safe s.
Proof.
  induction s as [|c s IH]; intros H; [constructor|]. cbn in H. apply andb_prop in H as [H1 H2].
  change (String c s) with (str1 c ++ s). apply safe_app; [now apply fine_safe|auto].
Qed.
Lemma esc_fine : forall c, N.ltb (bval c) 128 = true -> forallb fine (list_of_str (esc_byte c)) = true.
Proof. intros [[] [] [] [] [] [] [] []]; vm_compute; intros H; try reflexivity; discriminate H. Qed.
Lemma items_chars : forall s l, chars s l -> Forall (fun i => it_ok i = true -> utf8 (it_rune i) (it_raw i)) l.
Proof. intros s l H. induction H; constructor; auto. cbn. discriminate. Qed.
Lemma item_safe : forall i, (it_ok i = true -> utf8 (it_rune i) (it_raw i)) -> safe (esc_item i).
Proof.
  intros [n raw ok] H. unfold esc_item. cbn [it_rune it_raw it_ok] in *. destruct ok; cbn [negb].
  2:{ apply fine_all. vm_compute. reflexivity. }
  destruct (N.eqb n 0x2028 || N.eqb n 0x2029)%bool eqn:E.
  { apply orb_prop in E as [E|E]; apply N.eqb_eq in E; subst n; apply fine_all; vm_compute; reflexivity. }
  apply orb_false_iff in E as [E1 E2]. apply N.eqb_neq in E1, E2. specialize (H eq_refl).
  assert (BIG : (128 <= n)%N -> safe raw).
  { intros B. apply (safe_one n); auto. split; [lia|]. cbn. lia. }
  inversion H as [L EQ|a b EN LB R EQ|a b c EN L1 L2 R NS EQ|a b c d EN L1 L2 L3 R EQ]; subst raw;
    try (cbn [of_bytes]; apply BIG; lia).
  cbn. apply fine_all, esc_fine. rewrite bval_byte by lia. now apply N.ltb_lt.
Qed.
Lemma str_safe : forall s, safe (json_str s).
Proof.
  intros s. unfold json_str. apply safe_app; [apply fine_all; reflexivity|]. apply safe_app; [|apply fine_all; reflexivity].
  pose proof (items_chars s (scan s) (proj2 (chars_exact s (scan s)) eq_refl)) as F.
  induction F as [|i l H F IH]; [constructor|]. cbn. apply safe_app; [now apply item_safe|exact IH].
Qed.
Lemma join_safe : forall l, Forall safe l -> safe (join l ",").
Proof.
  intros l F. induction F as [|a l H F IH]; [constructor|]. destruct l as [|b l]; [exact H|].
  change (join (a :: b :: l) ",") with (a ++ "," ++ join (b :: l) ","). apply safe_app; auto. apply safe_app; auto.
  apply fine_all. reflexivity.
Qed.
Lemma num_fine : forall c, num_char c = true -> fine c = true.
Proof. intros [[] [] [] [] [] [] [] []]; vm_compute; intros H; try reflexivity; discriminate H. Qed.
Lemma print_safe : forall j, wf j -> safe (print_json j).
Proof.
  intros j. induction j as [|b|raw|s|l IH|l IH] using json_ind'; intros W; cbn [print_json].
  - apply fine_all. reflexivity.
  - destruct b; apply fine_all; reflexivity.
  - destruct W as (_ & F & _). apply fine_all. rewrite forallb_forall in *. intros c I. apply num_fine. auto.
  - apply str_safe.
  - apply wf_arr in W. apply safe_app; [apply fine_all; reflexivity|]. apply safe_app; [|apply fine_all; reflexivity].
    apply join_safe, Forall_map. rewrite Forall_forall in *. auto.
  - apply wf_obj in W. apply safe_app; [apply fine_all; reflexivity|]. apply safe_app; [|apply fine_all; reflexivity].
    apply join_safe, Forall_map. rewrite Forall_forall in *. intros kv I. apply safe_app; [apply str_safe|].
    apply safe_app; [apply fine_all; reflexivity|]. apply IH; auto.
Qed.
