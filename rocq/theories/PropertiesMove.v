(** C80: the names of the files are only names. *)
From Verif Require Import MoveProofs.
Local Open Scope string_scope.

(** Files with other names [R] but the same texts, includes that lead to the corresponding
    files: Parse returns the same, with the other names.  [M] relates what the operating
    system says about files that cannot be opened. *)
Theorem C80_parse : forall R M o op gl filename filename' fuel, one_to_one R -> R filename filename' ->
  (forall f g, R f g -> same_text M (o_open o f) (op g)) ->
  (forall f g text a, R f g -> o_open o f = inl text -> included (lex (o_lexers o) text) a ->
     same_target R M o gl (meant_path (dir_name filename) a) (meant_path (dir_name filename') a)) ->
  same_result R M (parse_main fuel o filename) (parse_main fuel (with_disk o op gl) filename').
Proof. exact move_main. Qed.
Print Assumptions C80_parse.
(** A directory is moved; all includes lead down from it. *)
Theorem C80_moved : forall M D D' o op gl e fuel, a_directory D -> a_directory D' -> part e ->
  (forall x, path_down x -> same_text M (o_open o (below D x)) (op (below D' x))) ->
  (forall x text a, path_down x -> o_open o (below D x) = inl text -> included (lex (o_lexers o) text) a -> path_down a) ->
  (forall a, path_down a -> contains_any a "*?[" = true -> moved_list M D D' (o_glob o (below D a)) (gl (below D' a))) ->
  same_result (moved D D') M (parse_main fuel o (below D e)) (parse_main fuel (with_disk o op gl) (below D' e)).
Proof. exact move_dir. Qed.
Print Assumptions C80_moved.

(** A directory with three files and one that is missing. *)
Definition mv_files_of (D : string) (x : string) : string + string :=
  if String.eqb x "a.conf" then inl "include b*; # c
include missing; include c; x 1; include;"
  else if String.eqb x "b2" then inl "y;" else if String.eqb x "b1" then inl "include c; z 'a;'" else if String.eqb x "c" then inl "if ( a ) { w; }"
  else inr ("no " ++ below D x).
Definition mv_open (D f : string) : string + string :=
  if has_prefix f (D ++ "/") then mv_files_of D (drop (slen D + 1) f) else inr f.
Definition mv_glob (D f : string) : list string + string :=
  if String.eqb f (below D "b*") then inl [below D "b2"; below D "b1"] else inr ("bad " ++ f).
Definition mv_opts (D : string) (combine : bool) : popts :=
  Opts [] None (mv_open D) (mv_glob D) false combine false true false true true [] (fun _ => None) [].
Lemma mv_part : forall e, (negb (existsb (String.eqb e) [""; "."; ".."]) && negb (str_exists (Ascii.eqb "/") e))%bool = true -> part e.
Proof.
  intros e H. apply andb_true_iff in H as [H1 H2]. apply negb_true_iff in H1, H2. split.
  - intros (a & b & ->). rewrite str_exists_app in H2. cbn in H2. unfold str_exists in H2. cbn in H2. rewrite orb_true_r in H2. discriminate.
  - repeat split; intros ->; discriminate H1.
Qed.
Lemma mv_down : forall e, (negb (existsb (String.eqb e) [""; "."; ".."]) && negb (str_exists (Ascii.eqb "/") e))%bool = true -> path_down e.
Proof. intros e H. exists [e]. split; [discriminate|]. split; [constructor; [now apply mv_part|constructor]|reflexivity]. Qed.
Lemma prefix_self : forall p x, prefix p (p ++ x) = true.
Proof. induction p as [|c p IH]; intros x; [now destruct x|]. cbn. destruct (ascii_dec c c); [apply IH|congruence]. Qed.
Lemma mv_open_below : forall D x, mv_open D (below D x) = mv_files_of D x.
Proof.
  intros D x. unfold mv_open, below. rewrite <- app_assoc_s. unfold has_prefix. rewrite prefix_self. f_equal.
  assert (L : forall p y, drop (slen p) (p ++ y) = y) by (induction p as [|c p IH]; intros y; [now destruct y|exact (IH y)]).
  assert (E : slen (D ++ "/") = slen D + 1) by (induction D as [|c D IH]; [reflexivity|]; cbn in *; now rewrite IH). rewrite <- E. apply L.
Qed.
(** All premises of [C80_moved]. *)
Example C80_case : forall combine fuel, let M := fun m m' => exists p x, m = p ++ below "/etc/n" x /\ m' = p ++ below "/opt" x in
  same_result (moved "/etc/n" "/opt") M (parse_main fuel (mv_opts "/etc/n" combine) (below "/etc/n" "a.conf"))
    (parse_main fuel (mv_opts "/opt" combine) (below "/opt" "a.conf")).
Proof.
  intros combine fuel M. change (mv_opts "/opt" combine) with (with_disk (mv_opts "/etc/n" combine) (mv_open "/opt") (mv_glob "/opt")). apply C80_moved.
  - exists "etc/n". split; [|split; reflexivity]. exists ["etc"; "n"]. split; [discriminate|]. split; [repeat (constructor; [apply mv_part; reflexivity|]); constructor|reflexivity].
  - exists "opt". split; [|split; reflexivity]. apply mv_down. reflexivity.
  - apply mv_part. reflexivity.
  - intros x _. cbn [o_open mv_opts]. rewrite !mv_open_below. unfold mv_files_of. repeat (destruct (String.eqb x _); [constructor|]). constructor. exists "no ", x. now split.
  - intros x text a _ O I. cbn [o_open o_lexers mv_opts] in *. rewrite mv_open_below in O.
    assert (X : Forall (fun t => ends_stmt t \/ (negb (existsb (String.eqb (t_val t)) [""; "."; ".."]) && negb (str_exists (Ascii.eqb "/") (t_val t)))%bool = true) (lex [] text)).
    { assert (Y : forallb (fun t => (negb (t_quoted t) && existsb (String.eqb (t_val t)) ["{"; ";"; "}"]) || (negb (existsb (String.eqb (t_val t)) [""; "."; ".."]) && negb (str_exists (Ascii.eqb "/") (t_val t))))%bool (lex [] text) = true).
      { unfold mv_files_of in O. repeat (destruct (String.eqb x _); [injection O as <-; vm_compute; reflexivity|]). discriminate O. }
      rewrite forallb_forall in Y. apply Forall_forall. intros t T. specialize (Y t T). apply orb_true_iff in Y as [Y|Y]; [left|now right]. apply andb_true_iff in Y as [Y1 Y2]. apply negb_true_iff in Y1. split; [exact Y1|].
      apply existsb_exists in Y2 as (v & V & E). apply String.eqb_eq in E. now rewrite E. }
    destruct I as (pre & t & mid & b & post & E & _ & F & <-). rewrite E in X. apply Forall_app in X as [_ X]. inversion X as [|? ? _ X2]; subst. apply Forall_app in X2 as [_ X2]. inversion X2 as [|? ? [Q|Q] _]; subst.
    + exfalso. apply Forall_app in F as [_ F]. inversion F; subst. auto.
    + now apply mv_down.
  - intros a _ _. cbn [o_glob mv_opts]. unfold mv_glob. destruct (String.eqb_spec a "b*") as [->|N].
    + apply (ml_files M "/etc/n" "/opt" ["b2"; "b1"]). repeat (constructor; [apply mv_down; reflexivity|]). constructor.
    + assert (Q : forall D, String.eqb (below D a) (below D "b*") = false) by (intros D; apply String.eqb_neq; intros E; now apply below_inj in E). rewrite !Q. constructor. now exists "bad ", a.
Qed.
(** What the two runs return. *)
Definition mv_summary (r : result) : option (string * list (string * string) * list (string * string * list string)) :=
  match r with
  | ROk p => Some (pl_status p, map (fun e => (py_file e, err_string (py_err e))) (pl_errors p), map (fun c => (cf_file c, cf_status c, map d_name (cf_parsed c))) (pl_config p))
  | _ => None
  end.
Example C80_shown : mv_summary (parse_main 9 (mv_opts "/etc/n" false) "/etc/n/a.conf") = Some ("failed",
    [("/etc/n/a.conf", "no /etc/n/missing in /etc/n/a.conf:2");
     ("/etc/n/a.conf", "invalid number of arguments in ""include"" directive in /etc/n/a.conf:2 in /etc/n/a.conf:2");
     ("/etc/n/b1", "premature end of file in /etc/n/b1:1")],
    [("/etc/n/a.conf", "failed", []); ("/etc/n/b1", "failed", []); ("/etc/n/b2", "ok", ["y"]); ("/etc/n/c", "ok", ["if"])]) /\
  mv_summary (parse_main 9 (mv_opts "/opt" false) "/opt/a.conf") = Some ("failed",
    [("/opt/a.conf", "no /opt/missing in /opt/a.conf:2");
     ("/opt/a.conf", "invalid number of arguments in ""include"" directive in /opt/a.conf:2 in /opt/a.conf:2");
     ("/opt/b1", "premature end of file in /opt/b1:1")],
    [("/opt/a.conf", "failed", []); ("/opt/b1", "failed", []); ("/opt/b2", "ok", ["y"]); ("/opt/c", "ok", ["if"])]).
Proof. vm_compute. split; reflexivity. Qed.
(** Includes by absolute path into the directory do not survive the move, of course. *)
Theorem C80_absolute_refuted : exists o op, (forall x, same_text (fun _ _ => True) (o_open o (below "/etc" x)) (op (below "/opt" x))) /\
  forall gl, ~ same_result (moved "/etc" "/opt") (fun _ _ => True) (parse_main 3 o "/etc/a") (parse_main 3 (with_disk o op gl) "/opt/a").
Proof.
  exists (Opts [] None (fun f => if String.eqb f "/etc/a" then inl "include /etc/b;" else if String.eqb f "/etc/b" then inl "" else inr "gone") (fun _ => inl []) false false false true false true true [] (fun _ => None) []),
    (fun f => if String.eqb f "/opt/a" then inl "include /etc/b;" else if String.eqb f "/opt/b" then inl "" else inr "gone"). split.
  - intros x. cbn [o_open]. assert (Q : forall D a, String.eqb (below D x) (below D a) = String.eqb x a) by (intros D a; destruct (String.eqb_spec x a) as [->|N]; [apply String.eqb_refl|apply String.eqb_neq; intros E; now apply below_inj in E]).
    change "/etc/a" with (below "/etc" "a"). change "/etc/b" with (below "/etc" "b"). change "/opt/a" with (below "/opt" "a"). change "/opt/b" with (below "/opt" "b"). rewrite !Q.
    destruct (String.eqb x "a"); [constructor|]. destruct (String.eqb x "b"); constructor; exact I.
  - intros gl H. vm_compute in H. inversion H as [p p' (E & _) | | | ]. discriminate E.
Qed.
Print Assumptions C80_absolute_refuted.
