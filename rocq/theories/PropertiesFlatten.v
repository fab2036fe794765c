(** C65: one file in place of a configuration with includes. *)
From Verif Require Import Tables TableProofs PropertiesFormat FlattenProofs PropertiesForest PropertiesRead.
Local Open Scope string_scope.

(** Parse with CombineConfigs, Build, and Parse of that text alone. *)
Theorem C65_flatten : forall bo o filename l, ascii_right (b_print bo) -> b_ext bo = [] -> (0 <= b_indent bo)%Z ->
  o_combine o = true -> o_lexers o = [] -> loose_if o -> book o filename l -> ~ loops l -> one_home l ->
  (forall g, In g l -> pg_errors g = [] /\ forallb no_if_entry (pg_tree g) = true /\ forallb all_resolved (pg_tree g) = true) ->
  exists n ds, (forall fuel, n <= fuel -> parse_main fuel o filename = ROk (Pay "ok" [] [Cfg filename "ok" [] ds])) /\
    (writables (b_print bo) not_note ds = true -> exists text, build bo ds = Some text /\
      forall op f, op f = inl text -> exists n ds',
        (forall k, n <= k -> parse_main k (with_open o op) f = ROk (Pay "ok" [] [Cfg f "ok" [] ds'])) /\
        map bare ds' = map bare (expected (o_comments o) (b_header bo) ds)).
Proof. exact flatten. Qed.
Print Assumptions C65_flatten.

Definition flat_opts : popts := fmt_opts_for true.
Definition flat_pages : list page := fmt_pages_for "/a" "/b".
Lemma flat_book : book flat_opts "/a" flat_pages.
Proof. exact (fmt_book_for true). Qed.
Lemma flat_loops : ~ loops flat_pages.
Proof.
  intros [x C]. assert (E : x = "/a" /\ x = "/b"); [|destruct E; congruence].
  assert (L : forall x y, clos_trans string (leads flat_pages) x y -> x = "/a" /\ y = "/b").
  { induction 1 as [x' y' (g & I & <- & J)|x' y' z' _ [A B] _ [A' B']]; [|congruence].
    destruct I as [<-|[<-|[]]]; [destruct J as [<-|[]]; now split|destruct J]. }
  exact (L _ _ C).
Qed.
(** All places an include directive points from. *)
Fixpoint pointers (path : list string) (d : directive) : list (Z * list string) :=
  ((if String.eqb (d_name d) "include" then map (fun i => (i, path)) (opt_list (d_includes d)) else []) ++
   match d_block d with Some b => flat_map (pointers (below path (d_name d))) b | None => [] end)%list.
Lemma points_list : forall path ds i q, points path ds i q -> In (i, q) (flat_map (pointers path) ds).
Proof.
  intros path ds i q P. induction P as [path d ds is i I N E J|path d b ds i q I E P IH]; apply in_flat_map; exists d; (split; [exact I|]); destruct d; cbn in *; subst; apply in_or_app.
  - left. apply in_map_iff. exists i. split; auto.
  - right. exact IH.
Qed.
Lemma flat_home : one_home flat_pages.
Proof.
  assert (H : forall n p, stands flat_pages n p -> n = 0 /\ p = [] \/ n = 1 /\ p = ["http"]).
  { intros n p S. induction S as [|n path g i q S IH N P L]; [now left|]. apply points_list in P. destruct IH as [[-> ->]|[-> ->]]; injection N as <-; vm_compute in P.
    - destruct P as [P|[]]. injection P as <- <-. right. now split.
    - destruct P. }
  intros n p q A B. destruct (H n p A) as [[E ->]|[E ->]], (H n q B) as [[E' ->]|[E' ->]]; auto; congruence.
Qed.
Example C65_case : book flat_opts "/a" flat_pages /\ ~ loops flat_pages /\ one_home flat_pages /\ loose_if flat_opts /\
  (forall g, In g flat_pages -> pg_errors g = [] /\ forallb no_if_entry (pg_tree g) = true /\ forallb all_resolved (pg_tree g) = true).
Proof.
  split; [exact flat_book|]. split; [exact flat_loops|]. split; [exact flat_home|]. split; [exact (C64_shipped flat_opts C64_shipped_case)|].
  intros g [<-|[<-|[]]]; (split; [reflexivity|split; reflexivity]).
Qed.
Definition flat_bo (header : bool) : bopts := BuildIO.plain_opts (build_opts (fmt_bo header)).
(** The text for these two files, and what is read from it. *)
Definition flattened (o : popts) : option (string * list directive * list goerr) :=
  match parse_main 5 o "/a" with
  | ROk p =>
    match pl_config p with
    | [c] =>
      match build (flat_bo false) (cf_parsed c) with
      | Some t =>
        match parse_main 5 (with_open o (fun _ => inl t)) "/x" with
        | ROk p' => Some (t, flat_map cf_parsed (pl_config p'), map py_err (pl_errors p'))
        | _ => None
        end
      | None => None
      end
    | _ => None
    end
  | _ => None
  end.
Example C65_result : exists ds ds', parse_main 5 flat_opts "/a" = ROk (Pay "ok" [] [Cfg "/a" "ok" [] ds]) /\
  writables (b_print (flat_bo false)) not_note ds = true /\ map bare ds' = map bare ds /\
  flattened flat_opts = Some ("http { # c
  map $x $y {
    default x;
  }
  charset utf-8; # e
  # d
  server {
    if ($a = b) {
      return 404;
    }
  }
}", ds', []).
Proof. eexists _, _. split; [vm_compute; reflexivity|]. split; [vm_compute; reflexivity|]. split; [|vm_compute; reflexivity]. vm_compute. reflexivity. Qed.
(** Files with these texts. *)
Definition two (a b : string) : popts :=
  Opts [] None (fun f => inl (if String.eqb f "/a" then a else b)) (fun _ => inl []) false true false true true false false [] default_match [].
(** Without [one_home]: a file is checked in the blocks around its first include only,
    here it is used outside of a server too. *)
Theorem C65_two_homes_refuted : exists text what, flattened (two "http { server { include b; } include b; }" "listen 80;") = Some (text, [dir3 "/x" "http" 1 [] None (Some [dir3 "/x" "server" 2 [] None (Some [dir3 "/x" "listen" 3 ["80"] None None])])], [what]) /\
  exists p, parse_main 5 (two "http { server { include b; } include b; }" "listen 80;") "/a" = ROk p /\ pl_status p = "ok".
Proof. eexists _, _. split; [vm_compute; reflexivity|]. eexists. split; [vm_compute; reflexivity|reflexivity]. Qed.
Print Assumptions C65_two_homes_refuted.
(** Comments of different files whose lines have the same number are put on one line and
    become one comment: the tree is not in the class of C09. *)
Theorem C65_same_line_refuted : exists ds, flattened (two "include b; # one" "user x; # two") = Some ("user x; # two # one", ds, []) /\
  map d_comment ds = [None; Some " two # one"].
Proof. eexists. split; vm_compute; reflexivity. Qed.
Print Assumptions C65_same_line_refuted.
