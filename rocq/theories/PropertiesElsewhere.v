(** C72: Parse depends on the files include directives lead to, and on nothing else. *)
From Verif Require Import SpecElsewhere ElsewhereProofs.
Local Open Scope string_scope.

(** Whatever Parse returns, it returns the same on every file system that agrees on the files
    include directives lead to and, up to the order of the names, on the patterns asked for. *)
Theorem C72_elsewhere : forall fuel o filename open glob, agree o filename open glob ->
  parse_main fuel (elsewhere o open glob) filename = parse_main fuel o filename.
Proof. intros fuel o filename open glob H. exact (main_else o filename open glob H fuel). Qed.
Print Assumptions C72_elsewhere.

Definition c72_open (z : string) (f : string) : string + string :=
  if String.eqb f "d/a" then inl "include *.c; include m; x y;"
  else if String.eqb f "d/1.c" then inl "one 1;"
  else if String.eqb f "d/2.c" then inl "two {2;}"
  else if String.eqb f "d/z" then inl z else inr "missing".
Definition c72_glob (l : list string) (z : string) (p : string) : (list string) + string :=
  if String.eqb p "d/*.c" then inl l else inl [z].
Definition c72_opts : popts :=
  Opts [] None (c72_open "z;") (c72_glob ["d/2.c"; "d/1.c"] "u") false false false true false false false
       [] (fun _ => None) [].
Lemma c72_mentions : forall f content arg, In f ["d/a"; "d/1.c"; "d/2.c"; "d/m"] ->
  o_open c72_opts f = inl content -> mentions c72_opts content arg -> f = "d/a" /\ In arg ["*.c"; "m"].
Proof.
  intros f content arg H O M. apply mentions_candidates in M.
  assert (E : candidates (lex [] "include *.c; include m; x y;") = ["*.c"; "m"] /\
              candidates (lex [] "one 1;") = [] /\ candidates (lex [] "two {2;}") = [])
    by (split; [|split]; vm_compute; reflexivity). destruct E as (E1 & E2 & E3).
  destruct H as [<-|[<-|[<-|[<-|[]]]]]; cbn in O; try discriminate O; injection O as <-; cbn [o_lexers c72_opts] in M;
    rewrite ?E1, ?E2, ?E3 in M; [auto|destruct M..].
Qed.
(** Another file that no include directive leads to, the files of the pattern in another
    order, another answer to other patterns. *)
Example C72_case : agree c72_opts "d/a" (c72_open "y {") (c72_glob ["d/1.c"; "d/2.c"] "v") /\
  c72_open "y {" "d/z" <> o_open c72_opts "d/z" /\
  exists p, parse_main 9 c72_opts "d/a" = ROk p /\ List.length (pl_config p) = 3 /\ List.length (pl_errors p) = 1.
Proof.
  split; [|split; [discriminate|eexists; split; [vm_compute; reflexivity|split; reflexivity]]].
  assert (P1 : path_of (dir_name "d/a") "*.c" = "d/*.c") by (vm_compute; reflexivity).
  assert (P2 : path_of (dir_name "d/a") "m" = "d/m") by (vm_compute; reflexivity).
  assert (M1 : magic "d/*.c") by (exists "d/", "*"%char, ".c"; split; [reflexivity|now left]).
  assert (M2 : ~ magic "d/m") by (rewrite <- has_magic_iff; vm_compute; discriminate).
  assert (R : forall f, reach c72_opts "d/a" f -> In f ["d/a"; "d/1.c"; "d/2.c"; "d/m"]).
  { intros f H. induction H as [|g f SG H IH [content arg O M N ->|content arg l O M N G I]]; [now left| |].
    - destruct (c72_mentions _ _ _ IH O M) as [_ [<-|[<-|[]]]]; [rewrite P1 in N; contradiction|].
      rewrite P2. cbn. auto.
    - destruct (c72_mentions _ _ _ IH O M) as [_ [<-|[<-|[]]]]; [|rewrite P2 in N; contradiction].
      rewrite P1 in G. cbn in G. injection G as <-. cbn in *. tauto. }
  split.
  - intros f H. apply R in H. destruct H as [<-|[<-|[<-|[<-|[]]]]]; reflexivity.
  - intros p (_ & MG & g & content & arg & H & O & M & ->).
    destruct (c72_mentions _ _ _ (R _ H) O M) as [_ [<-|[<-|[]]]].
    + rewrite P1. cbn. apply al_files. apply perm_swap.
    + rewrite P2 in MG. contradiction.
Qed.
