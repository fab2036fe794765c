(** C56: the text written for every string and every tree. *)
From Verif Require Import SpecText QuoteProofs TextProofs.
Local Open Scope string_scope.

(** [ascii_right pr]: [pr] is unicode.IsPrint on ASCII, anything elsewhere. *)
Theorem C56_enquote : forall pr s t, ascii_right pr -> (written_as pr s t <-> t = enquote pr s).
Proof. exact enquote_writes. Qed.
Print Assumptions C56_enquote.
Theorem C56_alone : forall s, needs_quote s = false <-> left_alone s.
Proof. exact needs_iff. Qed.
Print Assumptions C56_alone.
(** Build writes [text], or panics. *)
Theorem C56_text : forall o ds text, ascii_right (b_print o) -> (build o ds = Some text <-> text_as o ds text /\ ~ too_deep o ds).
Proof. exact build_text_of. Qed.
Print Assumptions C56_text.
Theorem C56_panics : forall o ds, ascii_right (b_print o) -> (build o ds = None <-> too_deep o ds).
Proof. exact build_panics. Qed.
Print Assumptions C56_panics.

Definition ascii_only (n : N) : bool := in_rng 32 126 n.
Lemma ascii_only_right : ascii_right ascii_only.
Proof. intros n _. reflexivity. Qed.
(** A word, escapes of a word, a brace, a tab, both kinds of quotes, a bad byte, U+00E9 where only ASCII is printed. *)
Definition quoted_samples : list (string * string) :=
  [("a$b", "a$b"); ("a\ b", "a\ b"); ("a${x}", s_dq ++ "a${x}" ++ s_dq); ("", s_dq ++ s_dq); ("a$", s_dq ++ "a$" ++ s_dq);
   (str1 "009", s_dq ++ "\t" ++ s_dq); (s_sq ++ s_dq, s_sq ++ "\'" ++ s_dq ++ s_sq); ("a " ++ str1 "255", s_dq ++ "a \xff" ++ s_dq);
   (" " ++ encode_rune 233, s_dq ++ " \u00e9" ++ s_dq); (" " ++ encode_rune 128512, s_dq ++ " \U0001f600" ++ s_dq)].
Example C56_case : Forall (fun p => written_as ascii_only (fst p) (snd p)) quoted_samples.
Proof.
  assert (H : forallb (fun p => String.eqb (snd p) (enquote ascii_only (fst p))) quoted_samples = true) by (vm_compute; reflexivity).
  apply Forall_forall. intros p I. rewrite forallb_forall in H. apply (enquote_writes _ _ _ ascii_only_right). now apply String.eqb_eq, H.
Qed.
Definition small_tree : list directive :=
  [mkd "http" 1 [] (Some [mkd "if" 2 ["$a"; "b c"] (Some [mkd "set" 3 ["80"; "}"] None; mkc 3 " x"; mkc 4 " y"])])].
Definition loud (d : directive) : string := d_name d ++ "!".
Example C56_text_case : text_as (BOpts 2 false true [("set", loud)] ascii_only) small_tree (banner ++
  "http {" ++ s_nl ++ "  if ($a " ++ s_dq ++ "b c" ++ s_dq ++ ") {" ++ s_nl ++ "    set!" ++ s_nl ++ "    # x" ++ s_nl ++ "    # y" ++ s_nl ++ "  }" ++ s_nl ++ "}").
Proof. refine (proj1 (proj1 (build_text_of (BOpts 2 false true [("set", loud)] ascii_only) _ _ ascii_only_right) _)). vm_compute. reflexivity. Qed.
Example C56_panics_case : too_deep (BOpts (-1) false false [] ascii_only) small_tree /\ ~ too_deep (BOpts (-1) true false [] ascii_only) small_tree.
Proof.
  split; [apply (build_panics (BOpts (-1) false false [] ascii_only) _ ascii_only_right); vm_compute; reflexivity|]. intros H. apply (build_panics (BOpts (-1) true false [] ascii_only) _ ascii_only_right) in H. vm_compute in H. discriminate H.
Qed.
