(** The reader under the lexer (C70). *)
From Verif Require Import SpecReader ReaderProofs Main.
Local Open Scope string_scope.

(** Every reader delivers some bytes and ends in one way. *)
Theorem C70_total : forall rs, exists s e, arrives rs s e /\ forall s' e', arrives rs s' e' -> s' = s /\ e' = e.
Proof. intros rs. destruct (arrives_total rs) as (s & e & A). exists s, e. split; [exact A|]. intros s' e' B. exact (arrives_one rs s' e' s e B A). Qed.
Print Assumptions C70_total.

(** Scan returns the characters of these bytes, however they were cut, then false for
    ever; Err returns the error unless it is the end of the file. *)
Theorem C70_scan : forall rs s e, arrives rs s e ->
  (exists l st, scans (new_scanner rs) l st) /\
  forall l st, scans (new_scanner rs) l st ->
    l = scan_runes s /\ sc_error st = match e with EndOfFile => None | _ => Some e end /\ sc_scan st = (None, st).
Proof. intros rs s e A. split; [exact (scanner_ends rs)|exact (scanner_texts rs s e A)]. Qed.
Print Assumptions C70_scan.

(** The tokens are those of the text that arrives. *)
Theorem C70_tokens : forall ext rs s e, arrives rs s e -> lex_reader ext rs = lex ext s.
Proof. exact reader_tokens. Qed.
Print Assumptions C70_tokens.

(** The pieces "http {", " }" with an empty read, a character cut in two, a reader that
    fails, one that returns nothing 101 times. *)
Definition two_bytes : string := String (byte 195) (String (byte 169) "").
Definition cut_up : list rd := [Rd "ht" None; empty_read; Rd ("tp {" ++ str1 (byte 195)) None; Rd (str1 (byte 169)) None; Rd " ; }" (Some EndOfFile); Rd "x" None].
Definition fails : list rd := [Rd "user a; http {" None; Rd " } eve" (Some (ReadFails "input/output error")); Rd "nts { }" None].
Example C70_case :
  arrives cut_up ("http {" ++ two_bytes ++ " ; }") EndOfFile /\
  map t_val (lex_reader [] cut_up) = ["http"; "{"; two_bytes; ";"; "}"] /\
  arrives fails "user a; http { } eve" (ReadFails "input/output error") /\
  arrives ([Rd "a" None] ++ repeat empty_read 101 ++ [Rd ";" None]) "a" NoProgress /\
  map t_val (lex_reader [] ([Rd "a" None] ++ repeat empty_read 101 ++ [Rd ";" None])%list) = ["a"] /\
  map t_val (lex_reader [] ([Rd "a" None] ++ repeat empty_read 100 ++ [Rd ";" None])%list) = ["a"; ";"] /\
  map t_val (lex_reader [] [Rd (str1 (byte 195)) (Some (ReadFails "x"))]) = [error_rune_text].
Proof.
  split; [refine (ar_fails [Rd "ht" None; empty_read; Rd ("tp {" ++ str1 (byte 195)) None; Rd (str1 (byte 169)) None] " ; }" EndOfFile [Rd "x" None] _ _); [repeat constructor|apply lively_by; cbn; lia]|].
  split; [vm_compute; reflexivity|].
  split; [refine (ar_fails [Rd "user a; http {" None] " } eve" _ _ _ _); [repeat constructor|apply lively_by; cbn; lia]|].
  split; [apply (ar_stuck [Rd "a" None] [Rd ";" None]); [repeat constructor|]|repeat split; vm_compute; reflexivity].
  intros [|x a] b E; cbn in E; [discriminate|]. injection E as <- E. apply (f_equal (@List.length rd)) in E.
  change (List.length (repeat empty_read 100) = List.length (a ++ repeat empty_read 101 ++ b)) in E. rewrite !app_length, !repeat_length in E. lia.
Qed.

(** An error of the reader is not reported (finding 45): the text read so far is lexed
    without error, and parsed to status ok. *)
Theorem C70_reported_refuted : exists o rs s what p, arrives rs s (ReadFails what) /\
  Forall (fun t => t_err t = None) (lex_reader [] rs) /\ o_open o "a" = inl s /\
  parse_main 5 o "a" = ROk p /\ pl_status p = "ok" /\ map (fun c => map d_name (cf_parsed c)) (pl_config p) = [["user"; "http"]].
Proof.
  set (rs := [Rd "user a; http { } # e" (Some (ReadFails "input/output error")); Rd "nd" None]).
  exists (Opts [] None (fun _ => inl "user a; http { } # e") (fun _ => inl []) false false false false false false false [] (fun _ => None) []), rs, "user a; http { } # e", "input/output error".
  eexists. split; [refine (ar_fails [] _ _ [Rd "nd" None] (Forall_nil _) _); apply lively_by; cbn; lia|].
  split; [vm_compute; repeat constructor|]. split; [reflexivity|]. split; [vm_compute; reflexivity|]. split; reflexivity.
Qed.
Print Assumptions C70_reported_refuted.
