(** C56: the text Enquote gives for any string. *)
From Verif Require Export SpecEnquote.
Local Open Scope string_scope.

(** White space, braces, semicolons and quotes end a word unless a backslash stands before them. *)
Definition ends_word (c : N) : Prop := is_space_rune c = true \/ In c [123; 125; 59; 34; 39]%N.
(** The characters behind the first. *)
Inductive smooth : list N -> Prop :=
| sm_end : smooth []
| sm_plain : forall c r, c <> 92%N -> ~ ends_word c -> smooth r -> smooth (c :: r)
| sm_escaped : forall c r, smooth r -> smooth (92%N :: c :: r).
(** Strings that are written as they are; the backslash of the first character protects nothing. *)
Definition left_alone (s : string) : Prop :=
  exists c r, runes s = c :: r /\ ~ ends_word c /\ smooth r /\ ~ In (last r c) [92; 36]%N.

(** [n] in [k] hexadecimal digits. *)
Definition hexes : list ascii := list_of_str "0123456789abcdef".
Inductive hex : nat -> N -> string -> Prop :=
| hex_none : hex 0 0 ""
| hex_more : forall k n x d c, hex k n x -> nth_error hexes d = Some c -> hex (S k) (16 * n + N.of_nat d) (x ++ str1 c).
(** The escapes of characters that are not printed. *)
Definition letters : list (N * string) := [(7, "a"); (8, "b"); (12, "f"); (10, "n"); (13, "r"); (9, "t"); (11, "v")]%N.
Inductive escape_of (n : N) : string -> Prop :=
| es_letter : forall x, In (n, x) letters -> escape_of n x
| es_byte : forall x, ~ In n (map fst letters) -> (n < 32 \/ n = 127)%N -> hex 2 n x -> escape_of n ("x" ++ x)
| es_short : forall x, (32 <= n)%N -> n <> 127%N -> (n < 0x10000)%N -> hex 4 n x -> escape_of n ("u" ++ x)
| es_long : forall x, (0x10000 <= n)%N -> hex 8 n x -> escape_of n ("U" ++ x).
(** The text between the quotes.  [pr]: characters that are printed; [single]: in single quotes. *)
Inductive inside_quotes (pr : N -> bool) (single : bool) : string -> string -> Prop :=
| iq_end : inside_quotes pr single "" ""
| iq_apostrophe : forall s t, single = true -> inside_quotes pr single s t -> inside_quotes pr single ("'" ++ s) ("\'" ++ t)
| iq_char : forall r n s t, r <> "" -> decode_rune r = (n, slen r, true) -> pr n = true -> r <> "'" \/ single = false ->
    inside_quotes pr single s t -> inside_quotes pr single (r ++ s) (r ++ t)
| iq_escape : forall r n x s t, r <> "" -> decode_rune r = (n, slen r, true) -> pr n = false -> escape_of n x ->
    inside_quotes pr single s t -> inside_quotes pr single (r ++ s) ("\" ++ x ++ t)
| iq_byte : forall c s n w x t, decode_rune (String c s) = (n, w, false) -> hex 2 (bval c) x ->
    inside_quotes pr single s t -> inside_quotes pr single (String c s) ("\x" ++ x ++ t).
(** What is written for [s]. *)
Inductive written_as (pr : N -> bool) (s : string) : string -> Prop :=
| wr_alone : left_alone s -> written_as pr s s
| wr_double : forall t, ~ left_alone s -> has_dq s = false -> inside_quotes pr false s t -> written_as pr s (s_dq ++ t ++ s_dq)
| wr_single : forall t, ~ left_alone s -> has_dq s = true -> inside_quotes pr true s t -> written_as pr s (s_sq ++ t ++ s_sq).
