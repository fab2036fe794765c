(** The reader under the lexer: bufio.Scanner with bufio.ScanRunes (Go 1.2x), as
    lex.go:148-149 sets it up.  A reader is the list of what its Read calls return;
    after the list it returns io.EOF.  Simplifications: Read never returns a count
    that is negative or larger than the buffer it was given; the buffer is the bytes
    not yet scanned (the scanner has at most 3 of them when it reads, so its buffer of
    4096 bytes never has to grow). *)
From Verif Require Export Lex.
Local Open Scope string_scope.

Inductive rerr := EndOfFile | NoProgress | ReadFails (what : string).
Record rd := Rd { rd_bytes : string; rd_err : option rerr }.

(** unicode/utf8 [FullRune]: the bytes begin with a whole encoding or with one that
    cannot be completed. *)
Definition full_rune (s : string) : bool :=
  match s with
  | EmptyString => false
  | String c0 r0 =>
    let b0 := bval c0 in
    let size := if in_rng 0xC2 0xDF b0 then 2 else if in_rng 0xE0 0xEF b0 then 3 else if in_rng 0xF0 0xF4 b0 then 4 else 1 in
    if Nat.leb size (slen s) then true else
    match r0 with
    | EmptyString => false
    | String c1 r1 =>
      let lo := if N.eqb b0 0xE0 then 0xA0%N else if N.eqb b0 0xF0 then 0x90%N else 0x80%N in
      let hi := if N.eqb b0 0xED then 0x9F%N else if N.eqb b0 0xF4 then 0x8F%N else 0xBF%N in
      if negb (in_rng lo hi (bval c1)) then true else
      match r1 with EmptyString => false | String c2 _ => negb (is_cont (bval c2)) end
    end
  end.
(** bufio [ScanRunes] on the bytes in the buffer: the text of the token and how many
    bytes it takes; None asks for more. *)
Definition scan_split (data : string) (at_eof : bool) : option (string * nat) :=
  match data with
  | EmptyString => None
  | String c0 _ =>
    if N.ltb (bval c0) 0x80 then Some (take 1 data, 1)
    else
      let '(_, width, _) := decode_rune data in
      if Nat.ltb 1 width then Some (take width data, width)
      else if (negb at_eof && negb (full_rune data))%bool then None
      else Some (error_rune_text, 1)
  end.

(** bufio.Scanner: the bytes read and not scanned, [s.err], and what Read will return. *)
Record scanner := Sc { sc_buf : string; sc_err : option rerr; sc_reads : list rd }.
(** bufio [Scanner.Scan] once [s.err] is set. *)
Definition at_end (buf : string) (e : rerr) (rs : list rd) : option string * scanner :=
  match scan_split buf true with
  | Some (t, n) => (Some t, Sc (drop n buf) (Some e) rs)
  | None => (None, Sc "" (Some e) rs)
  end.
(** bufio [Scanner.Scan], from "Must read more data" on; [loop] counts the reads that
    returned nothing (maxConsecutiveEmptyReads is 100). *)
Fixpoint scan_more (loop : nat) (buf : string) (rs : list rd) : option string * scanner :=
  match rs with
  | [] => at_end buf EndOfFile []
  | r :: rs =>
    let buf := buf ++ rd_bytes r in
    match rd_err r with
    | Some e => at_end buf e rs
    | None =>
      if String.eqb (rd_bytes r) "" then
        if Nat.ltb 100 (S loop) then at_end buf NoProgress rs else scan_more (S loop) buf rs
      else
        match scan_split buf false with
        | Some (t, n) => (Some t, Sc (drop n buf) None rs)
        | None => scan_more 0 buf rs
        end
    end
  end.
(** bufio [Scanner.Scan]: the Text it makes available, None when it returns false. *)
Definition sc_scan (s : scanner) : option string * scanner :=
  match sc_err s with
  | Some e => at_end (sc_buf s) e (sc_reads s)
  | None =>
    match (if String.eqb (sc_buf s) "" then None else scan_split (sc_buf s) false) with
    | Some (t, n) => (Some t, Sc (drop n (sc_buf s)) None (sc_reads s))
    | None => scan_more 0 (sc_buf s) (sc_reads s)
    end
  end.
(** bufio [NewScanner] *)
Definition new_scanner (rs : list rd) : scanner := Sc "" None rs.
(** bufio [Scanner.Err] *)
Definition sc_error (s : scanner) : option rerr := match sc_err s with Some EndOfFile => None | e => e end.
(** The texts of the first [fuel] calls of Scan. *)
Fixpoint sc_texts (fuel : nat) (s : scanner) : list string :=
  match fuel with
  | O => []
  | S f => match sc_scan s with (None, _) => [] | (Some t, s) => t :: sc_texts f s end
  end.
Definition bytes_of (rs : list rd) : string := concat_str (map rd_bytes rs).
(** lex.go:92-103, 148-149: [LexWithOptions] on a reader.  The scanner is asked until it
    returns false; a Scan takes at least one byte, so this many are enough. *)
Definition lex_reader (ext : ext_lexers) (rs : list rd) : list token :=
  lex_runes ext (sc_texts (S (slen (bytes_of rs))) (new_scanner rs)).
