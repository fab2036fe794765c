(** Go strings, runes and the standard-library string functions used by the
    code base.  A Go [string] is a byte sequence; [Coq.Strings.String.string]
    is a list of 8-bit [ascii], so the two coincide. *)
From Coq Require Export String Ascii List ZArith NArith Bool Lia.
From Coq Require Import DecimalString.
Export ListNotations.
Local Open Scope string_scope.
Notation slen := String.length.

(** ** Bytes *)
Definition bval (c : ascii) : N := N_of_ascii c.
Definition byte (n : N) : ascii := ascii_of_N n.
Definition str1 (c : ascii) : string := String c EmptyString.

Definition s_nl : string := str1 "010".   (* newline *)
Definition s_cr : string := str1 "013".   (* carriage return *)
Definition s_tab : string := str1 "009".
Definition s_sp : string := " ".
Definition s_dq : string := str1 "034".   (* double quote *)
Definition s_sq : string := "'".
Definition s_bs : string := "\".
Definition s_lb : string := "{".
Definition s_rb : string := "}".
Definition s_semi : string := ";".
Definition s_hash : string := "#".

(** ** UTF-8 decoding: unicode/utf8.DecodeRuneInString.
    Result: rune, width, validity.  An invalid encoding yields
    (RuneError = U+FFFD, 1, false). *)
Definition rune_error : N := 0xFFFD%N.

Definition in_rng (lo hi x : N) : bool := (N.leb lo x && N.leb x hi)%bool.
Definition is_cont (x : N) : bool := in_rng 0x80 0xBF x.

Definition decode_rune (s : string) : N * nat * bool :=
  let bad := (rune_error, 1, false) in
  match s with
  | EmptyString => (rune_error, 0, false)
  | String c0 r0 =>
    let b0 := bval c0 in
    if N.ltb b0 0x80 then (b0, 1, true)
    else match r0 with
    | EmptyString => bad
    | String c1 r1 =>
      let b1 := bval c1 in
      if in_rng 0xC2 0xDF b0 then
        if is_cont b1 then (((b0 - 0xC0) * 64 + (b1 - 0x80))%N, 2, true) else bad
      else
      match r1 with
      | EmptyString => bad
      | String c2 r2 =>
        let b2 := bval c2 in
        if in_rng 0xE0 0xEF b0 then
          if (in_rng (if N.eqb b0 0xE0 then 0xA0 else 0x80)
                     (if N.eqb b0 0xED then 0x9F else 0xBF) b1
              && is_cont b2)%bool
          then (((b0 - 0xE0) * 4096 + (b1 - 0x80) * 64 + (b2 - 0x80))%N, 3, true)
          else bad
        else
        match r2 with
        | EmptyString => bad
        | String c3 _ =>
          let b3 := bval c3 in
          if in_rng 0xF0 0xF4 b0 then
            if (in_rng (if N.eqb b0 0xF0 then 0x90 else 0x80)
                       (if N.eqb b0 0xF4 then 0x8F else 0xBF) b1
                && is_cont b2 && is_cont b3)%bool
            then (((b0 - 0xF0) * 262144 + (b1 - 0x80) * 4096
                  + (b2 - 0x80) * 64 + (b3 - 0x80))%N, 4, true)
            else bad
          else bad
        end
      end
    end
  end.

(** unicode/utf8.EncodeRune as used by strings.Builder.WriteRune. *)
Definition encode_rune (r : N) : string :=
  let b n := byte n in
  if N.ltb r 0x80 then str1 (b r)
  else if N.ltb r 0x800 then
    String (b (0xC0 + r / 64)%N) (str1 (b (0x80 + r mod 64)%N))
  else if (in_rng 0xD800 0xDFFF r || N.ltb 0x10FFFF r)%bool then
    String (b 0xEF%N) (String (b 0xBF%N) (str1 (b 0xBD%N)))
  else if N.ltb r 0x10000 then
    String (b (0xE0 + r / 4096)%N) (String (b (0x80 + (r / 64) mod 64)%N)
      (str1 (b (0x80 + r mod 64)%N)))
  else
    String (b (0xF0 + r / 262144)%N) (String (b (0x80 + (r / 4096) mod 64)%N)
      (String (b (0x80 + (r / 64) mod 64)%N) (str1 (b (0x80 + r mod 64)%N)))).

(** One decoded element of a string: its rune, its raw bytes, whether it was a
    valid encoding. *)
Record item := Item { it_rune : N; it_raw : string; it_ok : bool }.

Fixpoint take (n : nat) (s : string) : string :=
  match n, s with
  | S k, String c r => String c (take k r)
  | _, _ => EmptyString
  end.

Fixpoint drop (n : nat) (s : string) : string :=
  match n, s with
  | S k, String _ r => drop k r
  | _, _ => s
  end.

(** Sequential decoding of a whole string (the loop of [for range s] and of
    bufio.ScanRunes).  [skip] bytes belong to the rune already decoded. *)
Fixpoint scan_from (skip : nat) (s : string) : list item :=
  match s with
  | EmptyString => []
  | String c r =>
    match skip with
    | S k => scan_from k r
    | O =>
      let '(rn, w, ok) := decode_rune s in
      Item rn (take w s) ok :: scan_from (pred w) r
    end
  end.
Definition scan (s : string) : list item := scan_from 0 s.

(** The bytes bufio.ScanRunes returns for an invalid byte. *)
Definition error_rune_text : string :=
  String (byte 0xEF) (String (byte 0xBF) (str1 (byte 0xBD))).

Definition it_text (i : item) : string :=
  if it_ok i then it_raw i else error_rune_text.

(** bufio.Scanner with bufio.ScanRunes over the whole input: the sequence of
    strings returned by Text(). *)
Definition scan_runes (s : string) : list string := map it_text (scan s).

(** [for _, r := range s]. *)
Definition runes (s : string) : list N := map it_rune (scan s).

Fixpoint concat_str (l : list string) : string :=
  match l with [] => EmptyString | x :: r => x ++ concat_str r end.

Definition unscan (l : list item) : string := concat_str (map it_raw l).

Definition valid_utf8 (s : string) : bool := forallb it_ok (scan s).

(** ** unicode.IsSpace *)
Definition is_space_rune (r : N) : bool :=
  (in_rng 9 13 r || N.eqb r 32 || N.eqb r 0x85 || N.eqb r 0xA0 || N.eqb r 0x1680
   || in_rng 0x2000 0x200A r || N.eqb r 0x2028 || N.eqb r 0x2029 || N.eqb r 0x202F
   || N.eqb r 0x205F || N.eqb r 0x3000)%bool.

(** ** package strings *)
Definition has_prefix (s p : string) : bool := prefix p s.

Definition has_suffix (s suf : string) : bool :=
  (Nat.leb (slen suf) (slen s)
   && String.eqb (drop (slen s - slen suf) s) suf)%bool.

Fixpoint drop_while {A} (p : A -> bool) (l : list A) : list A :=
  match l with
  | [] => []
  | x :: r => if p x then drop_while p r else l
  end.

(** strings.TrimLeftFunc. *)
Definition trim_left (p : N -> bool) (s : string) : string :=
  unscan (drop_while (fun i => p (it_rune i)) (scan s)).

(** strings.TrimRightFunc.  Go decodes backwards from the end of the string;
    because UTF-8 is self-synchronising this meets the same elements as forward
    decoding, in reverse order. *)
Definition trim_right (p : N -> bool) (s : string) : string :=
  unscan (rev (drop_while (fun i => p (it_rune i)) (rev (scan s)))).

Definition trim_space (s : string) : string :=
  trim_right is_space_rune (trim_left is_space_rune s).

(** strings.TrimPrefix / TrimSuffix *)
Definition trim_prefix (s p : string) : string :=
  if has_prefix s p then drop (slen p) s else s.
Definition trim_suffix (s suf : string) : string :=
  if has_suffix s suf then take (slen s - slen suf) s else s.

(** strings.ReplaceAll for a non-empty [old]: leftmost, non-overlapping. *)
Fixpoint replace_from (old new : string) (skip : nat) (s : string) : string :=
  match s with
  | EmptyString => EmptyString
  | String c r =>
    match skip with
    | S k => replace_from old new k r
    | O =>
      if prefix old s then new ++ replace_from old new (pred (slen old)) r
      else String c (replace_from old new 0 r)
    end
  end.
Definition replace_all (s old new : string) : string := replace_from old new 0 s.

(** strings.Join *)
Definition join (l : list string) (sep : string) : string := String.concat sep l.

(** strings.Repeat *)
Fixpoint repeat_str (s : string) (n : nat) : string :=
  match n with O => EmptyString | S k => s ++ repeat_str s k end.

Fixpoint list_of_str (s : string) : list ascii :=
  match s with EmptyString => [] | String c r => c :: list_of_str r end.

Definition str_exists (p : ascii -> bool) (s : string) : bool :=
  existsb p (list_of_str s).

(** strings.ContainsAny for an ASCII character set. *)
Definition contains_any (s chars : string) : bool :=
  str_exists (fun c => str_exists (Ascii.eqb c) chars) s.

(** strings.ToLower restricted to what [validFlag] can observe: no rune outside
    ASCII maps to one of the letters o, n, f. *)
Definition lower_byte (c : ascii) : ascii :=
  let b := bval c in if in_rng 65 90 b then byte (b + 32) else c.
Fixpoint to_lower (s : string) : string :=
  match s with EmptyString => EmptyString | String c r => String (lower_byte c) (to_lower r) end.

(** strings.Cut with a one-byte separator. *)
Fixpoint cut (sep : ascii) (s : string) : option (string * string) :=
  match s with
  | EmptyString => None
  | String c r =>
    if Ascii.eqb c sep then Some (EmptyString, r)
    else match cut sep r with
         | Some (a, b) => Some (String c a, b)
         | None => None
         end
  end.

(** strings.Split with a one-byte separator: always at least one element. *)
Fixpoint split (sep : ascii) (s : string) : list string :=
  match s with
  | EmptyString => [EmptyString]
  | String c r =>
    if Ascii.eqb c sep then EmptyString :: split sep r
    else match split sep r with
         | x :: l => String c x :: l
         | [] => [str1 c]
         end
  end.

(** ** sort.Strings (Go compares strings bytewise). *)
Definition str_leb (a b : string) : bool :=
  match String.compare a b with Gt => false | _ => true end.
Fixpoint insert_str (x : string) (l : list string) : list string :=
  match l with
  | [] => [x]
  | y :: r => if str_leb x y then x :: l else y :: insert_str x r
  end.
Definition sort_strings (l : list string) : list string := fold_right insert_str [] l.

(** ** fmt *)
Definition itoa (z : Z) : string := NilZero.string_of_int (Z.to_int z).

Definition hex_digit (n : N) : ascii :=
  byte (if N.ltb n 10 then 48 + n else 87 + n)%N.
Fixpoint hex_fixed (digits : nat) (n : N) : string :=
  match digits with
  | O => EmptyString
  | S k => hex_fixed k (n / 16)%N ++ str1 (hex_digit (n mod 16)%N)
  end.

(** strconv.Quote ([%q]); [is_print] stands for strconv.IsPrint. *)
Definition quote_item (is_print : N -> bool) (i : item) : string :=
  let r := it_rune i in
  if negb (it_ok i) then
    match it_raw i with
    | String c _ => "\x" ++ hex_fixed 2 (bval c)
    | EmptyString => EmptyString
    end
  else if (N.eqb r 34 || N.eqb r 92)%bool then s_bs ++ it_raw i
  else if is_print r then it_raw i
  else if N.eqb r 7 then "\a"
  else if N.eqb r 8 then "\b"
  else if N.eqb r 12 then "\f"
  else if N.eqb r 10 then "\n"
  else if N.eqb r 13 then "\r"
  else if N.eqb r 9 then "\t"
  else if N.eqb r 11 then "\v"
  else if (N.ltb r 32 || N.eqb r 127)%bool then "\x" ++ hex_fixed 2 r
  else if N.ltb r 0x10000 then "\u" ++ hex_fixed 4 r
  else "\U" ++ hex_fixed 8 r.

Definition quote (is_print : N -> bool) (s : string) : string :=
  s_dq ++ concat_str (map (quote_item is_print) (scan s)) ++ s_dq.

(** strconv.IsPrint on ASCII. *)
Definition ascii_print (r : N) : bool := in_rng 32 126 r.

(** ** Association lists as Go maps *)
Fixpoint assoc {A} (k : string) (m : list (string * A)) : option A :=
  match m with
  | [] => None
  | (k', v) :: r => if String.eqb k k' then Some v else assoc k r
  end.

(** map assignment m[k] = v, keeping the position of an existing key *)
Fixpoint assoc_set {A} (k : string) (v : A) (m : list (string * A)) : list (string * A) :=
  match m with
  | [] => [(k, v)]
  | (k', v') :: r => if String.eqb k k' then (k', v) :: r else (k', v') :: assoc_set k v r
  end.

Definition mem_str (x : string) (l : list string) : bool := existsb (String.eqb x) l.
