(** C59: UTF-8 and white space. *)
From Verif Require Export GoStr.
Local Open Scope string_scope.

Definition of_bytes (l : list N) : string := fold_right (fun n s => String (ascii_of_N n) s) "" l.
(** The encoding of a character: its bits, six to each byte behind the first; the shortest form; no
    surrogates. *)
Inductive utf8 (n : N) : string -> Prop :=
| u8_one : (n < 0x80)%N -> utf8 n (of_bytes [n])
| u8_two : forall a b, (n = a * 64 + b)%N -> (b < 64)%N -> (0x80 <= n < 0x800)%N -> utf8 n (of_bytes [0xC0 + a; 0x80 + b]%N)
| u8_three : forall a b c, (n = (a * 64 + b) * 64 + c)%N -> (b < 64)%N -> (c < 64)%N -> (0x800 <= n < 0x10000)%N -> ~ (0xD800 <= n < 0xE000)%N ->
    utf8 n (of_bytes [0xE0 + a; 0x80 + b; 0x80 + c]%N)
| u8_four : forall a b c d, (n = ((a * 64 + b) * 64 + c) * 64 + d)%N -> (b < 64)%N -> (c < 64)%N -> (d < 64)%N -> (0x10000 <= n < 0x110000)%N ->
    utf8 n (of_bytes [0xF0 + a; 0x80 + b; 0x80 + c; 0x80 + d]%N).
Definition scalar (n : N) : Prop := (n < 0x110000)%N /\ ~ (0xD800 <= n < 0xE000)%N.

(** A text as a sequence of characters; a byte that begins none is U+FFFD. *)
Inductive chars : string -> list item -> Prop :=
| ch_end : chars "" []
| ch_char : forall n t s l, utf8 n t -> chars s l -> chars (t ++ s) (Item n t true :: l)
| ch_byte : forall c s l, (forall n t r, utf8 n t -> String c s <> t ++ r) -> chars s l -> chars (String c s) (Item 0xFFFD (String c "") false :: l).

(** The characters with the property White_Space (Unicode). *)
Definition white_space_chars : list N :=
  [0x09; 0x0A; 0x0B; 0x0C; 0x0D; 0x20; 0x85; 0xA0; 0x1680; 0x2000; 0x2001; 0x2002; 0x2003; 0x2004; 0x2005; 0x2006; 0x2007; 0x2008; 0x2009; 0x200A;
   0x2028; 0x2029; 0x202F; 0x205F; 0x3000]%N.
