(** C62: the texts encoding/json accepts, and the values they stand for (RFC 8259). *)
From Verif Require Export SpecLib Json.
Local Open Scope string_scope.

Definition filler (s : string) : Prop := forall c, inside c s -> inside c (" " ++ str1 "009" ++ str1 "010" ++ str1 "013").
(** ** Numbers *)
Definition some_digits (s : string) : Prop := s <> "" /\ forall c, inside c s -> inside c digits.
Inductive whole : string -> Prop :=
| wh_zero : whole "0"
| wh_other : forall c s, inside c "123456789" -> (forall d, inside d s -> inside d digits) -> whole (String c s).
Definition fraction (s : string) : Prop := s = "" \/ exists ds, s = "." ++ ds /\ some_digits ds.
Definition exponent (s : string) : Prop := s = "" \/ exists e sign ds, s = e ++ sign ++ ds /\ In e ["e"; "E"] /\ In sign [""; "+"; "-"] /\ some_digits ds.
Definition numeral (s : string) : Prop := exists sign w f e, s = sign ++ w ++ f ++ e /\ In sign [""; "-"] /\ whole w /\ fraction f /\ exponent e.
(** ** Strings *)
Definition hex_stands (c : ascii) (v : nat) : Prop := String.get v "0123456789abcdef" = Some c \/ String.get v "0123456789ABCDEF" = Some c.
Definition four_digits (h : string) (n : N) : Prop :=
  exists a b c d i j k l, h = String a (String b (String c (String d ""))) /\ hex_stands a i /\ hex_stands b j /\ hex_stands c k /\ hex_stands d l /\
    n = N.of_nat (4096 * i + 256 * j + 16 * k + l).
Definition high (n : N) : Prop := (0xD800 <= n < 0xDC00)%N.
Definition low (n : N) : Prop := (0xDC00 <= n < 0xE000)%N.
Definition starts_low (s : string) : Prop := exists h m r, s = "\u" ++ h ++ r /\ four_digits h m /\ low m.
Definition short_forms : list (ascii * nat) := [("034", 34); ("\", 92); ("/", 47); ("b", 8); ("f", 12); ("n", 10); ("r", 13); ("t", 9)]%char.
(** What is between the quotes, and the text it stands for. *)
Inductive spelling : string -> string -> Prop :=
| li_end : spelling "" ""
| li_char : forall c s t, 32 <= nat_of_ascii c -> c <> "034"%char -> c <> "\"%char -> spelling s t -> spelling (String c s) (String c t)
| li_short : forall c n s t, In (c, n) short_forms -> spelling s t -> spelling ("\" ++ String c s) (String (ascii_of_nat n) t)
| li_unicode : forall h n u s t, four_digits h n -> ~ high n -> ~ low n -> utf8 n u -> spelling s t -> spelling ("\u" ++ h ++ s) (u ++ t)
| li_pair : forall h n g m u s t, four_digits h n -> high n -> four_digits g m -> low m -> utf8 (0x10000 + (n - 0xD800) * 0x400 + (m - 0xDC00)) u -> spelling s t ->
    spelling ("\u" ++ h ++ "\u" ++ g ++ s) (u ++ t)
| li_lone : forall h n u s t, four_digits h n -> (high n /\ ~ starts_low s \/ low n) -> utf8 0xFFFD u -> spelling s t -> spelling ("\u" ++ h ++ s) (u ++ t).
(** Bytes that are not part of a character become U+FFFD. *)
Definition repaired (s t : string) : Prop := exists l ts, chars s l /\ Forall2 (fun i u => utf8 (it_rune i) u) l ts /\ t = concat_str ts.
Definition quoted (s x : string) : Prop := exists raw t, s = String "034" (raw ++ String "034" "") /\ spelling raw t /\ repaired t x.
(** ** Values; arrays and objects nest at most [d] deep. *)
Inductive value : N -> string -> json -> Prop :=
| va_null : forall d, value d "null" JNull
| va_true : forall d, value d "true" (JBool true)
| va_false : forall d, value d "false" (JBool false)
| va_num : forall d s, numeral s -> value d s (JNum s)
| va_str : forall d s x, quoted s x -> value d s (JStr x)
| va_none : forall d w, filler w -> value (N.succ d) ("[" ++ w ++ "]") (JArr [])
| va_arr : forall d s l, elements d s l -> value (N.succ d) ("[" ++ s ++ "]") (JArr l)
| va_empty : forall d w, filler w -> value (N.succ d) ("{" ++ w ++ "}") (JObj [])
| va_obj : forall d s l, members d s l -> value (N.succ d) ("{" ++ s ++ "}") (JObj l)
with elements : N -> string -> list json -> Prop :=
| el_one : forall d v s w j, filler v -> filler w -> value d s j -> elements d (v ++ s ++ w) [j]
| el_more : forall d v s w j r l, filler v -> filler w -> value d s j -> elements d r l -> elements d (v ++ s ++ w ++ "," ++ r) (j :: l)
with members : N -> string -> list (string * json) -> Prop :=
| me_one : forall d m k j, member_of d m k j -> members d m [(k, j)]
| me_more : forall d m k j r l, member_of d m k j -> members d r l -> members d (m ++ "," ++ r) ((k, j) :: l)
with member_of : N -> string -> string -> json -> Prop :=
| mb : forall d u q k v w s x j, filler u -> quoted q k -> filler v -> filler w -> value d s j -> filler x -> member_of d (u ++ q ++ v ++ ":" ++ w ++ s ++ x) k j.
Definition json_text (s : string) (j : json) : Prop := exists v t w, s = v ++ t ++ w /\ filler v /\ filler w /\ value 10000 t j.
(** The text begins with a value. *)
Definition json_first (s : string) (j : json) (r : string) : Prop := exists v t, s = v ++ t ++ r /\ filler v /\ value 10000 t j.
