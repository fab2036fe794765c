(** C59: texts are read as UTF-8. *)
From Verif Require Import CharsProofs.
Local Open Scope string_scope.

(** A text begins with a character exactly if it begins with its encoding; any other byte is U+FFFD. *)
Theorem C59_decode : forall s n w, decode_rune s = (n, w, true) <-> exists t r, s = t ++ r /\ utf8 n t /\ w = slen t.
Proof. exact decode_exact. Qed.
Print Assumptions C59_decode.
Theorem C59_bad : forall s, s <> "" -> (~ exists n t r, s = t ++ r /\ utf8 n t) -> decode_rune s = (0xFFFD%N, 1, false).
Proof. exact decode_bad. Qed.
Print Assumptions C59_bad.
(** Whole texts: the characters and the bytes that begin none, in order, from either end. *)
Theorem C59_chars : forall s l, chars s l <-> scan s = l.
Proof. exact chars_exact. Qed.
Print Assumptions C59_chars.
Theorem C59_last : forall s n t l, utf8 n t -> chars s l -> chars (s ++ t) (l ++ [Item n t true]).
Proof. exact chars_last. Qed.
Print Assumptions C59_last.
(** What the lexer is given (bufio.ScanRunes): the encoding of each of these characters. *)
Theorem C59_texts : forall s ts, scan_runes s = ts <-> exists l, chars s l /\ Forall2 (fun i t => utf8 (it_rune i) t) l ts.
Proof. exact texts_exact. Qed.
Print Assumptions C59_texts.
(** Writing. *)
Theorem C59_encode : forall n, scalar n -> utf8 n (encode_rune n).
Proof. exact encode_scalar. Qed.
Print Assumptions C59_encode.
Theorem C59_encode_other : forall n, ~ scalar n -> utf8 0xFFFD (encode_rune n).
Proof. exact encode_other. Qed.
Print Assumptions C59_encode_other.
(** White space. *)
Theorem C59_space : forall n, is_space_rune n = true <-> In n white_space_chars.
Proof. exact space_exact. Qed.
Print Assumptions C59_space.

(** An a, a euro sign, a byte that begins nothing, a surrogate (three such bytes), an ideographic space. *)
Definition mixed : string := of_bytes [0x61; 0xE2; 0x82; 0xAC; 0xFF; 0xED; 0xA0; 0x80; 0xE3; 0x80; 0x80]%N.
Example C59_mixed : chars mixed
  [Item 0x61 "a" true; Item 0x20AC (of_bytes [0xE2; 0x82; 0xAC]%N) true; Item 0xFFFD (of_bytes [0xFF]%N) false; Item 0xFFFD (of_bytes [0xED]%N) false;
   Item 0xFFFD (of_bytes [0xA0]%N) false; Item 0xFFFD (of_bytes [0x80]%N) false; Item 0x3000 (of_bytes [0xE3; 0x80; 0x80]%N) true].
Proof. apply C59_chars. vm_compute. reflexivity. Qed.
Example C59_euro : utf8 0x20AC (of_bytes [0xE2; 0x82; 0xAC]%N).
Proof. apply (u8_three 0x20AC 2 2 44); lia. Qed.
Example C59_read : exists t r, mixed = t ++ r /\ utf8 0x61 t /\ 1 = slen t.
Proof. apply C59_decode. vm_compute. reflexivity. Qed.
Example C59_overlong : ~ exists n t r, of_bytes [0xC0; 0xAF]%N = t ++ r /\ utf8 n t.
Proof. intros (n & t & r & E & U). pose proof (proj2 (C59_decode _ n (slen t)) (ex_intro _ t (ex_intro _ r (conj E (conj U eq_refl))))) as X. vm_compute in X. discriminate. Qed.
Example C59_scalar : scalar 0x10FFFF /\ ~ scalar 0xDFFF /\ ~ scalar 0x110000.
Proof. unfold scalar. lia. Qed.
Example C59_ideographic : In 0x3000%N white_space_chars /\ ~ In 0x200B%N white_space_chars.
Proof. rewrite <- !C59_space. split; [reflexivity|discriminate]. Qed.
