(** C60: the library functions the code calls - packages strings, sort, strconv and path/filepath. *)
From Verif Require Export SpecChars GoPath.
From Coq Require Export Permutation Sorted.
Local Open Scope string_scope.

Definition inside (c : ascii) (s : string) : Prop := exists a b, s = a ++ String c b.
(** ** strings *)
(** White space is dropped at both ends, up to the first and the last other character. *)
Definition white_item (i : item) : Prop := In (it_rune i) white_space_chars.
Definition raw (l : list item) : string := fold_right (fun i s => it_raw i ++ s) "" l.
Definition trimmed (s t : string) : Prop :=
  exists before l after, chars s (before ++ l ++ after) /\ Forall white_item before /\ Forall white_item after /\ t = raw l /\
    (forall i m, l = i :: m -> ~ white_item i) /\ (forall i m, l = (m ++ [i])%list -> ~ white_item i).
Definition without_prefix (p s t : string) : Prop := s = p ++ t \/ (~ exists r, s = p ++ r) /\ t = s.
Definition without_suffix (p s t : string) : Prop := s = t ++ p \/ (~ exists r, s = r ++ p) /\ t = s.
(** Every occurrence from the left. *)
Inductive replaced (old new : string) : string -> string -> Prop :=
| rp_end : replaced old new "" ""
| rp_hit : forall s t, replaced old new s t -> replaced old new (old ++ s) (new ++ t)
| rp_miss : forall c s t, (~ exists r, String c s = old ++ r) -> replaced old new s t -> replaced old new (String c s) (String c t).
(** The pieces between the separators. *)
Inductive joined (sep : string) : list string -> string -> Prop :=
| jo_one : forall x, joined sep [x] x
| jo_more : forall x l s, joined sep l s -> joined sep (x :: l) (x ++ sep ++ s).
Definition pieces (c : ascii) (s : string) (l : list string) : Prop := joined (String c "") l s /\ Forall (fun x => ~ inside c x) l.
Definition cut_at (c : ascii) (s : string) (r : option (string * string)) : Prop :=
  match r with Some (a, b) => s = a ++ String c b /\ ~ inside c a | None => ~ inside c s end.
(** Letters A to Z become a to z; every other byte stays. *)
Definition capitals : string := "ABCDEFGHIJKLMNOPQRSTUVWXYZ".
Definition smalls : string := "abcdefghijklmnopqrstuvwxyz".
Inductive lowered : string -> string -> Prop :=
| lo_end : lowered "" ""
| lo_letter : forall i c d s t, String.get i capitals = Some c -> String.get i smalls = Some d -> lowered s t -> lowered (String c s) (String d t)
| lo_other : forall c s t, ~ inside c capitals -> lowered s t -> lowered (String c s) (String c t).

(** ** sort: the order of the bytes. *)
Inductive not_after : string -> string -> Prop :=
| na_end : forall t, not_after "" t
| na_less : forall c d s t, (nat_of_ascii c < nat_of_ascii d) -> not_after (String c s) (String d t)
| na_same : forall c s t, not_after s t -> not_after (String c s) (String c t).
(** ** strconv: decimal numbers. *)
Definition digits : string := "0123456789".
Inductive decimal : Z -> string -> Prop :=
| de_one : forall i c, String.get i digits = Some c -> decimal (Z.of_nat i) (String c "")
| de_more : forall n t i c, decimal n t -> (0 < n)%Z -> String.get i digits = Some c -> decimal (10 * n + Z.of_nat i) (t ++ String c "").
Definition number (z : Z) (t : string) : Prop := if (z <? 0)%Z then exists u, t = "-" ++ u /\ decimal (- z) u else decimal z t.

(** ** path/filepath: the rules of Clean, one at a time, on the elements between slashes. *)
Definition proper (e : string) : Prop := e <> "" /\ e <> "." /\ e <> "..".
Inductive shorter (rooted : Prop) : list string -> list string -> Prop :=
| sh_empty : forall a b, shorter rooted (a ++ "" :: b) (a ++ b)
| sh_dot : forall a b, shorter rooted (a ++ "." :: b) (a ++ b)
| sh_parent : forall a e b, proper e -> shorter rooted (a ++ e :: ".." :: b) (a ++ b)
| sh_root : forall b, rooted -> shorter rooted (".." :: b) b.
Inductive shortened (rooted : Prop) : list string -> list string -> Prop :=
| sd_none : forall l, shortened rooted l l
| sd_step : forall l m n, shorter rooted l m -> shortened rooted m n -> shortened rooted l n.
(** No rule applies. *)
Definition shortest (rooted : Prop) (l : list string) : Prop := forall m, ~ shorter rooted l m.
Definition from_root (p : string) : Prop := exists r, p = "/" ++ r.
Definition cleaned (p q : string) : Prop :=
  exists es l, pieces "/" p es /\ shortened (from_root p) es l /\ shortest (from_root p) l /\
    (from_root p /\ (l = [] /\ q = "/" \/ exists b, joined "/" l b /\ q = "/" ++ b) \/ ~ from_root p /\ (l = [] /\ q = "." \/ joined "/" l q)).
Definition path_joined (a b q : string) : Prop :=
  (a = "" /\ b = "" /\ q = "") \/ (a = "" /\ b <> "" /\ cleaned b q) \/ (a <> "" /\ cleaned (a ++ "/" ++ b) q).
(** The part up to the last slash. *)
Definition directory (p q : string) : Prop := exists d f, p = d ++ f /\ ~ inside "/" f /\ (d = "" \/ exists e, d = e ++ "/") /\ cleaned d q.
