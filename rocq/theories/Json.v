(** JSON of directives and payloads: the tags of types.go:15-50 and errors.go:37-39 on top of
    encoding/json (Go 1.22 or later; earlier versions write \u0008 and \u000c for \b and \f).
    The text is modelled byte for byte in both directions.  Not modelled: keys that match a
    field only up to case, repeated keys (the last one counts here), numbers that do not
    fit an int. *)
From Coq Require Import DecimalString.
From Verif Require Export Types.
Local Open Scope string_scope.

Inductive json := JNull | JBool (b : bool) | JNum (raw : string) | JStr (s : string)
  | JArr (l : list json) | JObj (l : list (string * json)).

(** ** Writing (encoding/json encode.go [appendString] with HTML escaping) *)
Definition u4 (n : N) : string := "\u" ++ hex_fixed 4 n.
Definition esc_byte (c : ascii) : string :=
  let b := bval c in
  if (N.eqb b 34 || N.eqb b 92)%bool then "\" ++ str1 c
  else if N.eqb b 8 then "\b" else if N.eqb b 12 then "\f" else if N.eqb b 10 then "\n"
  else if N.eqb b 13 then "\r" else if N.eqb b 9 then "\t"
  else if (N.ltb b 32 || N.eqb b 60 || N.eqb b 62 || N.eqb b 38)%bool then u4 b
  else str1 c.
Definition esc_item (i : item) : string :=
  if negb (it_ok i) then u4 rune_error
  else if (N.eqb (it_rune i) 0x2028 || N.eqb (it_rune i) 0x2029)%bool then u4 (it_rune i)
  else match it_raw i with String c "" => esc_byte c | raw => raw end.
Definition json_str (s : string) : string := s_dq ++ concat_str (map esc_item (scan s)) ++ s_dq.
Fixpoint print_json (j : json) : string :=
  match j with
  | JNull => "null"
  | JBool true => "true"
  | JBool false => "false"
  | JNum raw => raw
  | JStr s => json_str s
  | JArr l => "[" ++ join (map print_json l) "," ++ "]"
  | JObj l => "{" ++ join (map (fun kv => json_str (fst kv) ++ ":" ++ print_json (snd kv)) l) "," ++ "}"
  end.

(** ** Reading (encoding/json scanner.go, decode.go) *)
Definition is_ws (c : ascii) : bool := existsb (Ascii.eqb c) [" "; "009"; "010"; "013"]%char.
Fixpoint skip_ws (s : string) : string := match s with String c r => if is_ws c then skip_ws r else s | "" => "" end.
(** A string literal up to the closing quote. *)
Fixpoint str_end (esc : bool) (s : string) : option (string * string) :=
  match s with
  | "" => None
  | String c r =>
    let push o := option_map (fun x => (String c (fst x), snd x)) o in
    if esc then push (str_end false r)
    else if N.eqb (bval c) 34 then Some ("", r)
    else if N.ltb (bval c) 32 then None
    else push (str_end (N.eqb (bval c) 92) r)
  end.
Definition hex_val (c : ascii) : option N :=
  let b := bval c in
  if in_rng 48 57 b then Some (b - 48)%N else if in_rng 97 102 b then Some (b - 87)%N
  else if in_rng 65 70 b then Some (b - 55)%N else None.
Definition hex4 (s : string) : option N :=
  match s with
  | String a (String b (String c (String d _))) =>
    match hex_val a, hex_val b, hex_val c, hex_val d with
    | Some a, Some b, Some c, Some d => Some (((a * 16 + b) * 16 + c) * 16 + d)%N
    | _, _, _, _ => None
    end
  | _ => None
  end.
Definition esc_char (c : ascii) : option ascii :=
  option_map byte (assoc (str1 c) [(s_dq, 34); ("\", 92); ("/", 47); ("b", 8); ("f", 12); ("n", 10); ("r", 13); ("t", 9)])%N.
(** The second half of a surrogate pair. *)
Definition low_half (s : string) : option N :=
  match s with
  | String "\" (String "u" r) => match hex4 r with Some n => if in_rng 0xDC00 0xDFFF n then Some n else None | None => None end
  | _ => None
  end.
(** [skip] bytes have been used already. *)
Fixpoint unesc (skip : nat) (s : string) : option string :=
  match s with
  | "" => Some ""
  | String c r =>
    match skip with
    | S k => unesc k r
    | O =>
      if N.eqb (bval c) 92 then
        match r with
        | "" => None
        | String e r' =>
          match esc_char e with
          | Some b => option_map (String b) (unesc 1 r)
          | None =>
            if negb (N.eqb (bval e) 117) then None else
            match hex4 r' with
            | None => None
            | Some n =>
              if in_rng 0xD800 0xDFFF n then
                match (if in_rng 0xD800 0xDBFF n then low_half (drop 4 r') else None) with
                | Some m => option_map (String.append (encode_rune ((n - 0xD800) * 1024 + (m - 0xDC00) + 0x10000)%N)) (unesc 11 r)
                | None => option_map (String.append error_rune_text) (unesc 5 r)
                end
              else option_map (String.append (encode_rune n)) (unesc 5 r)
            end
          end
        end
      else option_map (String c) (unesc 0 r)
    end
  end.
(** Bytes that are not UTF-8 become U+FFFD. *)
Definition to_valid (s : string) : string := concat_str (scan_runes s).
Definition pstr (s : string) : option (string * string) :=
  match str_end false s with
  | None => None
  | Some (raw, r) => match unesc 0 raw with None => None | Some x => Some (to_valid x, r) end
  end.
Definition is_digit (c : ascii) : bool := in_rng 48 57 (bval c).
Definition num_char (c : ascii) : bool := (is_digit c || existsb (Ascii.eqb c) ["+"; "-"; "."; "e"; "E"]%char)%bool.
Fixpoint span (p : ascii -> bool) (s : string) : string * string :=
  match s with
  | String c r => if p c then let '(a, b) := span p r in (String c a, b) else ("", s)
  | "" => ("", "")
  end.
(** A sign, digits without leading zeros, a fraction, an exponent. *)
Definition num_ok (raw : string) : bool :=
  let s := match raw with String "-" r => r | _ => raw end in
  let '(i, s) := span is_digit s in
  let int_ok := match i with "" => false | String "0" "" => true | String "0" _ => false | _ => true end in
  let '(frac_ok, s) := match s with String "." r => let '(f, r) := span is_digit r in (negb (String.eqb f ""), r) | _ => (true, s) end in
  let exp_ok := match s with
    | "" => true
    | String c r => if (Ascii.eqb c "e" || Ascii.eqb c "E")%bool then
        let r := match r with String "+" r | String "-" r => r | _ => r end in
        let '(e, r) := span is_digit r in (negb (String.eqb e "") && String.eqb r "")%bool
      else false
    end in
  (int_ok && frac_ok && exp_ok)%bool.
Definition after (p s : string) : option string := if prefix p s then Some (drop (slen p) s) else None.
(** [lim]: how much deeper arrays and objects may nest (scanner.go, maxNestingDepth). *)
Fixpoint pval (fuel : nat) (lim : N) (s : string) : option (json * string) :=
  match fuel with
  | O => None
  | S f =>
    let s := skip_ws s in
    match s with
    | "" => None
    | String c r =>
      if N.eqb (bval c) 34 then option_map (fun x => (JStr (fst x), snd x)) (pstr r)
      else if Ascii.eqb c "[" then
        if N.eqb lim 0 then None else
        match skip_ws r with
        | String "]" r' => Some (JArr [], r')
        | _ => option_map (fun x => (JArr (fst x), snd x)) (pelems f (N.pred lim) r)
        end
      else if Ascii.eqb c "{" then
        if N.eqb lim 0 then None else
        match skip_ws r with
        | String "}" r' => Some (JObj [], r')
        | _ => option_map (fun x => (JObj (fst x), snd x)) (pmembers f (N.pred lim) r)
        end
      else if (is_digit c || Ascii.eqb c "-")%bool then
        let '(raw, r) := span num_char s in if num_ok raw then Some (JNum raw, r) else None
      else
        match after "null" s, after "true" s, after "false" s with
        | Some r, _, _ => Some (JNull, r)
        | _, Some r, _ => Some (JBool true, r)
        | _, _, Some r => Some (JBool false, r)
        | _, _, _ => None
        end
    end
  end
with pelems (fuel : nat) (lim : N) (s : string) : option (list json * string) :=
  match fuel with
  | O => None
  | S f =>
    match pval f lim s with
    | None => None
    | Some (v, r) =>
      match skip_ws r with
      | String "," r => option_map (fun x => (v :: fst x, snd x)) (pelems f lim r)
      | String "]" r => Some ([v], r)
      | _ => None
      end
    end
  end
with pmembers (fuel : nat) (lim : N) (s : string) : option (list (string * json) * string) :=
  match fuel with
  | O => None
  | S f =>
    match skip_ws s with
    | String "034" r =>
      match pstr r with
      | None => None
      | Some (k, r) =>
        match skip_ws r with
        | String ":" r =>
          match pval f lim r with
          | None => None
          | Some (v, r) =>
            match skip_ws r with
            | String "," r => option_map (fun x => ((k, v) :: fst x, snd x)) (pmembers f lim r)
            | String "}" r => Some ([(k, v)], r)
            | _ => None
            end
          end
        | _ => None
        end
      end
    | _ => None
    end
  end.
Definition max_nesting : N := 10000.
Definition parse_json (s : string) : option json :=
  match pval (S (slen s)) max_nesting s with
  | Some (v, r) => if String.eqb (skip_ws r) "" then Some v else None
  | None => None
  end.

(** ** Directives *)
Section Marshal.
(** Which empty Args are nil slices. *)
Variable na : directive -> bool.
(** types.go:40-50 *)
Fixpoint to_json (d : directive) : json :=
  JObj ([("directive", JStr (d_name d)); ("line", JNum (itoa (d_line d)));
     ("args", match d_args d with [] => if na d then JNull else JArr [] | l => JArr (map JStr l) end)] ++
    (if String.eqb (d_file d) "" then [] else [("file", JStr (d_file d))]) ++
    match d_includes d with None | Some [] => [] | Some l => [("includes", JArr (map (fun z => JNum (itoa z)) l))] end ++
    match d_block d with None | Some [] => [] | Some l => [("block", JArr (map to_json l))] end ++
    match d_comment d with None => [] | Some c => [("comment", JStr c)] end ++
    (if d_ismap d then [("mapBlockParameter", JBool true)] else []))%list.
End Marshal.
(** [Fail]: Unmarshal returns an error.  [Outside]: the value has a nil *Directive or a nil
    error in a place where these types have none. *)
Inductive res (A : Type) := Got (a : A) | Fail | Outside.
Arguments Got {A} a.
Arguments Fail {A}.
Arguments Outside {A}.
Definition rbind {A B} (r : res A) (k : A -> res B) : res B := match r with Got a => k a | Fail => Fail | Outside => Outside end.
Fixpoint rmap {A B} (f : A -> res B) (l : list A) : res (list B) :=
  match l with [] => Got [] | x :: r => rbind (f x) (fun y => rbind (rmap f r) (fun z => Got (y :: z))) end.
Definition field (k : string) (l : list (string * json)) : json := match assoc k (rev l) with Some v => v | None => JNull end.
Definition dec_str (j : json) : res string := match j with JNull => Got "" | JStr s => Got s | _ => Fail end.
Definition dec_bool (j : json) : res bool := match j with JNull => Got false | JBool b => Got b | _ => Fail end.
Definition dec_int (j : json) : res Z :=
  match j with JNull => Got 0%Z | JNum raw => match NilZero.int_of_string raw with Some i => Got (Z.of_int i) | None => Fail end | _ => Fail end.
Definition dec_ptr {A} (f : json -> res A) (j : json) : res (option A) := match j with JNull => Got None | _ => rbind (f j) (fun a => Got (Some a)) end.
Definition dec_list {A} (f : json -> res A) (j : json) : res (option (list A)) :=
  match j with JNull => Got None | JArr l => rbind (rmap f l) (fun a => Got (Some a)) | _ => Fail end.
Fixpoint dec_dir (fuel : nat) (j : json) : res directive :=
  match fuel, j with
  | S f, JObj l =>
    rbind (dec_str (field "directive" l)) (fun name => rbind (dec_int (field "line" l)) (fun line =>
    rbind (dec_list dec_str (field "args" l)) (fun args => rbind (dec_str (field "file" l)) (fun file =>
    rbind (dec_list dec_int (field "includes" l)) (fun incs =>
    rbind (dec_list (fun j => match j with JNull => Outside | _ => dec_dir f j end) (field "block" l)) (fun blk =>
    rbind (dec_ptr dec_str (field "comment" l)) (fun com => rbind (dec_bool (field "mapBlockParameter" l)) (fun ismap =>
    Got (Dir name line (opt_list args) file incs blk com ismap)))))))))
  | O, _ => Outside
  | _, JNull => Got (Dir "" 0 [] "" None None None false)
  | _, _ => Fail
  end.
Definition marshal (na : directive -> bool) (d : directive) : string := print_json (to_json na d).
Definition unmarshal (s : string) : res directive :=
  match parse_json s with Some j => dec_dir (S (slen s)) j | None => Fail end.

(** ** Payloads (types.go:15-38) *)
Section Payload.
Variable na : directive -> bool.
(** Which empty slices are nil; what encoding/json makes of other errors and of callback values. *)
Variables (ne nc np : bool) (other cb : string -> json).
Definition slice_json {A} (f : A -> json) (nil : bool) (l : list A) : json :=
  match l with [] => if nil then JNull else JArr [] | _ => JArr (map f l) end.
Definition line_json (o : option Z) : json := match o with Some z => JNum (itoa z) | None => JNull end.
(** errors.go:37-39 *)
Definition err_json (e : goerr) : json := match e with EParse p => JStr (perr_string p) | EOther m => other m end.
Definition cerr_json (e : config_error) : json := JObj [("line", line_json (ce_line e)); ("error", err_json (ce_err e))].
Definition perr_json (e : payload_error) : json :=
  JObj ([("file", JStr (py_file e)); ("line", line_json (py_line e)); ("error", err_json (py_err e))] ++
    match py_cb e with None => [] | Some c => [("callback", cb c)] end)%list.
Definition config_json (c : config) : json :=
  JObj [("file", JStr (cf_file c)); ("status", JStr (cf_status c)); ("errors", slice_json cerr_json ne (cf_errors c));
        ("parsed", slice_json (to_json na) np (cf_parsed c))].
Definition payload_json (p : payload) : json :=
  JObj [("status", JStr (pl_status p)); ("errors", slice_json perr_json ne (pl_errors p)); ("config", slice_json config_json nc (pl_config p))].
Definition marshal_payload (p : payload) : string := print_json (payload_json p).
End Payload.
(** A value cannot be stored in a field of type error. *)
Definition dec_error (j : json) : res goerr := match j with JNull => Outside | _ => Fail end.
Definition dec_cerr (j : json) : res config_error :=
  match j with
  | JObj l => rbind (dec_ptr dec_int (field "line" l)) (fun line => rbind (dec_error (field "error" l)) (fun e => Got (CE line e)))
  | JNull => Outside
  | _ => Fail
  end.
Definition dec_perr (j : json) : res payload_error :=
  match j with
  | JObj l => rbind (dec_str (field "file" l)) (fun file => rbind (dec_ptr dec_int (field "line" l)) (fun line =>
      rbind (dec_error (field "error" l)) (fun e => Got (PyE file line e None))))
  | JNull => Outside
  | _ => Fail
  end.
Definition dec_config (fuel : nat) (j : json) : res config :=
  match j with
  | JObj l => rbind (dec_str (field "file" l)) (fun file => rbind (dec_str (field "status" l)) (fun status =>
      rbind (dec_list dec_cerr (field "errors" l)) (fun errs =>
      rbind (dec_list (fun j => match j with JNull => Outside | _ => dec_dir fuel j end) (field "parsed" l)) (fun parsed =>
      Got (Cfg file status (opt_list errs) (opt_list parsed))))))
  | JNull => Got (Cfg "" "" [] [])
  | _ => Fail
  end.
Definition dec_payload (fuel : nat) (j : json) : res payload :=
  match j with
  | JObj l => rbind (dec_str (field "status" l)) (fun status => rbind (dec_list dec_perr (field "errors" l)) (fun errs =>
      rbind (dec_list (dec_config fuel) (field "config" l)) (fun cfgs => Got (Pay status (opt_list errs) (opt_list cfgs)))))
  | JNull => Got (Pay "" [] [])
  | _ => Fail
  end.
Definition unmarshal_payload (s : string) : res payload :=
  match parse_json s with Some j => dec_payload (S (slen s)) j | None => Fail end.
