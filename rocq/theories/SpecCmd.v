(** C63: the command of the generator. *)
From Verif Require Export SpecGen SpecJsonText GenMain.
Local Open Scope string_scope.

(** ** The command line *)
Definition flag_names : list string := ["src-path"; "config-path"; "directive-map-name"; "match-func-name"; "match-func-comment"; "filter"; "override"].
Definition name_ok (n : string) : Prop := n <> "" /\ (forall r, n <> "-" ++ r) /\ ~ inside "=" n.
(** -name, --name, -name=value, --name=value *)
Inductive flag_word : string -> string -> option string -> Prop :=
| fw_bare : forall dash n, In dash ["-"; "--"] -> name_ok n -> flag_word (dash ++ n) n None
| fw_value : forall dash n v, In dash ["-"; "--"] -> name_ok n -> flag_word (dash ++ n ++ "=" ++ v) n (Some v).
Definition ends_flags (w : string) : Prop := w = "-" \/ w = "--" \/ forall r, w <> "-" ++ r.
Definition misspelt (w : string) : Prop := exists r, w = "---" ++ r \/ w = "-=" ++ r \/ w = "--=" ++ r.
(** The flags and values at the beginning of the command line, and the rest of it. *)
Inductive given : list string -> list (string * string) -> list string -> Prop :=
| gv_none : forall l, given l [] l
| gv_same : forall w n v r fs z, flag_word w n (Some v) -> In n flag_names -> given r fs z -> given (w :: r) ((n, v) :: fs) z
| gv_next : forall w n v r fs z, flag_word w n None -> In n flag_names -> given r fs z -> given (w :: v :: r) ((n, v) :: fs) z.
Definition over (rest : list string) : Prop := rest = [] \/ exists w r, rest = w :: r /\ ends_flags w.
Definition values (n : string) (fs : list (string * string)) : list string := map snd (filter (fun f => String.eqb (fst f) n) fs).
Definition value_of (n : string) (fs : list (string * string)) : string := last (values n fs) "".
Definition spelt (v : string) : Prop := exists d ms, spells v d ms.
Definition overrides_ok (fs : list (string * string)) : Prop := Forall spelt (values "override" fs).
(** The next flag cannot be taken. *)
Inductive fails : list string -> halt -> Prop :=
| fl_syntax : forall w r, misspelt w -> fails (w :: r) (StopSyntax w)
| fl_help : forall w n v r, flag_word w n v -> In n ["help"; "h"] -> fails (w :: r) StopHelp
| fl_unknown : forall w n v r, flag_word w n v -> ~ In n flag_names -> ~ In n ["help"; "h"] -> fails (w :: r) (StopUnknown n)
| fl_no_value : forall w n, flag_word w n None -> In n flag_names -> fails [w] (StopNoValue n)
| fl_value : forall w v r, flag_word w "override" (Some v) -> ~ spelt v -> fails (w :: r) (StopValue v)
| fl_next : forall w v r, flag_word w "override" None -> ~ spelt v -> fails (w :: v :: r) (StopValue v).
(** Of several overrides of a directive the last one counts. *)
Definition last_each {A} (items m : list (string * A)) : Prop := forall d, assoc d m = assoc d (rev items).
Definition overrides_given (fs : list (string * string)) (o : option masks_map) : Prop :=
  match o with
  | None => values "override" fs = []
  | Some m => values "override" fs <> [] /\ exists items, Forall2 (fun v i => spells v (fst i) (snd i)) (values "override" fs) items /\ last_each items m
  end.
Definition filters_given (fs : list (string * string)) : option (list string) := match values "filter" fs with [] => None | l => Some l end.
Definition settings_of (fs : list (string * string)) (f : settings) : Prop :=
  f_src f = value_of "src-path" fs /\ f_config f = value_of "config-path" fs /\ f_map f = value_of "directive-map-name" fs /\ f_match f = value_of "match-func-name" fs /\
  f_comment f = value_of "match-func-comment" fs /\ f_filter f = filters_given fs /\ overrides_given fs (f_override f).

(** ** The configuration file *)
(** The values of the members of an object whose key is [tag] up to case. *)
Inductive picked (tag : string) : list (string * json) -> list json -> Prop :=
| pk_end : picked tag [] []
| pk_hit : forall k v l vs, lowered k tag -> picked tag l vs -> picked tag ((k, v) :: l) (v :: vs)
| pk_miss : forall k v l vs, ~ lowered k tag -> picked tag l vs -> picked tag ((k, v) :: l) vs.
Inductive text_from : json -> string -> Prop := tf_null : text_from JNull "" | tf_str : forall s, text_from (JStr s) s.
Inductive texts_from : json -> list string -> Prop := ts_null : texts_from JNull [] | ts_arr : forall l ts, Forall2 text_from l ts -> texts_from (JArr l) ts.
Inductive masks_from : json -> list mask -> Prop := mf_null : masks_from JNull [] | mf_arr : forall l ms, Forall2 texts_from l ms -> masks_from (JArr l) ms.
Inductive table_from : json -> list (string * list mask) -> Prop :=
| tb_obj : forall l items, Forall2 (fun kv i => fst i = fst kv /\ masks_from (snd kv) (snd i)) l items -> table_from (JObj l) items.
(** The last text counts; null is as good as nothing. *)
Definition text_field (tag : string) (l : list (string * json)) (t : string) : Prop :=
  exists vs, picked tag l vs /\ Forall (fun v => v = JNull \/ exists s, v = JStr s) vs /\ t = last (flat_map (fun v => match v with JStr s => [s] | _ => [] end) vs) "".
(** All names count. *)
Definition filter_field (l : list (string * json)) (o : option (list string)) : Prop :=
  exists vs nss, picked "filter" l vs /\ Forall2 texts_from vs nss /\ o = match vs with [] => None | _ => Some (concat nss) end.
(** What is behind the last null counts. *)
Definition override_field (l : list (string * json)) (o : option masks_map) : Prop :=
  exists vs, picked "override" l vs /\ Forall (fun v => v = JNull \/ exists items, table_from v items) vs /\
  match o with
  | None => vs = [] \/ exists a, vs = (a ++ [JNull])%list
  | Some m => exists a b tables, vs = (a ++ b)%list /\ (a = [] \/ exists a', a = (a' ++ [JNull])%list) /\ b <> [] /\ Forall2 table_from b tables /\ last_each (concat tables) m
  end.
Definition described (j : json) (c : gconf) : Prop :=
  j = JNull /\ c = GConf None None "" "" "" \/
  exists l, j = JObj l /\ filter_field l (g_filter c) /\ override_field l (g_override c) /\
    text_field "directivemapname" l (g_map c) /\ text_field "matchfuncname" l (g_match c) /\ text_field "matchfunccomment" l (g_comment c).
(** The file begins with such a value. *)
Definition configures (t : string) (c : gconf) : Prop :=
  exists j r, json_first t j r /\ described j c.
(** The same up to the order of maps. *)
Definition same_map (a b : option masks_map) : Prop :=
  match a, b with None, None => True | Some a, Some b => forall d, assoc d a = assoc d b | _, _ => False end.
Definition same_conf (a b : gconf) : Prop :=
  g_filter a = g_filter b /\ same_map (g_override a) (g_override b) /\ g_map a = g_map b /\ g_match a = g_match b /\ g_comment a = g_comment b.

(** ** The program *)
Section Outcome.
  Variable read : string -> option string.
  Variable below : string -> list entry.
  Variable ord : nat -> list string -> list string.
  Definition accepted (args : list string) (fs : list (string * string)) : Prop := exists rest, given args fs rest /\ over rest /\ overrides_ok fs.
  Definition config_of (fs : list (string * string)) (c : gconf) : Prop :=
    value_of "config-path" fs = "" /\ c = GConf None None "" "" "" \/
    value_of "config-path" fs <> "" /\ exists t, read (value_of "config-path" fs) = Some t /\ configures t c.
  (** Flags go before the configuration. *)
  Definition named (n : string) (fs : list (string * string)) (d : string) : string := match value_of n fs with "" => d | s => s end.
  Definition filter_used (fs : list (string * string)) (c : gconf) (flt : list string) : Prop :=
    match filters_given fs, g_filter c with Some l, _ => flt = l | None, Some l => flt = l | None, None => flt = [] end.
  Definition override_used (fs : list (string * string)) (c : gconf) (ovr : masks_map) : Prop :=
    match values "override" fs, g_override c with
    | [], None => ovr = []
    | [], Some m => ovr = m
    | _, _ => overrides_given fs (Some ovr)
    end.
  Inductive outcome (args : list string) : string + halt -> Prop :=
  | oc_flags : forall fs rest e, given args fs rest -> overrides_ok fs -> fails rest e -> outcome args (inr e)
  | oc_config : forall fs, accepted args fs -> (~ exists c, config_of fs c) -> outcome args (inr StopConfig)
  | oc_source : forall fs c, accepted args fs -> config_of fs c -> value_of "src-path" fs = "" -> outcome args (inr StopNoSource)
  | oc_map : forall fs c, accepted args fs -> config_of fs c -> value_of "src-path" fs <> "" -> named "directive-map-name" fs (g_map c) = "" -> outcome args (inr StopNoMap)
  | oc_func : forall fs c, accepted args fs -> config_of fs c -> value_of "src-path" fs <> "" -> named "directive-map-name" fs (g_map c) <> "" ->
      named "match-func-name" fs (g_match c) = "" -> outcome args (inr StopNoFunc)
  | oc_gen : forall fs c flt ovr e, accepted args fs -> config_of fs c -> value_of "src-path" fs <> "" -> named "directive-map-name" fs (g_map c) <> "" ->
      named "match-func-name" fs (g_match c) <> "" -> filter_used fs c flt -> override_used fs c ovr ->
      generate_map ord (below (value_of "src-path" fs)) flt ovr = inr e -> outcome args (inr (StopGen e))
  | oc_text : forall fs c flt ovr m, accepted args fs -> config_of fs c -> value_of "src-path" fs <> "" -> named "directive-map-name" fs (g_map c) <> "" ->
      named "match-func-name" fs (g_match c) <> "" -> filter_used fs c flt -> override_used fs c ovr ->
      generate_map ord (below (value_of "src-path" fs)) flt ovr = inl m ->
      outcome args (inl (render (named "directive-map-name" fs (g_map c)) (named "match-func-name" fs (g_match c)) (named "match-func-comment" fs (g_comment c)) m)).
End Outcome.
