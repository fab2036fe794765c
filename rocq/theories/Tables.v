(** analyze.go:265-274: the default directive table. *)
From Verif Require Export Analyze TablesLatest TablesPlus1 TablesPlus2 TablesOther.
Local Open Scope string_scope.

(** The generated match functions: [m, ok := table[directive]]. *)
Definition lookup (t : list (string * list N)) : match_func := fun d => assoc d t.

(** analyze.go:269 [defaultDirectives]. *)
Definition default_directives : list (string * list N) :=
  Eval vm_compute in union_maps [nginxPlusLatestDirectives; njsDirectives; otelDirectives].

(** analyze.go:271-274 [DefaultDirectivesMatchFunc]. *)
Definition default_match : match_func := lookup default_directives.
