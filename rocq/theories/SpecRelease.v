(** C75: the tables of the releases. *)
From Verif Require Export Tables Main.
Local Open Scope string_scope.

Definition table := list (string * list N).
Definition without (names : list string) (t : table) : table :=
  filter (fun e => negb (existsb (String.eqb (fst e)) names)) t.

(** A release and one that comes after it or contains it.  Names the newer one has given up
    are taken out of the older one: [ssl] is gone from OSS 1.26, and [proxy_ssl_alpn] is in
    the latest OSS release but not in the latest Plus release. *)
Definition steps : list (table * table) :=
  [ (nginxPlusR30Directives, nginxPlusR31Directives);
    (nginxPlusR31Directives, nginxPlusR33Directives);
    (nginxPlusR33Directives, nginxPlusR34Directives);
    (nginxPlusR34Directives, nginxPlusR35Directives);
    (nginxPlusR35Directives, nginxPlusR36Directives);
    (nginxPlusR36Directives, nginxPlusR37Directives);
    (nginxPlusR37Directives, nginxPlusLatestDirectives);
    (nginxPlusLatestDirectives, default_directives);
    (without ["ssl"] oss124Directives, oss126Directives);
    (oss126Directives, ossLatestDirectives);
    (oss126Directives, nginxPlusLatestDirectives);
    (without ["proxy_ssl_alpn"] ossLatestDirectives, nginxPlusLatestDirectives);
    (appProtectWAFv4Directives, appProtectWAFv5Directives);
    (appProtectWAFv5Directives, appProtectWAFv4Directives) ].
Inductive upgrade : table -> table -> Prop :=
| up_step : forall a b, In (a, b) steps -> upgrade a b
| up_then : forall a b c, upgrade a b -> upgrade b c -> upgrade a c.

(** Options that refuse unknown directives, with a table in front of the other sources. *)
Definition strictly (o : popts) (t : table) : popts :=
  Opts (o_ignore o) (o_callback o) (o_open o) (o_glob o) (o_stop o) (o_combine o) (o_single o)
       (o_comments o) true (o_skipctx o) (o_skipargs o) (lookup t :: o_sources o) (o_default o) (o_lexers o).
