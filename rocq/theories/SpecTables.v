(** The tables the package ships (C25, C33, C64): analyze_*_directives*.go, analyze.go:258-269. *)
From Verif Require Export Tables.
Local Open Scope string_scope.

Definition shipped : list (list (string * list N)) :=
  [ nginxPlusLatestDirectives; njsDirectives; otelDirectives; oss124Directives; oss126Directives;
    ossLatestDirectives; luaDirectives; geoip2Directives; headersMoreDirectives;
    appProtectWAFv4Directives; appProtectWAFv5Directives; nginxPlusR30Directives;
    nginxPlusR31Directives; nginxPlusR33Directives; nginxPlusR34Directives;
    nginxPlusR35Directives; nginxPlusR36Directives; nginxPlusR37Directives; default_directives ].
