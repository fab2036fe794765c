(** C75: a newer release's table accepts what an older one's did. *)
From Verif Require Import SpecRelease ReleaseProofs.
Local Open Scope string_scope.

(** A statement that passes with the older table passes with the newer one, at every place,
    with every terminator, and with whatever other sources and switches. *)
Theorem C75_statement : forall a b o f d term path, upgrade a b ->
  analyze (strictly o a) f d term path = None -> analyze (strictly o b) f d term path = None.
Proof. exact upgrade_statement. Qed.
Print Assumptions C75_statement.
(** A configuration that is read without errors with the older table is read the same way
    with the newer one. *)
Theorem C75_upgrade : forall a b fuel o filename p, upgrade a b ->
  parse_main fuel (strictly o a) filename = ROk p -> pl_errors p = [] ->
  parse_main fuel (strictly o b) filename = ROk p.
Proof. exact upgrade_main. Qed.
Print Assumptions C75_upgrade.

Definition c75_files (path : string) : string + string :=
  if String.eqb path "a" then inl "http { server { listen 80; include b; } }"
  else if String.eqb path "b" then inl "ssl on; location / { if ($a) { return 404; } proxy_pass http://x; }"
  else if String.eqb path "c" then inl "stream { server { proxy_ssl_alpn h2; } }"
  else if String.eqb path "d" then inl "http { server { listen 80; location / { proxy_pass http://x; } } }"
  else inr "no such file".
Definition c75_opts (strict : bool) (sources : list match_func) : popts :=
  Opts [] None c75_files (fun _ => inl []) false false false true strict false false sources default_match [].

(** Taking [ssl] and [proxy_ssl_alpn] out was necessary. *)
Theorem C75_given_up_refuted : exists fuel o filename p filename' p',
  parse_main fuel (strictly o oss124Directives) filename = ROk p /\ pl_errors p = [] /\
  parse_main fuel (strictly o oss126Directives) filename <> ROk p /\
  parse_main fuel (strictly o ossLatestDirectives) filename' = ROk p' /\ pl_errors p' = [] /\
  parse_main fuel (strictly o nginxPlusLatestDirectives) filename' <> ROk p'.
Proof.
  exists 9, (c75_opts true []), "a". eexists. exists "c". eexists.
  split; [vm_compute; reflexivity|]. split; [reflexivity|]. split; [vm_compute; discriminate|].
  split; [vm_compute; reflexivity|]. split; [reflexivity|]. vm_compute. discriminate.
Qed.
Print Assumptions C75_given_up_refuted.
(** Refusing unknown directives is necessary too: the table of OSS 1.26 does not know
    [ssl] and lets it pass; the latest Plus release knows it for mgmt only. *)
Theorem C75_lenient_refuted : exists fuel filename p,
  parse_main fuel (c75_opts false [lookup oss126Directives]) filename = ROk p /\ pl_errors p = [] /\
  parse_main fuel (c75_opts false [lookup nginxPlusLatestDirectives]) filename <> ROk p.
Proof.
  exists 9, "a". eexists. split; [vm_compute; reflexivity|]. split; [reflexivity|]. vm_compute. discriminate.
Qed.
Print Assumptions C75_lenient_refuted.

Lemma c75_plus : upgrade nginxPlusR30Directives default_directives.
Proof.
  apply up_then with (b := nginxPlusR31Directives); [apply up_step; now left|].
  apply up_then with (b := nginxPlusR33Directives); [apply up_step; do 1 right; now left|].
  apply up_then with (b := nginxPlusR34Directives); [apply up_step; do 2 right; now left|].
  apply up_then with (b := nginxPlusR35Directives); [apply up_step; do 3 right; now left|].
  apply up_then with (b := nginxPlusR36Directives); [apply up_step; do 4 right; now left|].
  apply up_then with (b := nginxPlusR37Directives); [apply up_step; do 5 right; now left|].
  apply up_then with (b := nginxPlusLatestDirectives); [apply up_step; do 6 right; now left|].
  apply up_step. do 7 right. now left.
Qed.
Example C75_case : exists p, upgrade nginxPlusR30Directives default_directives /\
  parse_main 9 (strictly (c75_opts true []) nginxPlusR30Directives) "d" = ROk p /\ pl_errors p = [] /\
  parse_main 9 (strictly (c75_opts true []) default_directives) "d" = ROk p.
Proof.
  eexists. split; [exact c75_plus|]. split; [vm_compute; reflexivity|]. split; [reflexivity|]. vm_compute. reflexivity.
Qed.
Example C75_upgrades : upgrade (without ["ssl"] oss124Directives) default_directives.
Proof.
  eapply up_then with (b := oss126Directives); [apply up_step; do 8 right; now left|].
  eapply up_then with (b := nginxPlusLatestDirectives); [apply up_step; do 10 right; now left|].
  apply up_step. do 7 right. now left.
Qed.
