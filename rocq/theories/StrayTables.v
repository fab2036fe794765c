(** The shipped tables and the contexts their blocks lead to (C33). *)
From Verif Require Export StrayProofs TableProofs Tables.
Local Open Scope string_scope.

Definition loose_blocks : list string :=
  ["num_map"; "precontent_by_lua_block"; "proxy_ssl_certificate_by_lua_block"; "proxy_ssl_verify_by_lua_block"].
Lemma shipped_lead : forallb (leads_on loose_blocks) shipped = true.
Proof. vm_compute. reflexivity. Qed.
Lemma default_lead : leads_on ["num_map"] default_directives = true.
Proof. vm_compute. reflexivity. Qed.
Lemma oss_lead : forallb (leads_on []) [oss124Directives; oss126Directives; ossLatestDirectives] = true.
Proof. vm_compute. reflexivity. Qed.
Lemma blocks_default : forall o, o_sources o = [] -> o_default o = default_match -> blocks_lead o ["num_map"].
Proof.
  intros o S D path b name ms mask P [[_ K]|[K _]] I B1 B2; [|congruence]. rewrite D in K. eapply leads_on_ok; eauto. apply default_lead.
Qed.
Lemma blocks_tables : forall o odd ts, o_sources o = map lookup ts -> ts <> [] -> forallb (leads_on odd) ts = true -> blocks_lead o odd.
Proof.
  intros o odd ts S NE F path b name ms mask P K I B1 B2. destruct K as [[K _]|(_ & f & _ & _ & E)]; [rewrite S in K; destruct ts; [congruence|discriminate]|].
  rewrite E, S in I. apply in_flat_map in I as (g & J & I). apply in_map_iff in J as (t & <- & J). unfold lookup in I. destruct (assoc name t) as [l|] eqn:A; [|destruct I].
  rewrite forallb_forall in F. eapply leads_on_ok; eauto.
Qed.
Lemma blocks_shipped : forall o ts, o_sources o = map lookup ts -> ts <> [] -> incl ts shipped -> blocks_lead o loose_blocks.
Proof.
  intros o ts S NE I. apply (blocks_tables o _ ts); auto. pose proof shipped_lead as F. rewrite forallb_forall in *. auto.
Qed.
Lemma blocks_oss : forall o t, In t [oss124Directives; oss126Directives; ossLatestDirectives] -> o_sources o = [lookup t] -> blocks_lead o [].
Proof.
  intros o t I S. apply (blocks_tables o [] [t]); auto; [discriminate|]. pose proof oss_lead as F. rewrite forallb_forall in F. cbn [forallb]. now rewrite (F _ I).
Qed.
