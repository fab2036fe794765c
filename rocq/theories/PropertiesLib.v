(** C60: the library functions the code calls. *)
From Verif Require Import LibProofs.
Local Open Scope string_scope.

(** Package strings. *)
Theorem C60_prefix : forall s p, has_prefix s p = true <-> exists r, s = p ++ r.
Proof. exact has_prefix_iff. Qed.
Print Assumptions C60_prefix.
Theorem C60_suffix : forall s p, has_suffix s p = true <-> exists r, s = r ++ p.
Proof. exact has_suffix_iff. Qed.
Print Assumptions C60_suffix.
Theorem C60_trim_prefix : forall s p t, trim_prefix s p = t <-> without_prefix p s t.
Proof. exact trim_prefix_exact. Qed.
Print Assumptions C60_trim_prefix.
Theorem C60_trim_suffix : forall s p t, trim_suffix s p = t <-> without_suffix p s t.
Proof. exact trim_suffix_exact. Qed.
Print Assumptions C60_trim_suffix.
Theorem C60_trim_space : forall s t, trim_space s = t <-> trimmed s t.
Proof. exact trim_exact. Qed.
Print Assumptions C60_trim_space.
Theorem C60_replace : forall s old new t, old <> "" -> (replace_all s old new = t <-> replaced old new s t).
Proof. exact replace_exact. Qed.
Print Assumptions C60_replace.
Theorem C60_split : forall c s l, split c s = l <-> pieces c s l.
Proof. exact split_exact. Qed.
Print Assumptions C60_split.
Theorem C60_join : forall l sep s, l <> [] -> (join l sep = s <-> joined sep l s).
Proof. exact join_exact. Qed.
Print Assumptions C60_join.
Theorem C60_cut : forall c s r, cut c s = r <-> cut_at c s r.
Proof. exact cut_exact. Qed.
Print Assumptions C60_cut.
Theorem C60_contains_any : forall s cs, contains_any s cs = true <-> exists c, inside c s /\ inside c cs.
Proof. exact contains_any_exact. Qed.
Print Assumptions C60_contains_any.
Theorem C60_lower : forall s t, to_lower s = t <-> lowered s t.
Proof. exact to_lower_exact. Qed.
Print Assumptions C60_lower.
Theorem C60_repeat : forall s n, repeat_str s n = concat_str (repeat s n).
Proof. exact repeat_exact. Qed.
Print Assumptions C60_repeat.
(** Package sort. *)
Theorem C60_sort : forall l m, sort_strings l = m <-> Permutation l m /\ StronglySorted not_after m.
Proof. exact sort_exact. Qed.
Print Assumptions C60_sort.
(** Package strconv: Itoa. *)
Theorem C60_itoa : forall z t, itoa z = t <-> number z t.
Proof. exact itoa_exact. Qed.
Print Assumptions C60_itoa.
(** Package path/filepath. *)
Theorem C60_abs : forall p, is_abs p = true <-> from_root p.
Proof. exact is_abs_iff. Qed.
Print Assumptions C60_abs.
Theorem C60_clean : forall p q, clean p = q <-> cleaned p q.
Proof. exact clean_exact. Qed.
Print Assumptions C60_clean.
Theorem C60_join_path : forall a b q, join_path a b = q <-> path_joined a b q.
Proof. exact join_path_exact. Qed.
Print Assumptions C60_join_path.
Theorem C60_dir : forall p q, dir_name p = q <-> directory p q.
Proof. exact dir_name_exact. Qed.
Print Assumptions C60_dir.
(** Maps: what is found under a key after an assignment, and the keys found. *)
Theorem C60_set : forall A k (v : A) m k', assoc k' (assoc_set k v m) = (if String.eqb k' k then Some v else assoc k' m).
Proof. exact set_exact. Qed.
Print Assumptions C60_set.
Theorem C60_found : forall A k (m : list (string * A)), In k (map fst m) <-> exists v, assoc k m = Some v.
Proof. exact assoc_In_key. Qed.
Print Assumptions C60_found.
Theorem C60_value : forall A k (v : A) m, NoDup (map fst m) -> In (k, v) m -> assoc k m = Some v.
Proof. exact In_assoc_NoDup. Qed.
Print Assumptions C60_value.
Theorem C60_member : forall x l, mem_str x l = true <-> In x l.
Proof. exact mem_str_iff. Qed.
Print Assumptions C60_member.

Example C60_trim_ex : trimmed (s_tab ++ " a b" ++ of_bytes [0xE3; 0x80; 0x80]%N ++ s_nl) "a b".
Proof. apply C60_trim_space. vm_compute. reflexivity. Qed.
Example C60_trim_all : trimmed (s_tab ++ "  ") "".
Proof. apply C60_trim_space. vm_compute. reflexivity. Qed.
Example C60_prefix_ex : without_prefix "  " "    x" "  x" /\ without_prefix "  " " x" " x" /\ without_suffix "_t" "ngx_t" "ngx" /\ without_suffix "_t" "ngx" "ngx".
Proof. rewrite <- !C60_trim_prefix, <- !C60_trim_suffix. vm_compute. auto. Qed.
Example C60_replace_ex : replaced "aa" "b" "aaaxa" "baxa".
Proof. apply C60_replace; [discriminate|vm_compute; reflexivity]. Qed.
Example C60_split_ex : pieces "|" "|a||b" [""; "a"; ""; "b"] /\ cut_at ":" "a:b:c" (Some ("a", "b:c")) /\ cut_at ":" "abc" None.
Proof. rewrite <- C60_split, <- !C60_cut. vm_compute. auto. Qed.
Example C60_lower_ex : lowered "Proxy_ON@[" "proxy_on@[".
Proof. apply C60_lower. vm_compute. reflexivity. Qed.
Example C60_contains_ex : exists c, inside c "a/b" /\ inside c "*/".
Proof. apply C60_contains_any. reflexivity. Qed.
Example C60_sort_ex : Permutation ["b"; "ab"; "B"; "a"; "ab"] ["B"; "a"; "ab"; "ab"; "b"] /\ StronglySorted not_after ["B"; "a"; "ab"; "ab"; "b"].
Proof. apply C60_sort. vm_compute. reflexivity. Qed.
Example C60_itoa_ex : number 120 "120" /\ number (-7) "-7" /\ number 0 "0".
Proof. rewrite <- !C60_itoa. vm_compute. auto. Qed.
Example C60_clean_ex : cleaned "a/./b//../../../c/" "../c" /\ cleaned "/../x/.." "/" /\ cleaned "" "." /\ cleaned "./" "." /\ cleaned "../../a" "../../a" /\ cleaned "//a" "/a".
Proof. rewrite <- !C60_clean. vm_compute. auto 10. Qed.
Example C60_join_ex : path_joined "/etc/nginx" "../conf.d/*.conf" "/etc/conf.d/*.conf" /\ path_joined "" "" "" /\ path_joined "a" "" "a".
Proof. rewrite <- !C60_join_path. vm_compute. auto. Qed.
Example C60_dir_ex : directory "/etc/nginx/nginx.conf" "/etc/nginx" /\ directory "nginx.conf" "." /\ directory "/x" "/" /\ directory "a/b/" "a/b".
Proof. rewrite <- !C60_dir. vm_compute. auto. Qed.
Example C60_map_ex : assoc "a" (assoc_set "a" 2 [("b", 0); ("a", 1)]) = Some 2 /\ NoDup (map fst [("b", 0); ("a", 1)]) /\ mem_str "a" ["b"; "a"] = true.
Proof. split; [reflexivity|]. split; [|reflexivity]. repeat constructor; cbn; intuition discriminate. Qed.
