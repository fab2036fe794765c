(** Generated by tools/gen_genfix.py from internal/generator/generator_util_test.go. *)
From Verif Require Import Gen.
Local Open Scope string_scope.

Definition as_is (k : nat) (l : list string) : list string := l.
Definition backwards (k : nat) (l : list string) : list string := rev l.
Definition output (ord : nat -> list string -> list string) es flt ovr var fn cm : option string :=
  match generate_map ord es flt ovr with inl m => Some (render var fn cm m) | inr _ => None end.

(* normalDirectiveDefinition_pass *)
Definition src1 : list entry := [EDir "normalDefinition";
  EFile "normalDefinition/normal.c" (Some ("static ngx_command_t my_directives[] = {" ++ s_nl ++ s_nl ++ "    { ngx_string(" ++ s_dq ++ "my_directive_1" ++ s_dq ++ ")," ++ s_nl ++ "      NGX_HTTP_MAIN_CONF|NGX_CONF_TAKE2," ++ s_nl ++ "      0," ++ s_nl ++ "      0," ++ s_nl ++ "      0," ++ s_nl ++ "      NULL }, " ++ s_nl ++ "    { ngx_string(" ++ s_dq ++ "my_directive_2" ++ s_dq ++ ")," ++ s_nl ++ "      NGX_HTTP_MAIN_CONF|NGX_CONF_FLAG," ++ s_nl ++ "      0," ++ s_nl ++ "      0," ++ s_nl ++ "      0," ++ s_nl ++ "      NULL }," ++ s_nl ++ "    { ngx_string(" ++ s_dq ++ "my_directive_3" ++ s_dq ++ ")," ++ s_nl ++ "      NGX_HTTP_MAIN_CONF|NGX_HTTP_SRV_CONF|NGX_CONF_NOARGS," ++ s_nl ++ "      0," ++ s_nl ++ "      0," ++ s_nl ++ "      0," ++ s_nl ++ "      NULL }," ++ s_nl ++ s_nl ++ "    ngx_null_command" ++ s_nl ++ "};"))].
Definition want1 : option string := Some ("/**" ++ s_nl ++ " * Copyright (c) F5, Inc." ++ s_nl ++ " *" ++ s_nl ++ " * This source code is licensed under the Apache License, Version 2.0 license found in the" ++ s_nl ++ " * LICENSE file in the root directory of this source tree." ++ s_nl ++ " */" ++ s_nl ++ s_nl ++ "// Code generated by generator; DO NOT EDIT." ++ s_nl ++ "// All the definitions are extracted from the source code" ++ s_nl ++ "// Each bit mask describes these behaviors:" ++ s_nl ++ "//   - how many arguments the directive can take" ++ s_nl ++ "//   - whether or not it is a block directive" ++ s_nl ++ "//   - whether this is a flag (takes one argument that's either " ++ s_dq ++ "on" ++ s_dq ++ " or " ++ s_dq ++ "off" ++ s_dq ++ ")" ++ s_nl ++ "//   - which contexts it's allowed to be in" ++ s_nl ++ s_nl ++ "package crossplane" ++ s_nl ++ s_nl ++ "var myDirectives = map[string][]uint{" ++ s_nl ++ "    " ++ s_dq ++ "my_directive_1" ++ s_dq ++ ": {" ++ s_nl ++ "        ngxHTTPMainConf | ngxConfTake2," ++ s_nl ++ "    }," ++ s_nl ++ "    " ++ s_dq ++ "my_directive_2" ++ s_dq ++ ": {" ++ s_nl ++ "        ngxHTTPMainConf | ngxConfFlag," ++ s_nl ++ "    }," ++ s_nl ++ "    " ++ s_dq ++ "my_directive_3" ++ s_dq ++ ": {" ++ s_nl ++ "        ngxHTTPMainConf | ngxHTTPSrvConf | ngxConfNoArgs," ++ s_nl ++ "    }," ++ s_nl ++ "}" ++ s_nl ++ s_nl ++ s_nl ++ "func MyMatchFn(directive string) ([]uint, bool) {" ++ s_nl ++ "    m, ok := myDirectives[directive]" ++ s_nl ++ "    return m, ok" ++ s_nl ++ "}" ++ s_nl).
Example gen1_as_is : output as_is src1 [] [] "myDirectives" "MyMatchFn" "" = want1.
Proof. vm_compute. reflexivity. Qed.
Example gen1_backwards : output backwards src1 [] [] "myDirectives" "MyMatchFn" "" = want1.
Proof. vm_compute. reflexivity. Qed.

(* unknownBitmask_fail *)
Definition src2 : list entry := [EDir "unknownBitmask";
  EFile "unknownBitmask/unknownBitmask.c" (Some ("static ngx_command_t my_directives[] = {" ++ s_nl ++ s_nl ++ "    { ngx_string(" ++ s_dq ++ "my_directive_1" ++ s_dq ++ ")," ++ s_nl ++ "      NGX_HTTP_MAIN_CONF|FAKE_BITMASK, // unknown bitmask FAKE_BITMASK" ++ s_nl ++ "      0," ++ s_nl ++ "      0," ++ s_nl ++ "      0," ++ s_nl ++ "      NULL }, " ++ s_nl ++ "    { ngx_string(" ++ s_dq ++ "my_directive_2" ++ s_dq ++ ")," ++ s_nl ++ "      NGX_HTTP_MAIN_CONF|NGX_CONF_FLAG," ++ s_nl ++ "      0," ++ s_nl ++ "      0," ++ s_nl ++ "      0," ++ s_nl ++ "      NULL }," ++ s_nl ++ "    { ngx_string(" ++ s_dq ++ "my_directive_3" ++ s_dq ++ ")," ++ s_nl ++ "      NGX_HTTP_MAIN_CONF|NGX_HTTP_SRV_CONF|NGX_CONF_NOARGS," ++ s_nl ++ "      0," ++ s_nl ++ "      0," ++ s_nl ++ "      0," ++ s_nl ++ "      NULL }," ++ s_nl ++ s_nl ++ "    ngx_null_command" ++ s_nl ++ "};"))].
Definition want2 : option string := None.
Example gen2_as_is : output as_is src2 [] [] "directives" "Match" "" = want2.
Proof. vm_compute. reflexivity. Qed.
Example gen2_backwards : output backwards src2 [] [] "directives" "Match" "" = want2.
Proof. vm_compute. reflexivity. Qed.

(* noDirectivesDefinition_fail *)
Definition src3 : list entry := [EDir "noDirectives";
  EFile "noDirectives/noDirectives.c" (Some ("// nothing here"))].
Definition want3 : option string := None.
Example gen3_as_is : output as_is src3 [] [] "directives" "Match" "" = want3.
Proof. vm_compute. reflexivity. Qed.
Example gen3_backwards : output backwards src3 [] [] "directives" "Match" "" = want3.
Proof. vm_compute. reflexivity. Qed.

(* directiveRepeatDefine_pass *)
Definition src4 : list entry := [EDir "repeatDefine";
  EFile "repeatDefine/definition1.c" (Some ("static ngx_command_t my_directives[] = {" ++ s_nl ++ s_nl ++ "    { ngx_string(" ++ s_dq ++ "my_directive_1" ++ s_dq ++ ")," ++ s_nl ++ "      NGX_HTTP_MAIN_CONF|NGX_CONF_TAKE2," ++ s_nl ++ "      0," ++ s_nl ++ "      0," ++ s_nl ++ "      0," ++ s_nl ++ "      NULL }, /*comments will be igored by generator*/" ++ s_nl ++ "    { ngx_string(" ++ s_dq ++ "my_directive_2" ++ s_dq ++ ")," ++ s_nl ++ "      NGX_HTTP_MAIN_CONF|NGX_CONF_FLAG,/*comments will be igored by generator*/" ++ s_nl ++ "      0," ++ s_nl ++ "      0," ++ s_nl ++ "      0," ++ s_nl ++ "      NULL }," ++ s_nl ++ "    { ngx_string(" ++ s_dq ++ "my_directive_3" ++ s_dq ++ ")," ++ s_nl ++ "      NGX_HTTP_MAIN_CONF|NGX_HTTP_SRV_CONF|NGX_CONF_NOARGS,//comments will be igored by generator" ++ s_nl ++ "      0," ++ s_nl ++ "      0," ++ s_nl ++ "      0," ++ s_nl ++ "      NULL }," ++ s_nl ++ s_nl ++ "    ngx_null_command" ++ s_nl ++ "};"));
  EFile "repeatDefine/definition2.c" (Some ("static ngx_command_t my_directives[] = {" ++ s_nl ++ s_nl ++ "    { ngx_string(" ++ s_dq ++ "my_directive_1" ++ s_dq ++ ")," ++ s_nl ++ "      NGX_HTTP_MAIN_CONF|NGX_CONF_TAKE1," ++ s_nl ++ "      0," ++ s_nl ++ "      0," ++ s_nl ++ "      0," ++ s_nl ++ "      NULL }, /*comments will be igored by generator*/" ++ s_nl ++ "    { ngx_string(" ++ s_dq ++ "my_directive_2" ++ s_dq ++ ")," ++ s_nl ++ "      NGX_HTTP_MAIN_CONF|NGX_CONF_NOARGS,/*comments will be igored by generator*/" ++ s_nl ++ "      0," ++ s_nl ++ "      0," ++ s_nl ++ "      0," ++ s_nl ++ "      NULL }," ++ s_nl ++ "    { ngx_string(" ++ s_dq ++ "my_directive_3" ++ s_dq ++ ")," ++ s_nl ++ "      NGX_HTTP_MAIN_CONF|NGX_CONF_TAKE2,//comments will be igored by generator" ++ s_nl ++ "      0," ++ s_nl ++ "      0," ++ s_nl ++ "      0," ++ s_nl ++ "      NULL }," ++ s_nl ++ s_nl ++ "    ngx_null_command" ++ s_nl ++ "};"))].
Definition want4 : option string := Some ("/**" ++ s_nl ++ " * Copyright (c) F5, Inc." ++ s_nl ++ " *" ++ s_nl ++ " * This source code is licensed under the Apache License, Version 2.0 license found in the" ++ s_nl ++ " * LICENSE file in the root directory of this source tree." ++ s_nl ++ " */" ++ s_nl ++ s_nl ++ "// Code generated by generator; DO NOT EDIT." ++ s_nl ++ "// All the definitions are extracted from the source code" ++ s_nl ++ "// Each bit mask describes these behaviors:" ++ s_nl ++ "//   - how many arguments the directive can take" ++ s_nl ++ "//   - whether or not it is a block directive" ++ s_nl ++ "//   - whether this is a flag (takes one argument that's either " ++ s_dq ++ "on" ++ s_dq ++ " or " ++ s_dq ++ "off" ++ s_dq ++ ")" ++ s_nl ++ "//   - which contexts it's allowed to be in" ++ s_nl ++ s_nl ++ "package crossplane" ++ s_nl ++ s_nl ++ "var directives = map[string][]uint{" ++ s_nl ++ "    " ++ s_dq ++ "my_directive_1" ++ s_dq ++ ": {" ++ s_nl ++ "        ngxHTTPMainConf | ngxConfTake2," ++ s_nl ++ "        ngxHTTPMainConf | ngxConfTake1," ++ s_nl ++ "    }," ++ s_nl ++ "    " ++ s_dq ++ "my_directive_2" ++ s_dq ++ ": {" ++ s_nl ++ "        ngxHTTPMainConf | ngxConfFlag," ++ s_nl ++ "        ngxHTTPMainConf | ngxConfNoArgs," ++ s_nl ++ "    }," ++ s_nl ++ "    " ++ s_dq ++ "my_directive_3" ++ s_dq ++ ": {" ++ s_nl ++ "        ngxHTTPMainConf | ngxHTTPSrvConf | ngxConfNoArgs," ++ s_nl ++ "        ngxHTTPMainConf | ngxConfTake2," ++ s_nl ++ "    }," ++ s_nl ++ "}" ++ s_nl ++ s_nl ++ s_nl ++ "func Match(directive string) ([]uint, bool) {" ++ s_nl ++ "    m, ok := directives[directive]" ++ s_nl ++ "    return m, ok" ++ s_nl ++ "}" ++ s_nl).
Example gen4_as_is : output as_is src4 [] [] "directives" "Match" "" = want4.
Proof. vm_compute. reflexivity. Qed.
Example gen4_backwards : output backwards src4 [] [] "directives" "Match" "" = want4.
Proof. vm_compute. reflexivity. Qed.

(* commentsInDefinition_pass *)
Definition src5 : list entry := [EDir "commentsInDefinition";
  EFile "commentsInDefinition/with_comments.c" (Some ("static ngx_command_t my_directives[] = {" ++ s_nl ++ s_nl ++ "    { ngx_string(" ++ s_dq ++ "my_directive_1" ++ s_dq ++ ")," ++ s_nl ++ "      NGX_HTTP_MAIN_CONF|NGX_CONF_TAKE2/*igonre me*/," ++ s_nl ++ "      0," ++ s_nl ++ "      0," ++ s_nl ++ "      0," ++ s_nl ++ "      NULL }, " ++ s_nl ++ "    { ngx_string(" ++ s_dq ++ "my_directive_2" ++ s_dq ++ "/*igonre me*/)," ++ s_nl ++ "      NGX_HTTP_MAIN_CONF|NGX_CONF_FLAG," ++ s_nl ++ "      0," ++ s_nl ++ "      0," ++ s_nl ++ "      0," ++ s_nl ++ "      NULL }," ++ s_nl ++ "    { ngx_string(" ++ s_dq ++ "my_directive_3" ++ s_dq ++ ")," ++ s_nl ++ "      NGX_HTTP_MAIN_CONF|NGX_HTTP_SRV_CONF|NGX_CONF_NOARGS," ++ s_nl ++ "      0," ++ s_nl ++ "      0," ++ s_nl ++ "      0," ++ s_nl ++ "      NULL }," ++ s_nl ++ s_nl ++ "    ngx_null_command" ++ s_nl ++ "};"))].
Definition want5 : option string := Some ("/**" ++ s_nl ++ " * Copyright (c) F5, Inc." ++ s_nl ++ " *" ++ s_nl ++ " * This source code is licensed under the Apache License, Version 2.0 license found in the" ++ s_nl ++ " * LICENSE file in the root directory of this source tree." ++ s_nl ++ " */" ++ s_nl ++ s_nl ++ "// Code generated by generator; DO NOT EDIT." ++ s_nl ++ "// All the definitions are extracted from the source code" ++ s_nl ++ "// Each bit mask describes these behaviors:" ++ s_nl ++ "//   - how many arguments the directive can take" ++ s_nl ++ "//   - whether or not it is a block directive" ++ s_nl ++ "//   - whether this is a flag (takes one argument that's either " ++ s_dq ++ "on" ++ s_dq ++ " or " ++ s_dq ++ "off" ++ s_dq ++ ")" ++ s_nl ++ "//   - which contexts it's allowed to be in" ++ s_nl ++ s_nl ++ "package crossplane" ++ s_nl ++ s_nl ++ "var directives = map[string][]uint{" ++ s_nl ++ "    " ++ s_dq ++ "my_directive_1" ++ s_dq ++ ": {" ++ s_nl ++ "        ngxHTTPMainConf | ngxConfTake2," ++ s_nl ++ "    }," ++ s_nl ++ "    " ++ s_dq ++ "my_directive_2" ++ s_dq ++ ": {" ++ s_nl ++ "        ngxHTTPMainConf | ngxConfFlag," ++ s_nl ++ "    }," ++ s_nl ++ "    " ++ s_dq ++ "my_directive_3" ++ s_dq ++ ": {" ++ s_nl ++ "        ngxHTTPMainConf | ngxHTTPSrvConf | ngxConfNoArgs," ++ s_nl ++ "    }," ++ s_nl ++ "}" ++ s_nl ++ s_nl ++ s_nl ++ "func Match(directive string) ([]uint, bool) {" ++ s_nl ++ "    m, ok := directives[directive]" ++ s_nl ++ "    return m, ok" ++ s_nl ++ "}" ++ s_nl).
Example gen5_as_is : output as_is src5 [] [] "directives" "Match" "" = want5.
Proof. vm_compute. reflexivity. Qed.
Example gen5_backwards : output backwards src5 [] [] "directives" "Match" "" = want5.
Proof. vm_compute. reflexivity. Qed.

(* genFromSingleFile_pass *)
Definition src6 : list entry := [EFile "single_file.c" (Some ("static ngx_command_t my_directives[] = {" ++ s_nl ++ s_nl ++ "    { ngx_string(" ++ s_dq ++ "my_directive_1" ++ s_dq ++ ")," ++ s_nl ++ "      NGX_HTTP_MAIN_CONF|NGX_CONF_TAKE2," ++ s_nl ++ "      0," ++ s_nl ++ "      0," ++ s_nl ++ "      0," ++ s_nl ++ "      NULL }, " ++ s_nl ++ "    { ngx_string(" ++ s_dq ++ "my_directive_2" ++ s_dq ++ ")," ++ s_nl ++ "      NGX_HTTP_MAIN_CONF|NGX_CONF_FLAG," ++ s_nl ++ "      0," ++ s_nl ++ "      0," ++ s_nl ++ "      0," ++ s_nl ++ "      NULL }," ++ s_nl ++ s_nl ++ "    ngx_null_command" ++ s_nl ++ "};"))].
Definition want6 : option string := Some ("/**" ++ s_nl ++ " * Copyright (c) F5, Inc." ++ s_nl ++ " *" ++ s_nl ++ " * This source code is licensed under the Apache License, Version 2.0 license found in the" ++ s_nl ++ " * LICENSE file in the root directory of this source tree." ++ s_nl ++ " */" ++ s_nl ++ s_nl ++ "// Code generated by generator; DO NOT EDIT." ++ s_nl ++ "// All the definitions are extracted from the source code" ++ s_nl ++ "// Each bit mask describes these behaviors:" ++ s_nl ++ "//   - how many arguments the directive can take" ++ s_nl ++ "//   - whether or not it is a block directive" ++ s_nl ++ "//   - whether this is a flag (takes one argument that's either " ++ s_dq ++ "on" ++ s_dq ++ " or " ++ s_dq ++ "off" ++ s_dq ++ ")" ++ s_nl ++ "//   - which contexts it's allowed to be in" ++ s_nl ++ s_nl ++ "package crossplane" ++ s_nl ++ s_nl ++ "var directives = map[string][]uint{" ++ s_nl ++ "    " ++ s_dq ++ "my_directive_1" ++ s_dq ++ ": {" ++ s_nl ++ "        ngxHTTPMainConf | ngxConfTake2," ++ s_nl ++ "    }," ++ s_nl ++ "    " ++ s_dq ++ "my_directive_2" ++ s_dq ++ ": {" ++ s_nl ++ "        ngxHTTPMainConf | ngxConfFlag," ++ s_nl ++ "    }," ++ s_nl ++ "}" ++ s_nl ++ s_nl ++ s_nl ++ "func Match(directive string) ([]uint, bool) {" ++ s_nl ++ "    m, ok := directives[directive]" ++ s_nl ++ "    return m, ok" ++ s_nl ++ "}" ++ s_nl).
Example gen6_as_is : output as_is src6 [] [] "directives" "Match" "" = want6.
Proof. vm_compute. reflexivity. Qed.
Example gen6_backwards : output backwards src6 [] [] "directives" "Match" "" = want6.
Proof. vm_compute. reflexivity. Qed.

(* fullNgxBitmaskCover_pass *)
Definition src7 : list entry := [EDir "fullNgxBitmaskCover";
  EFile "fullNgxBitmaskCover/all_bitmask.c" (Some ("static ngx_command_t my_directives[] = {" ++ s_nl ++ s_nl ++ "    { ngx_string(" ++ s_dq ++ "all_bitmask" ++ s_dq ++ ")," ++ s_nl ++ "      NGX_CONF_NOARGS|NGX_CONF_TAKE1|" ++ s_nl ++ "      NGX_CONF_TAKE2|NGX_CONF_TAKE3|NGX_CONF_TAKE4|NGX_CONF_TAKE5|NGX_CONF_TAKE6|NGX_CONF_TAKE7|" ++ s_nl ++ "      NGX_CONF_TAKE12|NGX_CONF_TAKE13|NGX_CONF_TAKE23|NGX_CONF_TAKE123|NGX_CONF_TAKE1234|" ++ s_nl ++ "      NGX_CONF_BLOCK|NGX_CONF_FLAG|NGX_CONF_ANY|NGX_CONF_1MORE|" ++ s_nl ++ "      NGX_CONF_2MORE|NGX_DIRECT_CONF|NGX_MAIN_CONF" ++ s_nl ++ "      ," ++ s_nl ++ "      0," ++ s_nl ++ "      0," ++ s_nl ++ "      NULL }, " ++ s_nl ++ s_nl ++ "    ngx_null_command" ++ s_nl ++ "};"))].
Definition want7 : option string := Some ("/**" ++ s_nl ++ " * Copyright (c) F5, Inc." ++ s_nl ++ " *" ++ s_nl ++ " * This source code is licensed under the Apache License, Version 2.0 license found in the" ++ s_nl ++ " * LICENSE file in the root directory of this source tree." ++ s_nl ++ " */" ++ s_nl ++ s_nl ++ "// Code generated by generator; DO NOT EDIT." ++ s_nl ++ "// All the definitions are extracted from the source code" ++ s_nl ++ "// Each bit mask describes these behaviors:" ++ s_nl ++ "//   - how many arguments the directive can take" ++ s_nl ++ "//   - whether or not it is a block directive" ++ s_nl ++ "//   - whether this is a flag (takes one argument that's either " ++ s_dq ++ "on" ++ s_dq ++ " or " ++ s_dq ++ "off" ++ s_dq ++ ")" ++ s_nl ++ "//   - which contexts it's allowed to be in" ++ s_nl ++ s_nl ++ "package crossplane" ++ s_nl ++ s_nl ++ "var directives = map[string][]uint{" ++ s_nl ++ "    " ++ s_dq ++ "all_bitmask" ++ s_dq ++ ": {" ++ s_nl ++ "        ngxConfNoArgs | ngxConfTake1 | ngxConfTake2 | ngxConfTake3 | ngxConfTake4 | ngxConfTake5 | ngxConfTake6 | ngxConfTake7 | ngxConfTake12 | ngxConfTake13 | ngxConfTake23 | ngxConfTake123 | ngxConfTake1234 | ngxConfBlock | ngxConfFlag | ngxConfAny | ngxConf1More | ngxConf2More | ngxDirectConf | ngxMainConf," ++ s_nl ++ "    }," ++ s_nl ++ "}" ++ s_nl ++ s_nl ++ s_nl ++ "func Match(directive string) ([]uint, bool) {" ++ s_nl ++ "    m, ok := directives[directive]" ++ s_nl ++ "    return m, ok" ++ s_nl ++ "}" ++ s_nl).
Example gen7_as_is : output as_is src7 [] [] "directives" "Match" "" = want7.
Proof. vm_compute. reflexivity. Qed.
Example gen7_backwards : output backwards src7 [] [] "directives" "Match" "" = want7.
Proof. vm_compute. reflexivity. Qed.

(* testFilter_pass *)
Definition src8 : list entry := [EDir "filter";
  EFile "filter/filter.c" (Some ("static ngx_command_t my_directives[] = {" ++ s_nl ++ s_nl ++ "    { ngx_string(" ++ s_dq ++ "my_directive_1" ++ s_dq ++ ")," ++ s_nl ++ "      NGX_HTTP_MAIN_CONF|NGX_CONF_TAKE2," ++ s_nl ++ "      0," ++ s_nl ++ "      0," ++ s_nl ++ "      0," ++ s_nl ++ "      NULL }, " ++ s_nl ++ "    { ngx_string(" ++ s_dq ++ "my_directive_2" ++ s_dq ++ ")," ++ s_nl ++ "      NGX_HTTP_MAIN_CONF|NGX_CONF_FLAG," ++ s_nl ++ "      0," ++ s_nl ++ "      0," ++ s_nl ++ "      0," ++ s_nl ++ "      NULL }," ++ s_nl ++ "    { ngx_string(" ++ s_dq ++ "my_directive_3" ++ s_dq ++ ")," ++ s_nl ++ "      NGX_HTTP_MAIN_CONF|NGX_HTTP_SRV_CONF|NGX_CONF_NOARGS," ++ s_nl ++ "      0," ++ s_nl ++ "      0," ++ s_nl ++ "      0," ++ s_nl ++ "      NULL }," ++ s_nl ++ "      { ngx_string(" ++ s_dq ++ "my_directive_4" ++ s_dq ++ ")," ++ s_nl ++ "      NGX_HTTP_MAIN_CONF|NGX_HTTP_SRV_CONF|NGX_CONF_TAKE4," ++ s_nl ++ "      0," ++ s_nl ++ "      0," ++ s_nl ++ "      0," ++ s_nl ++ "      NULL }," ++ s_nl ++ s_nl ++ "    ngx_null_command" ++ s_nl ++ "};"))].
Definition want8 : option string := Some ("/**" ++ s_nl ++ " * Copyright (c) F5, Inc." ++ s_nl ++ " *" ++ s_nl ++ " * This source code is licensed under the Apache License, Version 2.0 license found in the" ++ s_nl ++ " * LICENSE file in the root directory of this source tree." ++ s_nl ++ " */" ++ s_nl ++ s_nl ++ "// Code generated by generator; DO NOT EDIT." ++ s_nl ++ "// All the definitions are extracted from the source code" ++ s_nl ++ "// Each bit mask describes these behaviors:" ++ s_nl ++ "//   - how many arguments the directive can take" ++ s_nl ++ "//   - whether or not it is a block directive" ++ s_nl ++ "//   - whether this is a flag (takes one argument that's either " ++ s_dq ++ "on" ++ s_dq ++ " or " ++ s_dq ++ "off" ++ s_dq ++ ")" ++ s_nl ++ "//   - which contexts it's allowed to be in" ++ s_nl ++ s_nl ++ "package crossplane" ++ s_nl ++ s_nl ++ "var directives = map[string][]uint{" ++ s_nl ++ "    " ++ s_dq ++ "my_directive_1" ++ s_dq ++ ": {" ++ s_nl ++ "        ngxHTTPMainConf | ngxConfTake2," ++ s_nl ++ "    }," ++ s_nl ++ "    " ++ s_dq ++ "my_directive_4" ++ s_dq ++ ": {" ++ s_nl ++ "        ngxHTTPMainConf | ngxHTTPSrvConf | ngxConfTake4," ++ s_nl ++ "    }," ++ s_nl ++ "}" ++ s_nl ++ s_nl ++ s_nl ++ "func Match(directive string) ([]uint, bool) {" ++ s_nl ++ "    m, ok := directives[directive]" ++ s_nl ++ "    return m, ok" ++ s_nl ++ "}" ++ s_nl).
Example gen8_as_is : output as_is src8 ["my_directive_2"; "my_directive_3"] [] "directives" "Match" "" = want8.
Proof. vm_compute. reflexivity. Qed.
Example gen8_backwards : output backwards src8 ["my_directive_2"; "my_directive_3"] [] "directives" "Match" "" = want8.
Proof. vm_compute. reflexivity. Qed.

(* testOverride_pass *)
Definition src9 : list entry := [EDir "override";
  EFile "override/override.c" (Some ("static ngx_command_t my_directives[] = {" ++ s_nl ++ s_nl ++ "    { ngx_string(" ++ s_dq ++ "my_directive_1" ++ s_dq ++ ")," ++ s_nl ++ "      NGX_HTTP_MAIN_CONF|NGX_CONF_TAKE2," ++ s_nl ++ "      0," ++ s_nl ++ "      0," ++ s_nl ++ "      0," ++ s_nl ++ "      NULL }, " ++ s_nl ++ "    { ngx_string(" ++ s_dq ++ "my_directive_2" ++ s_dq ++ ")," ++ s_nl ++ "      NGX_HTTP_MAIN_CONF|NGX_CONF_FLAG," ++ s_nl ++ "      0," ++ s_nl ++ "      0," ++ s_nl ++ "      0," ++ s_nl ++ "      NULL }," ++ s_nl ++ "    { ngx_string(" ++ s_dq ++ "my_directive_3" ++ s_dq ++ ")," ++ s_nl ++ "      NGX_HTTP_MAIN_CONF|NGX_HTTP_SRV_CONF|NGX_CONF_NOARGS," ++ s_nl ++ "      0," ++ s_nl ++ "      0," ++ s_nl ++ "      0," ++ s_nl ++ "      NULL }," ++ s_nl ++ "      { ngx_string(" ++ s_dq ++ "my_directive_4" ++ s_dq ++ ")," ++ s_nl ++ "      NGX_HTTP_MAIN_CONF|NGX_HTTP_SRV_CONF|NGX_CONF_TAKE4," ++ s_nl ++ "      0," ++ s_nl ++ "      0," ++ s_nl ++ "      0," ++ s_nl ++ "      NULL }," ++ s_nl ++ s_nl ++ "    ngx_null_command" ++ s_nl ++ "};"))].
Definition want9 : option string := Some ("/**" ++ s_nl ++ " * Copyright (c) F5, Inc." ++ s_nl ++ " *" ++ s_nl ++ " * This source code is licensed under the Apache License, Version 2.0 license found in the" ++ s_nl ++ " * LICENSE file in the root directory of this source tree." ++ s_nl ++ " */" ++ s_nl ++ s_nl ++ "// Code generated by generator; DO NOT EDIT." ++ s_nl ++ "// All the definitions are extracted from the source code" ++ s_nl ++ "// Each bit mask describes these behaviors:" ++ s_nl ++ "//   - how many arguments the directive can take" ++ s_nl ++ "//   - whether or not it is a block directive" ++ s_nl ++ "//   - whether this is a flag (takes one argument that's either " ++ s_dq ++ "on" ++ s_dq ++ " or " ++ s_dq ++ "off" ++ s_dq ++ ")" ++ s_nl ++ "//   - which contexts it's allowed to be in" ++ s_nl ++ s_nl ++ "package crossplane" ++ s_nl ++ s_nl ++ "var directives = map[string][]uint{" ++ s_nl ++ "    " ++ s_dq ++ "my_directive_1" ++ s_dq ++ ": {" ++ s_nl ++ "        ngxHTTPMainConf | ngxConfTake1," ++ s_nl ++ "        ngxHTTPMainConf | ngxConfTake2," ++ s_nl ++ "    }," ++ s_nl ++ "    " ++ s_dq ++ "my_directive_2" ++ s_dq ++ ": {" ++ s_nl ++ "        ngxHTTPMainConf | ngxConfFlag," ++ s_nl ++ "    }," ++ s_nl ++ "    " ++ s_dq ++ "my_directive_3" ++ s_dq ++ ": {" ++ s_nl ++ "        ngxHTTPMainConf | ngxConfTake2," ++ s_nl ++ "        ngxHTTPMainConf | ngxConfTake3," ++ s_nl ++ "    }," ++ s_nl ++ "    " ++ s_dq ++ "my_directive_4" ++ s_dq ++ ": {" ++ s_nl ++ "        ngxHTTPMainConf | ngxHTTPSrvConf | ngxConfTake4," ++ s_nl ++ "    }," ++ s_nl ++ "}" ++ s_nl ++ s_nl ++ s_nl ++ "func Match(directive string) ([]uint, bool) {" ++ s_nl ++ "    m, ok := directives[directive]" ++ s_nl ++ "    return m, ok" ++ s_nl ++ "}" ++ s_nl).
Example gen9_as_is : output as_is src9 [] [("my_directive_1", [["ngxHTTPMainConf"; "ngxConfTake1"]; ["ngxHTTPMainConf"; "ngxConfTake2"]]); ("my_directive_3", [["ngxHTTPMainConf"; "ngxConfTake2"]; ["ngxHTTPMainConf"; "ngxConfTake3"]])] "directives" "Match" "" = want9.
Proof. vm_compute. reflexivity. Qed.
Example gen9_backwards : output backwards src9 [] [("my_directive_1", [["ngxHTTPMainConf"; "ngxConfTake1"]; ["ngxHTTPMainConf"; "ngxConfTake2"]]); ("my_directive_3", [["ngxHTTPMainConf"; "ngxConfTake2"]; ["ngxHTTPMainConf"; "ngxConfTake3"]])] "directives" "Match" "" = want9.
Proof. vm_compute. reflexivity. Qed.

(* testFilterAndOverride_pass *)
Definition src10 : list entry := [EDir "filterAndOverride";
  EFile "filterAndOverride/filter_and_override.c" (Some ("static ngx_command_t my_directives[] = {" ++ s_nl ++ s_nl ++ "    { ngx_string(" ++ s_dq ++ "my_directive_1" ++ s_dq ++ ")," ++ s_nl ++ "      NGX_HTTP_MAIN_CONF|NGX_CONF_TAKE2," ++ s_nl ++ "      0," ++ s_nl ++ "      0," ++ s_nl ++ "      0," ++ s_nl ++ "      NULL }, " ++ s_nl ++ "    { ngx_string(" ++ s_dq ++ "my_directive_2" ++ s_dq ++ ")," ++ s_nl ++ "      NGX_HTTP_MAIN_CONF|NGX_CONF_FLAG," ++ s_nl ++ "      0," ++ s_nl ++ "      0," ++ s_nl ++ "      0," ++ s_nl ++ "      NULL }," ++ s_nl ++ "    { ngx_string(" ++ s_dq ++ "my_directive_3" ++ s_dq ++ ")," ++ s_nl ++ "      NGX_HTTP_MAIN_CONF|NGX_HTTP_SRV_CONF|NGX_CONF_NOARGS," ++ s_nl ++ "      0," ++ s_nl ++ "      0," ++ s_nl ++ "      0," ++ s_nl ++ "      NULL }," ++ s_nl ++ "      { ngx_string(" ++ s_dq ++ "my_directive_4" ++ s_dq ++ ")," ++ s_nl ++ "      NGX_HTTP_MAIN_CONF|NGX_HTTP_SRV_CONF|NGX_CONF_TAKE4," ++ s_nl ++ "      0," ++ s_nl ++ "      0," ++ s_nl ++ "      0," ++ s_nl ++ "      NULL }," ++ s_nl ++ s_nl ++ "    ngx_null_command" ++ s_nl ++ "};"))].
Definition want10 : option string := Some ("/**" ++ s_nl ++ " * Copyright (c) F5, Inc." ++ s_nl ++ " *" ++ s_nl ++ " * This source code is licensed under the Apache License, Version 2.0 license found in the" ++ s_nl ++ " * LICENSE file in the root directory of this source tree." ++ s_nl ++ " */" ++ s_nl ++ s_nl ++ "// Code generated by generator; DO NOT EDIT." ++ s_nl ++ "// All the definitions are extracted from the source code" ++ s_nl ++ "// Each bit mask describes these behaviors:" ++ s_nl ++ "//   - how many arguments the directive can take" ++ s_nl ++ "//   - whether or not it is a block directive" ++ s_nl ++ "//   - whether this is a flag (takes one argument that's either " ++ s_dq ++ "on" ++ s_dq ++ " or " ++ s_dq ++ "off" ++ s_dq ++ ")" ++ s_nl ++ "//   - which contexts it's allowed to be in" ++ s_nl ++ s_nl ++ "package crossplane" ++ s_nl ++ s_nl ++ "var directives = map[string][]uint{" ++ s_nl ++ "    " ++ s_dq ++ "my_directive_4" ++ s_dq ++ ": {" ++ s_nl ++ "        ngxHTTPMainConf | ngxConfTake2," ++ s_nl ++ "        ngxHTTPMainConf | ngxConfTake3," ++ s_nl ++ "    }," ++ s_nl ++ "}" ++ s_nl ++ s_nl ++ s_nl ++ "func Match(directive string) ([]uint, bool) {" ++ s_nl ++ "    m, ok := directives[directive]" ++ s_nl ++ "    return m, ok" ++ s_nl ++ "}" ++ s_nl).
Example gen10_as_is : output as_is src10 ["my_directive_1"; "my_directive_2"; "my_directive_3"] [("my_directive_1", [["ngxHTTPMainConf"; "ngxConfTake1"]; ["ngxHTTPMainConf"; "ngxConfTake2"]]); ("my_directive_3", [["ngxHTTPMainConf"; "ngxConfTake2"]; ["ngxHTTPMainConf"; "ngxConfTake3"]]); ("my_directive_4", [["ngxHTTPMainConf"; "ngxConfTake2"]; ["ngxHTTPMainConf"; "ngxConfTake3"]])] "directives" "Match" "" = want10.
Proof. vm_compute. reflexivity. Qed.
Example gen10_backwards : output backwards src10 ["my_directive_1"; "my_directive_2"; "my_directive_3"] [("my_directive_1", [["ngxHTTPMainConf"; "ngxConfTake1"]; ["ngxHTTPMainConf"; "ngxConfTake2"]]); ("my_directive_3", [["ngxHTTPMainConf"; "ngxConfTake2"]; ["ngxHTTPMainConf"; "ngxConfTake3"]]); ("my_directive_4", [["ngxHTTPMainConf"; "ngxConfTake2"]; ["ngxHTTPMainConf"; "ngxConfTake3"]])] "directives" "Match" "" = want10.
Proof. vm_compute. reflexivity. Qed.

(* withMatchFuncComment_pass *)
Definition src11 : list entry := [EDir "withMatchFuncComment";
  EFile "withMatchFuncComment/commentOnMatchFn.c" (Some ("static ngx_command_t my_directives[] = {" ++ s_nl ++ s_nl ++ "    { ngx_string(" ++ s_dq ++ "my_directive_1" ++ s_dq ++ ")," ++ s_nl ++ "      NGX_HTTP_MAIN_CONF|NGX_CONF_TAKE2," ++ s_nl ++ "      0," ++ s_nl ++ "      0," ++ s_nl ++ "      0," ++ s_nl ++ "      NULL }, " ++ s_nl ++ "    { ngx_string(" ++ s_dq ++ "my_directive_2" ++ s_dq ++ ")," ++ s_nl ++ "      NGX_HTTP_MAIN_CONF|NGX_CONF_FLAG," ++ s_nl ++ "      0," ++ s_nl ++ "      0," ++ s_nl ++ "      0," ++ s_nl ++ "      NULL }," ++ s_nl ++ "    { ngx_string(" ++ s_dq ++ "my_directive_3" ++ s_dq ++ ")," ++ s_nl ++ "      NGX_HTTP_MAIN_CONF|NGX_HTTP_SRV_CONF|NGX_CONF_NOARGS," ++ s_nl ++ "      0," ++ s_nl ++ "      0," ++ s_nl ++ "      0," ++ s_nl ++ "      NULL }," ++ s_nl ++ s_nl ++ "    ngx_null_command" ++ s_nl ++ "};"))].
Definition want11 : option string := Some ("/**" ++ s_nl ++ " * Copyright (c) F5, Inc." ++ s_nl ++ " *" ++ s_nl ++ " * This source code is licensed under the Apache License, Version 2.0 license found in the" ++ s_nl ++ " * LICENSE file in the root directory of this source tree." ++ s_nl ++ " */" ++ s_nl ++ s_nl ++ "// Code generated by generator; DO NOT EDIT." ++ s_nl ++ "// All the definitions are extracted from the source code" ++ s_nl ++ "// Each bit mask describes these behaviors:" ++ s_nl ++ "//   - how many arguments the directive can take" ++ s_nl ++ "//   - whether or not it is a block directive" ++ s_nl ++ "//   - whether this is a flag (takes one argument that's either " ++ s_dq ++ "on" ++ s_dq ++ " or " ++ s_dq ++ "off" ++ s_dq ++ ")" ++ s_nl ++ "//   - which contexts it's allowed to be in" ++ s_nl ++ s_nl ++ "package crossplane" ++ s_nl ++ s_nl ++ "var myDirectives = map[string][]uint{" ++ s_nl ++ "    " ++ s_dq ++ "my_directive_1" ++ s_dq ++ ": {" ++ s_nl ++ "        ngxHTTPMainConf | ngxConfTake2," ++ s_nl ++ "    }," ++ s_nl ++ "    " ++ s_dq ++ "my_directive_2" ++ s_dq ++ ": {" ++ s_nl ++ "        ngxHTTPMainConf | ngxConfFlag," ++ s_nl ++ "    }," ++ s_nl ++ "    " ++ s_dq ++ "my_directive_3" ++ s_dq ++ ": {" ++ s_nl ++ "        ngxHTTPMainConf | ngxHTTPSrvConf | ngxConfNoArgs," ++ s_nl ++ "    }," ++ s_nl ++ "}" ++ s_nl ++ s_nl ++ "// This is a matchFunc" ++ s_nl ++ "func MyMatchFn(directive string) ([]uint, bool) {" ++ s_nl ++ "    m, ok := myDirectives[directive]" ++ s_nl ++ "    return m, ok" ++ s_nl ++ "}" ++ s_nl).
Example gen11_as_is : output as_is src11 [] [] "myDirectives" "MyMatchFn" "This is a matchFunc" = want11.
Proof. vm_compute. reflexivity. Qed.
Example gen11_backwards : output backwards src11 [] [] "myDirectives" "MyMatchFn" "This is a matchFunc" = want11.
Proof. vm_compute. reflexivity. Qed.
