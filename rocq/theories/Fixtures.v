(** Generated by tools/gen_fixtures.py from the tests of /repo; do not edit.
    The model is run on the inputs of lex_test.go, parse_test.go and build_test.go and
    compared with the expectations written there (tests of fidelity, not proofs). *)
From Verif Require Import Main Build Lua Tables.
Local Open Scope string_scope.

Definition fs_open (fs : list (string * string)) (p : string) : string + string :=
  match assoc p fs with
  | Some c => inl c
  | None => inr ("open " ++ p ++ ": no such file or directory")
  end.
Definition fs_glob (g : list (string * list string)) (p : string) : list string + string :=
  inl (match assoc p g with Some l => l | None => [] end).
Definition cmp_print := fun r => (ascii_print r || N.leb 0x400 r)%bool.
Definition tok_pair (t : token) := (t_val t, t_line t).
Definition pay_view (p : payload) :=
  (pl_status p, map (fun e => (py_file e, py_line e, err_string (py_err e))) (pl_errors p),
   map (fun c => (cf_file c, cf_status c, map (fun e => (ce_line e, err_string (ce_err e))) (cf_errors c)))
       (pl_config p)).
Definition view_ok (r : result) (v : _) (ds : list (list directive)) : Prop :=
  match r with
  | ROk p => pay_view p = v /\ forall2b (forall2b dir_equal) (map cf_parsed (pl_config p)) ds = true
  | _ => False
  end.
(* TestParse does not compare lines; one fixture has a wrong line. *)
Fixpoint no_line (d : directive) : directive :=
  Dir (d_name d) 0 (d_args d) (d_file d) (d_includes d)
      (match d_block d with Some b => Some (map no_line b) | None => None end) (d_comment d) (d_ismap d).
Definition view_ok_nl (r : result) (v : _) (ds : list (list directive)) : Prop :=
  match r with
  | ROk p => pay_view p = v /\ forall2b (forall2b dir_equal)
       (map (fun c => map no_line (cf_parsed c)) (pl_config p)) (map (map no_line) ds) = true
  | _ => False
  end.

Definition fs_simple : list (string * string) := [
  ("testdata/configs/simple/nginx.conf", "events {
    worker_connections 1024;
}

http {
    server {
        listen       127.0.0.1:8080;
        server_name  default_server;
        location / {
            return 200 ""foo bar baz"";
        }
    }
}
");
  ("testdata/configs/simple/nginx.json", "{
  ""status"": ""ok"",
  ""errors"": [],
  ""config"": [
    {
      ""file"": ""testdata/configs/simple/nginx.conf"",
      ""status"": ""ok"",
      ""errors"": [],
      ""parsed"": [
        {
          ""directive"": ""events"",
          ""line"": 1,
          ""args"": [],
          ""block"": [
            {
              ""directive"": ""worker_connections"",
              ""line"": 2,
              ""args"": [
                ""1024""
              ]
            }
          ]
        },
        {
          ""directive"": ""http"",
          ""line"": 5,
          ""args"": [],
          ""block"": [
            {
              ""directive"": ""server"",
              ""line"": 6,
              ""args"": [],
              ""block"": [
                {
                  ""directive"": ""listen"",
                  ""line"": 7,
                  ""args"": [
                    ""127.0.0.1:8080""
                  ]
                },
                {
                  ""directive"": ""server_name"",
                  ""line"": 8,
                  ""args"": [
                    ""default_server""
                  ]
                },
                {
                  ""directive"": ""location"",
                  ""line"": 9,
                  ""args"": [
                    ""/""
                  ],
                  ""block"": [
                    {
                      ""directive"": ""return"",
                      ""line"": 10,
                      ""args"": [
                        ""200"",
                        ""foo bar baz""
                      ]
                    }
                  ]
                }
              ]
            }
          ]
        }
      ]
    }
  ]
}
");
  ("testdata/configs/simple/xp.json", "{
  ""status"": ""ok"",
  ""errors"": [],
  ""config"": [
    {
      ""file"": ""testdata/configs/simple/nginx.conf"",
      ""status"": ""ok"",
      ""errors"": [],
      ""parsed"": [
        {
          ""directive"": ""events"",
          ""line"": 1,
          ""args"": [],
          ""block"": [
            {
              ""directive"": ""worker_connections"",
              ""line"": 2,
              ""args"": [
                ""1024""
              ]
            }
          ]
        },
        {
          ""directive"": ""http"",
          ""line"": 5,
          ""args"": [],
          ""block"": [
            {
              ""directive"": ""server"",
              ""line"": 6,
              ""args"": [],
              ""block"": [
                {
                  ""directive"": ""listen"",
                  ""line"": 7,
                  ""args"": [
                    ""127.0.0.1:8080""
                  ]
                },
                {
                  ""directive"": ""server_name"",
                  ""line"": 8,
                  ""args"": [
                    ""default_server""
                  ]
                },
                {
                  ""directive"": ""location"",
                  ""line"": 9,
                  ""args"": [
                    ""/""
                  ],
                  ""block"": [
                    {
                      ""directive"": ""return"",
                      ""line"": 10,
                      ""args"": [
                        ""200"",
                        ""foo bar baz""
                      ]
                    }
                  ]
                }
              ]
            }
          ]
        }
      ]
    }
  ]
}
")].
Definition fs_simple_globs : list (string * list string) := [].

Example lex_1 : match assoc "testdata/configs/simple/nginx.conf" fs_simple with Some c => map tok_pair (lex lua_lexers c) | None => [] end = [("events", (1)%Z); ("{", (1)%Z); ("worker_connections", (2)%Z); ("1024", (2)%Z); (";", (2)%Z); ("}", (3)%Z); ("http", (5)%Z); ("{", (5)%Z); ("server", (6)%Z); ("{", (6)%Z); ("listen", (7)%Z); ("127.0.0.1:8080", (7)%Z); (";", (7)%Z); ("server_name", (8)%Z); ("default_server", (8)%Z); (";", (8)%Z); ("location", (9)%Z); ("/", (9)%Z); ("{", (9)%Z); ("return", (10)%Z); ("200", (10)%Z); ("foo bar baz", (10)%Z); (";", (10)%Z); ("}", (11)%Z); ("}", (12)%Z); ("}", (13)%Z)].
Proof. vm_compute. reflexivity. Qed.

Definition fs_with_comments : list (string * string) := [
  ("testdata/configs/with-comments/nginx.conf", "events {
    worker_connections 1024;
}
#comment
http {
    server {
        listen       127.0.0.1:8080; #listen
        server_name  default_server;
        location / { ## this is brace
            # location /
            return 200 ""foo bar baz"";
        }
    }
}
");
  ("testdata/configs/with-comments/nginx.json", "{
  ""status"": ""ok"",
  ""errors"": [],
  ""config"": [
    {
      ""file"": ""testdata/configs/with-comments/nginx.conf"",
      ""status"": ""ok"",
      ""errors"": [],
      ""parsed"": [
        {
          ""directive"": ""events"",
          ""line"": 1,
          ""args"": [],
          ""block"": [
            {
              ""directive"": ""worker_connections"",
              ""line"": 2,
              ""args"": [
                ""1024""
              ]
            }
          ]
        },
        {
          ""directive"": ""#"",
          ""line"": 4,
          ""args"": [],
          ""comment"": ""comment""
        },
        {
          ""directive"": ""http"",
          ""line"": 5,
          ""args"": [],
          ""block"": [
            {
              ""directive"": ""server"",
              ""line"": 6,
              ""args"": [],
              ""block"": [
                {
                  ""directive"": ""listen"",
                  ""line"": 7,
                  ""args"": [
                    ""127.0.0.1:8080""
                  ]
                },
                {
                  ""directive"": ""#"",
                  ""line"": 7,
                  ""args"": [],
                  ""comment"": ""listen""
                },
                {
                  ""directive"": ""server_name"",
                  ""line"": 8,
                  ""args"": [
                    ""default_server""
                  ]
                },
                {
                  ""directive"": ""location"",
                  ""line"": 9,
                  ""args"": [
                    ""/""
                  ],
                  ""block"": [
                    {
                      ""directive"": ""#"",
                      ""line"": 9,
                      ""args"": [],
                      ""comment"": ""# this is brace""
                    },
                    {
                      ""directive"": ""#"",
                      ""line"": 10,
                      ""args"": [],
                      ""comment"": "" location /""
                    },
                    {
                      ""directive"": ""return"",
                      ""line"": 11,
                      ""args"": [
                        ""200"",
                        ""foo bar baz""
                      ]
                    }
                  ]
                }
              ]
            },
            {
              ""directive"": ""server"",
              ""line"": 14,
              ""args"": [],
              ""block"": [
                {
                  ""directive"": ""listen"",
                  ""line"": 15,
                  ""args"": [
                    ""80""
                  ]
                },
                {
                  ""directive"": ""server_name"",
                  ""line"": 16,
                  ""args"": [
                    ""prod""
                  ]
                },
                {
                  ""directive"": ""location"",
                  ""line"": 17,
                  ""args"": [
                    ""/""
                  ],
                  ""block"": [
                    {
                      ""directive"": ""return"",
                      ""line"": 18,
                      ""args"": [
                        ""200"",
                        ""whirled peas""
                      ]
                    }
                  ]
                }
              ]
            }
          ]
        }
      ]
    }
  ]
}
");
  ("testdata/configs/with-comments/xp.json", "{
  ""status"": ""ok"",
  ""errors"": [],
  ""config"": [
    {
      ""file"": ""testdata/configs/with-comments/nginx.conf"",
      ""status"": ""ok"",
      ""errors"": [],
      ""parsed"": [
        {
          ""directive"": ""events"",
          ""line"": 1,
          ""args"": [],
          ""block"": [
            {
              ""directive"": ""worker_connections"",
              ""line"": 2,
              ""args"": [
                ""1024""
              ]
            }
          ]
        },
        {
          ""directive"": ""#"",
          ""line"": 4,
          ""args"": [],
          ""comment"": ""comment""
        },
        {
          ""directive"": ""http"",
          ""line"": 5,
          ""args"": [],
          ""block"": [
            {
              ""directive"": ""server"",
              ""line"": 6,
              ""args"": [],
              ""block"": [
                {
                  ""directive"": ""listen"",
                  ""line"": 7,
                  ""args"": [
                    ""127.0.0.1:8080""
                  ]
                },
                {
                  ""directive"": ""#"",
                  ""line"": 7,
                  ""args"": [],
                  ""comment"": ""listen""
                },
                {
                  ""directive"": ""server_name"",
                  ""line"": 8,
                  ""args"": [
                    ""default_server""
                  ]
                },
                {
                  ""directive"": ""location"",
                  ""line"": 9,
                  ""args"": [
                    ""/""
                  ],
                  ""block"": [
                    {
                      ""directive"": ""#"",
                      ""line"": 9,
                      ""args"": [],
                      ""comment"": ""# this is brace""
                    },
                    {
                      ""directive"": ""#"",
                      ""line"": 10,
                      ""args"": [],
                      ""comment"": "" location /""
                    },
                    {
                      ""directive"": ""return"",
                      ""line"": 11,
                      ""args"": [
                        ""200"",
                        ""foo bar baz""
                      ]
                    }
                  ]
                }
              ]
            },
            {
              ""directive"": ""server"",
              ""line"": 14,
              ""args"": [],
              ""block"": [
                {
                  ""directive"": ""listen"",
                  ""line"": 15,
                  ""args"": [
                    ""80""
                  ]
                },
                {
                  ""directive"": ""server_name"",
                  ""line"": 16,
                  ""args"": [
                    ""prod""
                  ]
                },
                {
                  ""directive"": ""location"",
                  ""line"": 17,
                  ""args"": [
                    ""/""
                  ],
                  ""block"": [
                    {
                      ""directive"": ""return"",
                      ""line"": 18,
                      ""args"": [
                        ""200"",
                        ""whirled peas""
                      ]
                    }
                  ]
                }
              ]
            }
          ]
        }
      ]
    }
  ]
}
")].
Definition fs_with_comments_globs : list (string * list string) := [].

Example lex_2 : match assoc "testdata/configs/with-comments/nginx.conf" fs_with_comments with Some c => map tok_pair (lex lua_lexers c) | None => [] end = [("events", (1)%Z); ("{", (1)%Z); ("worker_connections", (2)%Z); ("1024", (2)%Z); (";", (2)%Z); ("}", (3)%Z); ("#comment", (4)%Z); ("http", (5)%Z); ("{", (5)%Z); ("server", (6)%Z); ("{", (6)%Z); ("listen", (7)%Z); ("127.0.0.1:8080", (7)%Z); (";", (7)%Z); ("#listen", (7)%Z); ("server_name", (8)%Z); ("default_server", (8)%Z); (";", (8)%Z); ("location", (9)%Z); ("/", (9)%Z); ("{", (9)%Z); ("## this is brace", (9)%Z); ("# location /", (10)%Z); ("return", (11)%Z); ("200", (11)%Z); ("foo bar baz", (11)%Z); (";", (11)%Z); ("}", (12)%Z); ("}", (13)%Z); ("}", (14)%Z)].
Proof. vm_compute. reflexivity. Qed.

Definition fs_messy : list (string * string) := [
  ("testdata/configs/messy/nginx.conf", "user nobody;
# hello\n\\n\\\n worlddd  \#\\#\\\# dfsf\n \\n \\\n \
""events"" { ""worker_connections"" ""2048""; }

""http"" {#forteen
    # this is a comment
    ""access_log"" off;default_type ""text/plain""; error_log ""off"";
    server {
        ""listen"" ""8083""            ;
        ""return"" 200 ""Ser\"" ' ' ver\\ \ $server_addr:\$server_port\n\nTime: $time_local\n\n"";
    }
    ""server"" {""listen"" 8080;
        'root' /usr/share/nginx/html;
        location ~ ""/hello/world;""{""return"" 301 /status.html;}
        location /foo{}location /bar{}
        location /\{\;\}\ #\ ab {}# hello
        if ($request_method = P\{O\)\###\;ST  ){}
        location ""/status.html"" {
            try_files /abc/${uri} /abc/${uri}.html =404 ;
        }
        ""location"" ""/sta;
                    tus"" {""return"" 302 /status.html;}
        ""location"" /upstream_conf { ""return"" 200 /status.html; }}
    server
                {}}
");
  ("testdata/configs/messy/nginx.json", "{
  ""status"": ""ok"",
  ""errors"": [],
  ""config"": [
    {
      ""file"": ""testdata/configs/messy/nginx.conf"",
      ""status"": ""ok"",
      ""errors"": [],
      ""parsed"": [
        {
          ""directive"": ""user"",
          ""line"": 1,
          ""args"": [
            ""nobody""
          ]
        },
        {
          ""directive"": ""#"",
          ""line"": 2,
          ""args"": [],
          ""comment"": "" hello\\n\\\\n\\\\\\n worlddd  \\#\\\\#\\\\\\# dfsf\\n \\\\n \\\\\\n ""
        },
        {
          ""directive"": ""events"",
          ""line"": 3,
          ""args"": [],
          ""block"": [
            {
              ""directive"": ""worker_connections"",
              ""line"": 3,
              ""args"": [
                ""2048""
              ]
            }
          ]
        },
        {
          ""directive"": ""http"",
          ""line"": 5,
          ""args"": [],
          ""block"": [
            {
              ""directive"": ""#"",
              ""line"": 5,
              ""args"": [],
              ""comment"": ""forteen""
            },
            {
              ""directive"": ""#"",
              ""line"": 6,
              ""args"": [],
              ""comment"": "" this is a comment""
            },
            {
              ""directive"": ""access_log"",
              ""line"": 7,
              ""args"": [
                ""off""
              ]
            },
            {
              ""directive"": ""default_type"",
              ""line"": 7,
              ""args"": [
                ""text/plain""
              ]
            },
            {
              ""directive"": ""error_log"",
              ""line"": 7,
              ""args"": [
                ""off""
              ]
            },
            {
              ""directive"": ""server"",
              ""line"": 8,
              ""args"": [],
              ""block"": [
                {
                  ""directive"": ""listen"",
                  ""line"": 9,
                  ""args"": [
                    ""8083""
                  ]
                },
                {
                  ""directive"": ""return"",
                  ""line"": 10,
                  ""args"": [
                    ""200"",
                    ""Ser\"" ' ' ver\\\\ \\ $server_addr:\\$server_port\\n\\nTime: $time_local\\n\\n""
                  ]
                }
              ]
            },
            {
              ""directive"": ""server"",
              ""line"": 12,
              ""args"": [],
              ""block"": [
                {
                  ""directive"": ""listen"",
                  ""line"": 12,
                  ""args"": [
                    ""8080""
                  ]
                },
                {
                  ""directive"": ""root"",
                  ""line"": 13,
                  ""args"": [
                    ""/usr/share/nginx/html""
                  ]
                },
                {
                  ""directive"": ""location"",
                  ""line"": 14,
                  ""args"": [
                    ""~"",
                    ""/hello/world;""
                  ],
                  ""block"": [
                    {
                      ""directive"": ""return"",
                      ""line"": 14,
                      ""args"": [
                        ""301"",
                        ""/status.html""
                      ]
                    }
                  ]
                },
                {
                  ""directive"": ""location"",
                  ""line"": 15,
                  ""args"": [
                    ""/foo""
                  ],
                  ""block"": []
                },
                {
                  ""directive"": ""location"",
                  ""line"": 15,
                  ""args"": [
                    ""/bar""
                  ],
                  ""block"": []
                },
                {
                  ""directive"": ""location"",
                  ""line"": 16,
                  ""args"": [
                    ""/\\{\\;\\}\\ #\\ ab""
                  ],
                  ""block"": []
                },
                {
                  ""directive"": ""#"",
                  ""line"": 16,
                  ""args"": [],
                  ""comment"": "" hello""
                },
                {
                  ""directive"": ""if"",
                  ""line"": 17,
                  ""args"": [
                    ""$request_method"",
                    ""="",
                    ""P\\{O\\)\\###\\;ST""
                  ],
                  ""block"": []
                },
                {
                  ""directive"": ""location"",
                  ""line"": 18,
                  ""args"": [
                    ""/status.html""
                  ],
                  ""block"": [
                    {
                      ""directive"": ""try_files"",
                      ""line"": 19,
                      ""args"": [
                        ""/abc/${uri} /abc/${uri}.html"",
                        ""=404""
                      ]
                    }
                  ]
                },
                {
                  ""directive"": ""location"",
                  ""line"": 21,
                  ""args"": [
                    ""/sta;\n                    tus""
                  ],
                  ""block"": [
                    {
                      ""directive"": ""return"",
                      ""line"": 22,
                      ""args"": [
                        ""302"",
                        ""/status.html""
                      ]
                    }
                  ]
                },
                {
                  ""directive"": ""location"",
                  ""line"": 23,
                  ""args"": [
                    ""/upstream_conf""
                  ],
                  ""block"": [
                    {
                      ""directive"": ""return"",
                      ""line"": 23,
                      ""args"": [
                        ""200"",
                        ""/status.html""
                      ]
                    }
                  ]
                }
              ]
            },
            {
              ""directive"": ""server"",
              ""line"": 24,
              ""args"": [],
              ""block"": []
            }
          ]
        }
      ]
    }
  ]
}
");
  ("testdata/configs/messy/off", "")].
Definition fs_messy_globs : list (string * list string) := [].

Example lex_3 : match assoc "testdata/configs/messy/nginx.conf" fs_messy with Some c => map tok_pair (lex lua_lexers c) | None => [] end = [("user", (1)%Z); ("nobody", (1)%Z); (";", (1)%Z); ("# hello\n\\n\\\n worlddd  \#\\#\\\# dfsf\n \\n \\\n ", (2)%Z); ("events", (3)%Z); ("{", (3)%Z); ("worker_connections", (3)%Z); ("2048", (3)%Z); (";", (3)%Z); ("}", (3)%Z); ("http", (5)%Z); ("{", (5)%Z); ("#forteen", (5)%Z); ("# this is a comment", (6)%Z); ("access_log", (7)%Z); ("off", (7)%Z); (";", (7)%Z); ("default_type", (7)%Z); ("text/plain", (7)%Z); (";", (7)%Z); ("error_log", (7)%Z); ("off", (7)%Z); (";", (7)%Z); ("server", (8)%Z); ("{", (8)%Z); ("listen", (9)%Z); ("8083", (9)%Z); (";", (9)%Z); ("return", (10)%Z); ("200", (10)%Z); ("Ser"" ' ' ver\\ \ $server_addr:\$server_port\n\nTime: $time_local\n\n", (10)%Z); (";", (10)%Z); ("}", (11)%Z); ("server", (12)%Z); ("{", (12)%Z); ("listen", (12)%Z); ("8080", (12)%Z); (";", (12)%Z); ("root", (13)%Z); ("/usr/share/nginx/html", (13)%Z); (";", (13)%Z); ("location", (14)%Z); ("~", (14)%Z); ("/hello/world;", (14)%Z); ("{", (14)%Z); ("return", (14)%Z); ("301", (14)%Z); ("/status.html", (14)%Z); (";", (14)%Z); ("}", (14)%Z); ("location", (15)%Z); ("/foo", (15)%Z); ("{", (15)%Z); ("}", (15)%Z); ("location", (15)%Z); ("/bar", (15)%Z); ("{", (15)%Z); ("}", (15)%Z); ("location", (16)%Z); ("/\{\;\}\ #\ ab", (16)%Z); ("{", (16)%Z); ("}", (16)%Z); ("# hello", (16)%Z); ("if", (17)%Z); ("($request_method", (17)%Z); ("=", (17)%Z); ("P\{O\)\###\;ST", (17)%Z); (")", (17)%Z); ("{", (17)%Z); ("}", (17)%Z); ("location", (18)%Z); ("/status.html", (18)%Z); ("{", (18)%Z); ("try_files", (19)%Z); ("/abc/${uri}", (19)%Z); ("/abc/${uri}.html", (19)%Z); ("=404", (19)%Z); (";", (19)%Z); ("}", (20)%Z); ("location", (21)%Z); ("/sta;
                    tus", (21)%Z); ("{", (22)%Z); ("return", (22)%Z); ("302", (22)%Z); ("/status.html", (22)%Z); (";", (22)%Z); ("}", (22)%Z); ("location", (23)%Z); ("/upstream_conf", (23)%Z); ("{", (23)%Z); ("return", (23)%Z); ("200", (23)%Z); ("/status.html", (23)%Z); (";", (23)%Z); ("}", (23)%Z); ("}", (23)%Z); ("server", (24)%Z); ("{", (25)%Z); ("}", (25)%Z); ("}", (25)%Z)].
Proof. vm_compute. reflexivity. Qed.

Definition fs_quote_behavior : list (string * string) := [
  ("testdata/configs/quote-behavior/nginx.conf", """outer-quote"" ""left""-quote right-""quote"" inner""-""quote;
"""" """"left-empty right-empty"""" inner""""empty right-empty-single"";
");
  ("testdata/configs/quote-behavior/nginx.json", "{
  ""status"": ""ok"",
  ""errors"": [],
  ""config"": [
    {
      ""file"": ""testdata/configs/quote-behavior/nginx.conf"",
      ""status"": ""ok"",
      ""errors"": [],
      ""parsed"": [
        {
          ""directive"": ""outer-quote"",
          ""line"": 1,
          ""args"": [
            ""left"",
            ""-quote"",
            ""right-\""quote\"""",
            ""inner\""-\""quote""
          ]
        },
        {
          ""directive"": """",
          ""line"": 2,
          ""args"": [
            """",
            ""left-empty"",
            ""right-empty\""\"""",
            ""inner\""\""empty"",
            ""right-empty-single\""""
          ]
        }
      ]
    }
  ]
}
");
  ("testdata/configs/quote-behavior/xp.json", "{
  ""status"": ""ok"",
  ""errors"": [],
  ""config"": [
    {
      ""file"": ""testdata/configs/quote-behavior/nginx.conf"",
      ""status"": ""ok"",
      ""errors"": [],
      ""parsed"": [
        {
          ""directive"": ""outer-quote"",
          ""line"": 1,
          ""args"": [
            ""left"",
            ""-quote"",
            ""right-\""quote\"""",
            ""inner\""-\""quote""
          ]
        },
        {
          ""directive"": """",
          ""line"": 2,
          ""args"": [
            """",
            ""left-empty"",
            ""right-empty\""\"""",
            ""inner\""\""empty"",
            ""right-empty-single\""""
          ]
        }
      ]
    }
  ]
}
")].
Definition fs_quote_behavior_globs : list (string * list string) := [].

Example lex_4 : match assoc "testdata/configs/quote-behavior/nginx.conf" fs_quote_behavior with Some c => map tok_pair (lex lua_lexers c) | None => [] end = [("outer-quote", (1)%Z); ("left", (1)%Z); ("-quote", (1)%Z); ("right-""quote""", (1)%Z); ("inner""-""quote", (1)%Z); (";", (1)%Z); ("", (2)%Z); ("", (2)%Z); ("left-empty", (2)%Z); ("right-empty""""", (2)%Z); ("inner""""empty", (2)%Z); ("right-empty-single""", (2)%Z); (";", (2)%Z)].
Proof. vm_compute. reflexivity. Qed.

Definition fs_quoted_right_brace : list (string * string) := [
  ("testdata/configs/quoted-right-brace/nginx.conf", "events {}
http {
    log_format main escape=json
        '{ ""@timestamp"": ""$time_iso8601"", '
          '""server_name"": ""$server_name"", '
          '""host"": ""$host"", '
          '""status"": ""$status"", '
          '""request"": ""$request"", '
          '""uri"": ""$uri"", '
          '""args"": ""$args"", '
          '""https"": ""$https"", '
          '""request_method"": ""$request_method"", '
          '""referer"": ""$http_referer"", '
          '""agent"": ""$http_user_agent""'
        '}';
}
");
  ("testdata/configs/quoted-right-brace/nginx.json", "{
  ""status"": ""ok"",
  ""errors"": [],
  ""config"": [
    {
      ""file"": ""testdata/configs/quoted-right-brace/nginx.conf"",
      ""status"": ""ok"",
      ""errors"": [],
      ""parsed"": [
        {
          ""directive"": ""events"",
          ""line"": 1,
          ""args"": [],
          ""block"": []
        },
        {
          ""directive"": ""http"",
          ""line"": 2,
          ""args"": [],
          ""block"": [
            {
              ""directive"": ""log_format"",
              ""line"": 3,
              ""args"": [
                ""main"",
                ""escape=json"",
                ""{ \""@timestamp\"": \""$time_iso8601\"", "",
                ""\""server_name\"": \""$server_name\"", "",
                ""\""host\"": \""$host\"", "",
                ""\""status\"": \""$status\"", "",
                ""\""request\"": \""$request\"", "",
                ""\""uri\"": \""$uri\"", "",
                ""\""args\"": \""$args\"", "",
                ""\""https\"": \""$https\"", "",
                ""\""request_method\"": \""$request_method\"", "",
                ""\""referer\"": \""$http_referer\"", "",
                ""\""agent\"": \""$http_user_agent\"""",
                ""}""
              ]
            }
          ]
        }
      ]
    }
  ]
}
");
  ("testdata/configs/quoted-right-brace/xp.json", "{
  ""status"": ""ok"",
  ""errors"": [],
  ""config"": [
    {
      ""file"": ""testdata/configs/quoted-right-brace/nginx.conf"",
      ""status"": ""ok"",
      ""errors"": [],
      ""parsed"": [
        {
          ""directive"": ""events"",
          ""line"": 1,
          ""args"": []
        },
        {
          ""directive"": ""http"",
          ""line"": 2,
          ""args"": [],
          ""block"": [
            {
              ""directive"": ""log_format"",
              ""line"": 3,
              ""args"": [
                ""main"",
                ""escape=json"",
                ""{ \""@timestamp\"": \""$time_iso8601\"", "",
                ""\""server_name\"": \""$server_name\"", "",
                ""\""host\"": \""$host\"", "",
                ""\""status\"": \""$status\"", "",
                ""\""request\"": \""$request\"", "",
                ""\""uri\"": \""$uri\"", "",
                ""\""args\"": \""$args\"", "",
                ""\""https\"": \""$https\"", "",
                ""\""request_method\"": \""$request_method\"", "",
                ""\""referer\"": \""$http_referer\"", "",
                ""\""agent\"": \""$http_user_agent\"""",
                ""}""
              ]
            }
          ]
        }
      ]
    }
  ]
}
")].
Definition fs_quoted_right_brace_globs : list (string * list string) := [].

Example lex_5 : match assoc "testdata/configs/quoted-right-brace/nginx.conf" fs_quoted_right_brace with Some c => map tok_pair (lex lua_lexers c) | None => [] end = [("events", (1)%Z); ("{", (1)%Z); ("}", (1)%Z); ("http", (2)%Z); ("{", (2)%Z); ("log_format", (3)%Z); ("main", (3)%Z); ("escape=json", (3)%Z); ("{ ""@timestamp"": ""$time_iso8601"", ", (4)%Z); ("""server_name"": ""$server_name"", ", (5)%Z); ("""host"": ""$host"", ", (6)%Z); ("""status"": ""$status"", ", (7)%Z); ("""request"": ""$request"", ", (8)%Z); ("""uri"": ""$uri"", ", (9)%Z); ("""args"": ""$args"", ", (10)%Z); ("""https"": ""$https"", ", (11)%Z); ("""request_method"": ""$request_method"", ", (12)%Z); ("""referer"": ""$http_referer"", ", (13)%Z); ("""agent"": ""$http_user_agent""", (14)%Z); ("}", (15)%Z); (";", (15)%Z); ("}", (16)%Z)].
Proof. vm_compute. reflexivity. Qed.

Definition fs_lua_basic : list (string * string) := [
  ("testdata/configs/lua-basic/nginx.conf", "http {
    init_by_lua '
        print(""I need no extra escaping here, for example: \r\nblah"")
    ';
    lua_shared_dict dogs 1m;
    server {
        listen 8080;
        location / {
            set_by_lua $res ' return 32 + math.cos(32) ';
            access_by_lua_file /path/to/lua/access.lua;
        }
    }
}
");
  ("testdata/configs/lua-basic/nginx.json", "{
  ""status"": ""ok"",
  ""errors"": [],
  ""config"": [
    {
      ""file"": ""testdata/configs/lua-block-larger/nginx.conf"",
      ""status"": ""ok"",
      ""errors"": [],
      ""parsed"": [
        {
          ""directive"": ""http"",
          ""line"": 1,
          ""args"": [],
          ""block"": [
            {
              ""directive"": ""init_by_lua"",
              ""line"": 2,
              ""args"": [
                ""\n        print(\""I need no extra escaping here, for example: \\r\\nblah\"")\n    ""
              ]
            },
            {
              ""directive"": ""lua_shared_dict"",
              ""line"": 5,
              ""args"": [
                ""dogs"",
                ""1m""
              ]
            },
            {
              ""directive"": ""server"",
              ""line"": 6,
              ""args"": [],
              ""block"": [
                {
                  ""directive"": ""listen"",
                  ""line"": 7,
                  ""args"": [
                    ""8080""
                  ]
                },
                {
                  ""directive"": ""location"",
                  ""line"": 8,
                  ""args"": [
                    ""/""
                  ],
                  ""block"": [
                    {
                      ""directive"": ""set_by_lua"",
                      ""line"": 9,
                      ""args"": [
                        ""$res"",
                        "" return 32 + math.cos(32) ""
                      ]
                    },
                    {
                      ""directive"": ""access_by_lua_file"",
                      ""line"": 10,
                      ""args"": [
                        ""/path/to/lua/access.lua""
                      ]
                    }
                  ]
                }
              ]
            }
          ]
        }
      ]
    }
  ]
}
");
  ("testdata/configs/lua-basic/xp.json", "{
  ""status"": ""ok"",
  ""errors"": [],
  ""config"": [
    {
      ""file"": ""testdata/configs/lua-block-larger/nginx.conf"",
      ""status"": ""ok"",
      ""errors"": [],
      ""parsed"": [
        {
          ""directive"": ""http"",
          ""line"": 1,
          ""args"": [],
          ""block"": [
            {
              ""directive"": ""init_by_lua"",
              ""line"": 2,
              ""args"": [
                ""\n        print(\""I need no extra escaping here, for example: \\r\\nblah\"")\n    ""
              ]
            },
            {
              ""directive"": ""lua_shared_dict"",
              ""line"": 5,
              ""args"": [
                ""dogs"",
                ""1m""
              ]
            },
            {
              ""directive"": ""server"",
              ""line"": 6,
              ""args"": [],
              ""block"": [
                {
                  ""directive"": ""listen"",
                  ""line"": 7,
                  ""args"": [
                    ""8080""
                  ]
                },
                {
                  ""directive"": ""location"",
                  ""line"": 8,
                  ""args"": [
                    ""/""
                  ],
                  ""block"": [
                    {
                      ""directive"": ""set_by_lua"",
                      ""line"": 9,
                      ""args"": [
                        ""$res"",
                        "" return 32 + math.cos(32) ""
                      ]
                    },
                    {
                      ""directive"": ""access_by_lua_file"",
                      ""line"": 10,
                      ""args"": [
                        ""/path/to/lua/access.lua""
                      ]
                    }
                  ]
                }
              ]
            }
          ]
        }
      ]
    }
  ]
}
")].
Definition fs_lua_basic_globs : list (string * list string) := [].

Example lex_6 : match assoc "testdata/configs/lua-basic/nginx.conf" fs_lua_basic with Some c => map tok_pair (lex lua_lexers c) | None => [] end = [("http", (1)%Z); ("{", (1)%Z); ("init_by_lua", (2)%Z); ("
        print(""I need no extra escaping here, for example: \r\nblah"")
    ", (2)%Z); (";", (4)%Z); ("lua_shared_dict", (5)%Z); ("dogs", (5)%Z); ("1m", (5)%Z); (";", (5)%Z); ("server", (6)%Z); ("{", (6)%Z); ("listen", (7)%Z); ("8080", (7)%Z); (";", (7)%Z); ("location", (8)%Z); ("/", (8)%Z); ("{", (8)%Z); ("set_by_lua", (9)%Z); ("$res", (9)%Z); (" return 32 + math.cos(32) ", (9)%Z); (";", (9)%Z); ("access_by_lua_file", (10)%Z); ("/path/to/lua/access.lua", (10)%Z); (";", (10)%Z); ("}", (11)%Z); ("}", (12)%Z); ("}", (13)%Z)].
Proof. vm_compute. reflexivity. Qed.

Definition fs_lua_block_simple : list (string * string) := [
  ("testdata/configs/lua-block-simple/nginx.conf", "http {
    init_by_lua_block {
        print(""Lua block code with curly brace str {"")
    }
    init_worker_by_lua_block {
        print(""Work that every worker"")
    }
    body_filter_by_lua_block {
        local data, eof = ngx.arg[1], ngx.arg[2]
    }
    header_filter_by_lua_block {
        ngx.header[""content-length""] = nil
    }
    server {
        listen       127.0.0.1:8080;
        location / {
            content_by_lua_block {
                ngx.say(""I need no extra escaping here, for example: \r\nblah"")
            }
            return 200 ""foo bar baz"";
        }
        ssl_certificate_by_lua_block {
            print(""About to initiate a new SSL handshake!"")
        }
        log_by_lua_block {
            print(""I need no extra escaping here, for example: \r\nblah"")
        }
        location /a {
            client_max_body_size 100k;
            client_body_buffer_size 100k;
        }
    }

    upstream foo {
        server 127.0.0.1;
        balancer_by_lua_block {
            -- use Lua to do something interesting here
        }
    }
}
");
  ("testdata/configs/lua-block-simple/nginx.json", "{
  ""status"": ""ok"",
  ""errors"": [],
  ""config"": [
    {
      ""file"": ""testdata/configs/lua-block-simple/nginx.conf"",
      ""status"": ""ok"",
      ""errors"": [],
      ""parsed"": [
        {
          ""directive"": ""http"",
          ""line"": 1,
          ""args"": [],
          ""block"": [
            {
              ""directive"": ""init_by_lua_block"",
              ""line"": 2,
              ""args"": [
                ""\n        print(\""Lua block code with curly brace str {\"")\n    ""
              ]
            },
            {
              ""directive"": ""init_worker_by_lua_block"",
              ""line"": 5,
              ""args"": [
                ""\n        print(\""Work that every worker\"")\n    ""
              ]
            },
            {
              ""directive"": ""body_filter_by_lua_block"",
              ""line"": 8,
              ""args"": [
                ""\n        local data, eof = ngx.arg[1], ngx.arg[2]\n    ""
              ]
            },
            {
              ""directive"": ""header_filter_by_lua_block"",
              ""line"": 11,
              ""args"": [
                ""\n        ngx.header[\""content-length\""] = nil\n    ""
              ]
            },
            {
              ""directive"": ""server"",
              ""line"": 14,
              ""args"": [],
              ""block"": [
                {
                  ""directive"": ""listen"",
                  ""line"": 15,
                  ""args"": [
                    ""127.0.0.1:8080""
                  ]
                },
                {
                  ""directive"": ""location"",
                  ""line"": 16,
                  ""args"": [
                    ""/""
                  ],
                  ""block"": [
                    {
                      ""directive"": ""content_by_lua_block"",
                      ""line"": 17,
                      ""args"": [
                        ""\n                ngx.say(\""I need no extra escaping here, for example: \\r\\nblah\"")\n            ""
                      ]
                    },
                    {
                      ""directive"": ""return"",
                      ""line"": 20,
                      ""args"": [
                        ""200"",
                        ""foo bar baz""
                      ]
                    }
                  ]
                },
                {
                  ""directive"": ""ssl_certificate_by_lua_block"",
                  ""line"": 22,
                  ""args"": [
                    ""\n            print(\""About to initiate a new SSL handshake!\"")\n        ""
                  ]
                },
                {
                  ""directive"": ""log_by_lua_block"",
                  ""line"": 25,
                  ""args"": [
                    ""\n            print(\""I need no extra escaping here, for example: \\r\\nblah\"")\n        ""
                  ]
                },
                {
                  ""directive"": ""location"",
                  ""line"": 28,
                  ""args"": [
                    ""/a""
                  ],
                  ""block"": [
                    {
                      ""directive"": ""client_max_body_size"",
                      ""line"": 29,
                      ""args"": [
                        ""100k""
                      ]
                    },
                    {
                      ""directive"": ""client_body_buffer_size"",
                      ""line"": 30,
                      ""args"": [
                        ""100k""
                      ]
                    }
                  ]
                }
              ]
            },
            {
              ""directive"": ""upstream"",
              ""line"": 34,
              ""args"": [
                ""foo""
              ],
              ""block"": [
                {
                  ""directive"": ""server"",
                  ""line"": 35,
                  ""args"": [
                    ""127.0.0.1""
                  ]
                },
                {
                  ""directive"": ""balancer_by_lua_block"",
                  ""line"": 36,
                  ""args"": [
                    ""\n            -- use Lua to do something interesting here\n        ""
                  ]
                }
              ]
            }
          ]
        }
      ]
    }
  ]
}
");
  ("testdata/configs/lua-block-simple/simple.conf", "http {
    init_by_lua_block {
        print(""Lua block code with a line"")
        print(""Lua block code with another line"")
    }
    init_worker_by_lua_block {
        print(""Work that every worker"")
    }
    body_filter_by_lua_block {
        local data, eof = ngx.arg[1], ngx.arg[2]
    }
    header_filter_by_lua_block {
        ngx.header[""content-length""] = nil
    }
    server {
        listen       127.0.0.1:8080;
        location / {
            content_by_lua_block {
                ngx.say(""I need no extra escaping here, for example: \r\nblah"")
            }
            return 200 ""foo bar baz"";
        }
        ssl_certificate_by_lua_block {
            print(""About to initiate a new SSL handshake!"")
        }
        location /a {
            client_max_body_size 100k;
            client_body_buffer_size 100k;
        }
    }

    upstream foo {
        server 127.0.0.1;
        balancer_by_lua_block {
            -- use Lua that'll do something interesting here with external bracket for testing {
        }
        log_by_lua_block {
            print(""I need no extra escaping here, for example: \r\nblah"")
        }
    }
}
");
  ("testdata/configs/lua-block-simple/xp.json", "{
  ""status"": ""ok"",
  ""errors"": [],
  ""config"": [
    {
      ""file"": ""testdata/configs/lua-block-simple/nginx.conf"",
      ""status"": ""ok"",
      ""errors"": [],
      ""parsed"": [
        {
          ""directive"": ""http"",
          ""line"": 1,
          ""args"": [],
          ""block"": [
            {
              ""directive"": ""init_by_lua_block"",
              ""line"": 2,
              ""args"": [
                ""\n        print(\""Lua block code with curly brace str {\"")\n    ""
              ]
            },
            {
              ""directive"": ""init_worker_by_lua_block"",
              ""line"": 5,
              ""args"": [
                ""\n        print(\""Work that every worker\"")\n    ""
              ]
            },
            {
              ""directive"": ""body_filter_by_lua_block"",
              ""line"": 8,
              ""args"": [
                ""\n        local data, eof = ngx.arg[1], ngx.arg[2]\n    ""
              ]
            },
            {
              ""directive"": ""header_filter_by_lua_block"",
              ""line"": 11,
              ""args"": [
                ""\n        ngx.header[\""content-length\""] = nil\n    ""
              ]
            },
            {
              ""directive"": ""server"",
              ""line"": 14,
              ""args"": [],
              ""block"": [
                {
                  ""directive"": ""listen"",
                  ""line"": 15,
                  ""args"": [
                    ""127.0.0.1:8080""
                  ]
                },
                {
                  ""directive"": ""location"",
                  ""line"": 16,
                  ""args"": [
                    ""/""
                  ],
                  ""block"": [
                    {
                      ""directive"": ""content_by_lua_block"",
                      ""line"": 17,
                      ""args"": [
                        ""\n                ngx.say(\""I need no extra escaping here, for example: \\r\\nblah\"")\n            ""
                      ]
                    },
                    {
                      ""directive"": ""return"",
                      ""line"": 20,
                      ""args"": [
                        ""200"",
                        ""foo bar baz""
                      ]
                    }
                  ]
                },
                {
                  ""directive"": ""ssl_certificate_by_lua_block"",
                  ""line"": 22,
                  ""args"": [
                    ""\n            print(\""About to initiate a new SSL handshake!\"")\n        ""
                  ]
                },
                {
                  ""directive"": ""log_by_lua_block"",
                  ""line"": 25,
                  ""args"": [
                    ""\n            print(\""I need no extra escaping here, for example: \\r\\nblah\"")\n        ""
                  ]
                },
                {
                  ""directive"": ""location"",
                  ""line"": 28,
                  ""args"": [
                    ""/a""
                  ],
                  ""block"": [
                    {
                      ""directive"": ""client_max_body_size"",
                      ""line"": 29,
                      ""args"": [
                        ""100k""
                      ]
                    },
                    {
                      ""directive"": ""client_body_buffer_size"",
                      ""line"": 30,
                      ""args"": [
                        ""100k""
                      ]
                    }
                  ]
                }
              ]
            },
            {
              ""directive"": ""upstream"",
              ""line"": 34,
              ""args"": [
                ""foo""
              ],
              ""block"": [
                {
                  ""directive"": ""server"",
                  ""line"": 35,
                  ""args"": [
                    ""127.0.0.1""
                  ]
                },
                {
                  ""directive"": ""balancer_by_lua_block"",
                  ""line"": 36,
                  ""args"": [
                    ""\n            -- use Lua to do something interesting here\n        ""
                  ]
                }
              ]
            }
          ]
        }
      ]
    }
  ]
}
")].
Definition fs_lua_block_simple_globs : list (string * list string) := [].

Example lex_7 : match assoc "testdata/configs/lua-block-simple/nginx.conf" fs_lua_block_simple with Some c => map tok_pair (lex lua_lexers c) | None => [] end = [("http", (1)%Z); ("{", (1)%Z); ("init_by_lua_block", (2)%Z); ("
        print(""Lua block code with curly brace str {"")
    ", (4)%Z); (";", (4)%Z); ("init_worker_by_lua_block", (5)%Z); ("
        print(""Work that every worker"")
    ", (7)%Z); (";", (7)%Z); ("body_filter_by_lua_block", (8)%Z); ("
        local data, eof = ngx.arg[1], ngx.arg[2]
    ", (10)%Z); (";", (10)%Z); ("header_filter_by_lua_block", (11)%Z); ("
        ngx.header[""content-length""] = nil
    ", (13)%Z); (";", (13)%Z); ("server", (14)%Z); ("{", (14)%Z); ("listen", (15)%Z); ("127.0.0.1:8080", (15)%Z); (";", (15)%Z); ("location", (16)%Z); ("/", (16)%Z); ("{", (16)%Z); ("content_by_lua_block", (17)%Z); ("
                ngx.say(""I need no extra escaping here, for example: \r\nblah"")
            ", (19)%Z); (";", (19)%Z); ("return", (20)%Z); ("200", (20)%Z); ("foo bar baz", (20)%Z); (";", (20)%Z); ("}", (21)%Z); ("ssl_certificate_by_lua_block", (22)%Z); ("
            print(""About to initiate a new SSL handshake!"")
        ", (24)%Z); (";", (24)%Z); ("log_by_lua_block", (25)%Z); ("
            print(""I need no extra escaping here, for example: \r\nblah"")
        ", (27)%Z); (";", (27)%Z); ("location", (28)%Z); ("/a", (28)%Z); ("{", (28)%Z); ("client_max_body_size", (29)%Z); ("100k", (29)%Z); (";", (29)%Z); ("client_body_buffer_size", (30)%Z); ("100k", (30)%Z); (";", (30)%Z); ("}", (31)%Z); ("}", (32)%Z); ("upstream", (34)%Z); ("foo", (34)%Z); ("{", (34)%Z); ("server", (35)%Z); ("127.0.0.1", (35)%Z); (";", (35)%Z); ("balancer_by_lua_block", (36)%Z); ("
            -- use Lua to do something interesting here
        ", (38)%Z); (";", (38)%Z); ("}", (39)%Z); ("}", (40)%Z)].
Proof. vm_compute. reflexivity. Qed.

Definition fs_lua_block_larger : list (string * string) := [
  ("testdata/configs/lua-block-larger/nginx.conf", "http {
    access_by_lua_block {
        -- check the client IP address is in our black list
        if ngx.var.remote_addr == ""132.5.72.3"" then
            ngx.exit(ngx.HTTP_FORBIDDEN)
        end

        -- check if the URI contains bad words
        if ngx.var.uri and
               string.match(ngx.var.request_body, ""evil"")
        then
            return ngx.redirect(""/terms_of_use.html"")
        end

        -- tests passed
    }
    server {
        listen       127.0.0.1:8080;
        location / {
            content_by_lua_block {
                ngx.req.read_body()  -- explicitly read the req body
                local data = ngx.req.get_body_data()
                if data then
                    ngx.say(""body data:"")
                    ngx.print(data)
                    return
                end

                -- body may get buffered in a temp file:
                local file = ngx.req.get_body_file()
                if file then
                    ngx.say(""body is in file "", file)
                else
                    ngx.say(""no body found"")
                end
            }
            return 200 ""foo bar baz"";
        }
    }
}
");
  ("testdata/configs/lua-block-larger/nginx.json", "{
  ""status"": ""ok"",
  ""errors"": [],
  ""config"": [
    {
      ""file"": ""testdata/configs/lua-block-larger/nginx.conf"",
      ""status"": ""ok"",
      ""errors"": [],
      ""parsed"": [
        {
          ""directive"": ""http"",
          ""line"": 1,
          ""args"": [],
          ""block"": [
            {
              ""directive"": ""access_by_lua_block"",
              ""line"": 2,
              ""args"": [
                ""\n        -- check the client IP address is in our black list\n        if ngx.var.remote_addr == \""132.5.72.3\"" then\n            ngx.exit(ngx.HTTP_FORBIDDEN)\n        end\n\n        -- check if the URI contains bad words\n        if ngx.var.uri and\n               string.match(ngx.var.request_body, \""evil\"")\n        then\n            return ngx.redirect(\""/terms_of_use.html\"")\n        end\n\n        -- tests passed\n    ""
              ]
            },
            {
              ""directive"": ""server"",
              ""line"": 17,
              ""args"": [],
              ""block"": [
                {
                  ""directive"": ""listen"",
                  ""line"": 18,
                  ""args"": [
                    ""127.0.0.1:8080""
                  ]
                },
                {
                  ""directive"": ""location"",
                  ""line"": 19,
                  ""args"": [
                    ""/""
                  ],
                  ""block"": [
                    {
                      ""directive"": ""content_by_lua_block"",
                      ""line"": 20,
                      ""args"": [
                        ""\n                ngx.req.read_body()  -- explicitly read the req body\n                ocal data = ngx.req.get_body_data()\n                if data then\n                    ngx.say(\""body data:\"")\n                    ngx.print(data)\n                    return\n                end\n\n                -- body may get buffered in a temp file:\n                local file = ngx.req.get_body_file()\n                if file then\n                    ngx.say(\""body is in file \"", file)\n                else\n                    ngx.say(\""no body found\"")\n                end\n            ""
                      ]
                    },
                    {
                      ""directive"": ""return"",
                      ""line"": 37,
                      ""args"": [
                        ""200"",
                        ""foo bar baz""
                      ]
                    }
                  ]
                }
              ]
            }
          ]
        }
      ]
    }
  ]
}
");
  ("testdata/configs/lua-block-larger/xp.json", "{
  ""status"": ""ok"",
  ""errors"": [],
  ""config"": [
    {
      ""file"": ""testdata/configs/lua-block-larger/nginx.conf"",
      ""status"": ""ok"",
      ""errors"": [],
      ""parsed"": [
        {
          ""directive"": ""http"",
          ""line"": 1,
          ""args"": [],
          ""block"": [
            {
              ""directive"": ""access_by_lua_block"",
              ""line"": 2,
              ""args"": [
                ""\n        -- check the client IP address is in our black list\n        if ngx.var.remote_addr == \""132.5.72.3\"" then\n            ngx.exit(ngx.HTTP_FORBIDDEN)\n        end\n\n        -- check if the URI contains bad words\n        if ngx.var.uri and\n               string.match(ngx.var.request_body, \""evil\"")\n        then\n            return ngx.redirect(\""/terms_of_use.html\"")\n        end\n\n        -- tests passed\n    ""
              ]
            },
            {
              ""directive"": ""server"",
              ""line"": 17,
              ""args"": [],
              ""block"": [
                {
                  ""directive"": ""listen"",
                  ""line"": 18,
                  ""args"": [
                    ""127.0.0.1:8080""
                  ]
                },
                {
                  ""directive"": ""location"",
                  ""line"": 19,
                  ""args"": [
                    ""/""
                  ],
                  ""block"": [
                    {
                      ""directive"": ""content_by_lua_block"",
                      ""line"": 20,
                      ""args"": [
                        ""\n                ngx.req.read_body()  -- explicitly read the req body\n                ocal data = ngx.req.get_body_data()\n                if data then\n                    ngx.say(\""body data:\"")\n                    ngx.print(data)\n                    return\n                end\n\n                -- body may get buffered in a temp file:\n                local file = ngx.req.get_body_file()\n                if file then\n                    ngx.say(\""body is in file \"", file)\n                else\n                    ngx.say(\""no body found\"")\n                end\n            ""
                      ]
                    },
                    {
                      ""directive"": ""return"",
                      ""line"": 37,
                      ""args"": [
                        ""200"",
                        ""foo bar baz""
                      ]
                    }
                  ]
                }
              ]
            }
          ]
        }
      ]
    }
  ]
}
")].
Definition fs_lua_block_larger_globs : list (string * list string) := [].

Example lex_8 : match assoc "testdata/configs/lua-block-larger/nginx.conf" fs_lua_block_larger with Some c => map tok_pair (lex lua_lexers c) | None => [] end = [("http", (1)%Z); ("{", (1)%Z); ("access_by_lua_block", (2)%Z); ("
        -- check the client IP address is in our black list
        if ngx.var.remote_addr == ""132.5.72.3"" then
            ngx.exit(ngx.HTTP_FORBIDDEN)
        end

        -- check if the URI contains bad words
        if ngx.var.uri and
               string.match(ngx.var.request_body, ""evil"")
        then
            return ngx.redirect(""/terms_of_use.html"")
        end

        -- tests passed
    ", (16)%Z); (";", (16)%Z); ("server", (17)%Z); ("{", (17)%Z); ("listen", (18)%Z); ("127.0.0.1:8080", (18)%Z); (";", (18)%Z); ("location", (19)%Z); ("/", (19)%Z); ("{", (19)%Z); ("content_by_lua_block", (20)%Z); ("
                ngx.req.read_body()  -- explicitly read the req body
                local data = ngx.req.get_body_data()
                if data then
                    ngx.say(""body data:"")
                    ngx.print(data)
                    return
                end

                -- body may get buffered in a temp file:
                local file = ngx.req.get_body_file()
                if file then
                    ngx.say(""body is in file "", file)
                else
                    ngx.say(""no body found"")
                end
            ", (36)%Z); (";", (36)%Z); ("return", (37)%Z); ("200", (37)%Z); ("foo bar baz", (37)%Z); (";", (37)%Z); ("}", (38)%Z); ("}", (39)%Z); ("}", (40)%Z)].
Proof. vm_compute. reflexivity. Qed.

Definition fs_lua_block_tricky : list (string * string) := [
  ("testdata/configs/lua-block-tricky/nginx.conf", "http {
    server {
        listen       127.0.0.1:8080;
        server_name  content_by_lua_block ;  # make sure this doesn't trip up lexers
        set_by_lua_block     $res     { -- irregular lua block directive
            local a = 32
            local b = 56

            ngx.var.diff = a - b;  -- write to $diff directly
            return a + b;          -- return the $sum value normally
        }
        ""rewrite_by_lua_block"" { -- have valid braces in Lua code and quotes around directive
            do_something(""hello, world!\nhiya\n"")
            a = { 1, 2, 3 }
            btn = iup.button({title=""ok""})
        }
    }
    upstream content_by_lua_block {
        # stuff
    }
}
");
  ("testdata/configs/lua-block-tricky/nginx.json", "{
  ""status"": ""ok"",
  ""errors"": [],
  ""config"": [
    {
      ""file"": ""testdata/configs/lua-block-tricky/nginx.conf"",
      ""status"": ""ok"",
      ""errors"": [],
      ""parsed"": [
        {
          ""directive"": ""http"",
          ""line"": 1,
          ""args"": [],
          ""block"": [
            {
              ""directive"": ""server"",
              ""line"": 2,
              ""args"": [],
              ""block"": [
                {
                  ""directive"": ""listen"",
                  ""line"": 3,
                  ""args"": [
                    ""127.0.0.1:8080""
                  ]
                },
                {
                  ""directive"": ""server_name"",
                  ""line"": 4,
                  ""args"": [
                    ""content_by_lua_block""
                  ]
                },
                {
                  ""directive"": ""#"",
                  ""line"": 4,
                  ""args"": [],
                  ""comment"": "" make sure this doesn't trip up lexers""
                },
                {
                  ""directive"": ""set_by_lua_block"",
                  ""line"": 5,
                  ""args"": [
                    ""$res"",
                    "" -- irregular lua block directive\n            local a = 32\n            local b = 56\n\n            ngx.var.diff = a - b;  -- write to $diff directly\n            return a + b;          -- return the $sum value normally\n        ""
                  ]
                },
                {
                  ""directive"": ""rewrite_by_lua_block"",
                  ""line"": 12,
                  ""args"": [
                    "" -- have valid braces in Lua code and quotes around directive\n            do_something(\""hello, world!\\nhiya\\n\"")\n            a = { 1, 2, 3 }\n            btn = iup.button({title=\""ok\""})\n        ""
                  ]
                }
              ]
            },
            {
              ""directive"": ""upstream"",
              ""line"": 18,
              ""args"": [
                ""content_by_lua_block""
              ],
              ""block"": [
                {
                  ""directive"": ""#"",
                  ""line"": 19,
                  ""args"": [],
                  ""comment"": "" stuff""
                }
              ]
            }
          ]
        }
      ]
    }
  ]
}
");
  ("testdata/configs/lua-block-tricky/xp.json", "{
  ""status"": ""ok"",
  ""errors"": [],
  ""config"": [
    {
      ""file"": ""testdata/configs/lua-block-tricky/nginx.conf"",
      ""status"": ""ok"",
      ""errors"": [],
      ""parsed"": [
        {
          ""directive"": ""http"",
          ""line"": 1,
          ""args"": [],
          ""block"": [
            {
              ""directive"": ""server"",
              ""line"": 2,
              ""args"": [],
              ""block"": [
                {
                  ""directive"": ""listen"",
                  ""line"": 3,
                  ""args"": [
                    ""127.0.0.1:8080""
                  ]
                },
                {
                  ""directive"": ""server_name"",
                  ""line"": 4,
                  ""args"": [
                    ""content_by_lua_block""
                  ]
                },
                {
                  ""directive"": ""#"",
                  ""line"": 4,
                  ""args"": [],
                  ""comment"": "" make sure this doesn't trip up lexers""
                },
                {
                  ""directive"": ""set_by_lua_block     $res     { -- irregular lua block directive\n            local a = 32\n            local b = 56\n\n            ngx.var.diff = a - b;  -- write to $diff directly\n            return a + b;          -- return the $sum value normally\n        }\n        \""rewrite_by_lua_block\"" { -- have valid braces in Lua code and quotes around directive\n            do_something(\""hello, world!\\nhiya\\n\"")\n            a = { 1, 2, 3 }\n            btn = iup.button({title=\""ok\""})\n        }\n    "",
                  ""line"": 17,
                  ""args"": []
                },
                {
                  ""directive"": ""upstream"",
                  ""line"": 18,
                  ""args"": [
                    ""content_by_lua_block"",
                    ""\n        # stuff\n    ""
                  ]
                }
              ]
            }
          ]
        }
      ]
    }
  ]
}
")].
Definition fs_lua_block_tricky_globs : list (string * list string) := [].

Example lex_9 : match assoc "testdata/configs/lua-block-tricky/nginx.conf" fs_lua_block_tricky with Some c => map tok_pair (lex lua_lexers c) | None => [] end = [("http", (1)%Z); ("{", (1)%Z); ("server", (2)%Z); ("{", (2)%Z); ("listen", (3)%Z); ("127.0.0.1:8080", (3)%Z); (";", (3)%Z); ("server_name", (4)%Z); ("content_by_lua_block", (4)%Z); (";", (4)%Z); ("# make sure this doesn't trip up lexers", (4)%Z); ("set_by_lua_block", (5)%Z); ("$res", (5)%Z); (" -- irregular lua block directive
            local a = 32
            local b = 56

            ngx.var.diff = a - b;  -- write to $diff directly
            return a + b;          -- return the $sum value normally
        ", (11)%Z); (";", (11)%Z); ("rewrite_by_lua_block", (12)%Z); (" -- have valid braces in Lua code and quotes around directive
            do_something(""hello, world!\nhiya\n"")
            a = { 1, 2, 3 }
            btn = iup.button({title=""ok""})
        ", (16)%Z); (";", (16)%Z); ("}", (17)%Z); ("upstream", (18)%Z); ("content_by_lua_block", (18)%Z); ("{", (18)%Z); ("# stuff", (19)%Z); ("}", (20)%Z); ("}", (21)%Z)].
Proof. vm_compute. reflexivity. Qed.

Definition fs_includes_regular : list (string * string) := [
  ("testdata/configs/includes-regular/conf.d/bar.conf", "# this file should never be included
asdfasdfasdfasdfasdfasdfasdfasdfasdf
");
  ("testdata/configs/includes-regular/conf.d/details.conf", "
# imported (details.conf) into server block

server_tokens off;
tcp_nodelay off;

# and that's all for details.conf
");
  ("testdata/configs/includes-regular/conf.d/foo.conf", "# this file should never be included
asdfasdfasdfasdfasdfasdfasdfasdfasdf
");
  ("testdata/configs/includes-regular/conf.d/http-inner.conf", "
# this file is ""conf.d/http-inner.conf"", loaded in as an include under main http

allow localhost;
deny 192.168.1.0/24;

# let's delete this as a test
expires max;

# end of conf.d/http-inner.conf (but still under http block)
");
  ("testdata/configs/includes-regular/conf.d/server.conf", "server {
    listen      127.0.0.1:8080;
    server_name default_server;
    include     foo.conf;
    include     bar.conf;
}
");
  ("testdata/configs/includes-regular/foo.conf", "location /foo {
    return 200 'foo';
}
");
  ("testdata/configs/includes-regular/nginx.conf", "events {}
http {
    include conf.d/server.conf;
}
");
  ("testdata/configs/includes-regular/nginx.json", "{
  ""status"": ""failed"",
  ""errors"": [
    {
      ""file"": ""testdata/configs/includes-regular/conf.d/server.conf"",
      ""error"": ""[Errno 2] No such file or directory: 'testdata/configs/includes-regular/details.conf'"",
      ""line"": 7
    }
  ],
  ""config"": [
    {
      ""file"": ""testdata/configs/includes-regular/nginx.conf"",
      ""status"": ""ok"",
      ""errors"": [],
      ""parsed"": [
        {
          ""directive"": ""#"",
          ""line"": 1,
          ""args"": [],
          ""comment"": "" empty events for now""
        },
        {
          ""directive"": ""events"",
          ""line"": 2,
          ""args"": [],
          ""block"": [
            {
              ""directive"": ""multi_accept"",
              ""line"": 3,
              ""args"": [
                ""on""
              ]
            }
          ]
        },
        {
          ""directive"": ""#"",
          ""line"": 6,
          ""args"": [],
          ""comment"": "" and all http via included configs""
        },
        {
          ""directive"": ""#"",
          ""line"": 7,
          ""args"": [],
          ""comment"": "" m'kay?""
        },
        {
          ""directive"": ""http"",
          ""line"": 8,
          ""args"": [],
          ""block"": [
            {
              ""directive"": ""map"",
              ""line"": 10,
              ""args"": [
                ""$what"",
                ""$kind""
              ],
              ""block"": [
                {
                  ""directive"": ""banana"",
                  ""line"": 11,
                  ""args"": [
                    ""fruit""
                  ]
                },
                {
                  ""directive"": ""beans"",
                  ""line"": 12,
                  ""args"": [
                    ""vegetable""
                  ]
                },
                {
                  ""directive"": ""brains"",
                  ""line"": 13,
                  ""args"": [
                    ""animal""
                  ]
                }
              ]
            },
            {
              ""directive"": ""include"",
              ""line"": 16,
              ""args"": [
                ""conf.d/server.conf""
              ],
              ""includes"": [
                1
              ]
            },
            {
              ""directive"": ""include"",
              ""line"": 17,
              ""args"": [
                ""conf.d/http*.conf""
              ],
              ""includes"": [
                2
              ]
            }
          ]
        }
      ]
    },
    {
      ""file"": ""testdata/configs/includes-regular/conf.d/server.conf"",
      ""status"": ""failed"",
      ""errors"": [
        {
          ""error"": ""[Errno 2] No such file or directory: 'testdata/configs/includes-regular/details.conf'"",
          ""line"": 7
        }
      ],
      ""parsed"": [
        {
          ""directive"": ""#"",
          ""line"": 1,
          ""args"": [],
          ""comment"": ""@ production""
        },
        {
          ""directive"": ""server"",
          ""line"": 2,
          ""args"": [],
          ""block"": [
            {
              ""directive"": ""#"",
              ""line"": 3,
              ""args"": [],
              ""comment"": ""listen      127.0.0.1:8080;""
            },
            {
              ""directive"": ""listen"",
              ""line"": 4,
              ""args"": [
                "":8080""
              ]
            },
            {
              ""directive"": ""server_name"",
              ""line"": 5,
              ""args"": [
                ""foo""
              ]
            },
            {
              ""directive"": ""#"",
              ""line"": 6,
              ""args"": [],
              ""comment"": "" including details.conf into server block""
            },
            {
              ""directive"": ""include"",
              ""line"": 7,
              ""args"": [
                ""details.conf""
              ],
              ""includes"": []
            },
            {
              ""directive"": ""#"",
              ""line"": 8,
              ""args"": [],
              ""comment"": "" include     bar.conf;""
            },
            {
              ""directive"": ""#"",
              ""line"": 10,
              ""args"": [],
              ""comment"": ""@ ramones""
            },
            {
              ""directive"": ""location"",
              ""line"": 11,
              ""args"": [
                ""/heynow""
              ],
              ""block"": [
                {
                  ""directive"": ""return"",
                  ""line"": 12,
                  ""args"": [
                    ""200"",
                    ""Gaba Gaba Hey!""
                  ]
                }
              ]
            },
            {
              ""directive"": ""#"",
              ""line"": 15,
              ""args"": [],
              ""comment"": "" not tagged""
            },
            {
              ""directive"": ""location"",
              ""line"": 16,
              ""args"": [
                ""/nada""
              ],
              ""block"": [
                {
                  ""directive"": ""#"",
                  ""line"": 17,
                  ""args"": [],
                  ""comment"": ""@ hellaworld""
                },
                {
                  ""directive"": ""location"",
                  ""line"": 18,
                  ""args"": [
                    ""/nada/problem""
                  ],
                  ""block"": [
                    {
                      ""directive"": ""return"",
                      ""line"": 19,
                      ""args"": [
                        ""202"",
                        ""what me worry?""
                      ]
                    }
                  ]
                },
                {
                  ""directive"": ""return"",
                  ""line"": 21,
                  ""args"": [
                    ""201"",
                    ""say what?""
                  ]
                }
              ]
            },
            {
              ""directive"": ""#"",
              ""line"": 24,
              ""args"": [],
              ""comment"": "" not tagged either""
            },
            {
              ""directive"": ""location"",
              ""line"": 25,
              ""args"": [
                ""/meh""
              ],
              ""block"": [
                {
                  ""directive"": ""return"",
                  ""line"": 26,
                  ""args"": [
                    ""203"",
                    ""what ev er""
                  ]
                }
              ]
            }
          ]
        }
      ]
    },
    {
      ""file"": ""testdata/configs/includes-regular/conf.d/http-inner.conf"",
      ""status"": ""ok"",
      ""errors"": [],
      ""parsed"": [
        {
          ""directive"": ""#"",
          ""line"": 2,
          ""args"": [],
          ""comment"": "" this file is \""conf.d/http-inner.conf\"", loaded in as an include under main http""
        },
        {
          ""directive"": ""allow"",
          ""line"": 4,
          ""args"": [
            ""localhost""
          ]
        },
        {
          ""directive"": ""deny"",
          ""line"": 5,
          ""args"": [
            ""192.168.1.0/24""
          ]
        },
        {
          ""directive"": ""#"",
          ""line"": 7,
          ""args"": [],
          ""comment"": "" let's delete this as a test""
        },
        {
          ""directive"": ""expires"",
          ""line"": 8,
          ""args"": [
            ""max""
          ]
        },
        {
          ""directive"": ""#"",
          ""line"": 10,
          ""args"": [],
          ""comment"": "" end of conf.d/http-inner.conf (but still under http block)""
        }
      ]
    }
  ]
}
");
  ("testdata/configs/includes-regular/xp.json", "{
  ""status"": ""failed"",
  ""errors"": [
    {
      ""file"": ""testdata/configs/includes-regular/conf.d/server.conf"",
      ""error"": ""[Errno 2] No such file or directory: 'testdata/configs/includes-regular/details.conf'"",
      ""line"": 7
    }
  ],
  ""config"": [
    {
      ""file"": ""testdata/configs/includes-regular/nginx.conf"",
      ""status"": ""ok"",
      ""errors"": [],
      ""parsed"": [
        {
          ""directive"": ""#"",
          ""line"": 1,
          ""args"": [],
          ""comment"": "" empty events for now""
        },
        {
          ""directive"": ""events"",
          ""line"": 2,
          ""args"": [],
          ""block"": [
            {
              ""directive"": ""multi_accept"",
              ""line"": 3,
              ""args"": [
                ""on""
              ]
            }
          ]
        },
        {
          ""directive"": ""#"",
          ""line"": 6,
          ""args"": [],
          ""comment"": "" and all http via included configs""
        },
        {
          ""directive"": ""#"",
          ""line"": 7,
          ""args"": [],
          ""comment"": "" m'kay?""
        },
        {
          ""directive"": ""http"",
          ""line"": 8,
          ""args"": [],
          ""block"": [
            {
              ""directive"": ""map"",
              ""line"": 10,
              ""args"": [
                ""$what"",
                ""$kind""
              ],
              ""block"": [
                {
                  ""directive"": ""banana"",
                  ""line"": 11,
                  ""args"": [
                    ""fruit""
                  ]
                },
                {
                  ""directive"": ""beans"",
                  ""line"": 12,
                  ""args"": [
                    ""vegetable""
                  ]
                },
                {
                  ""directive"": ""brains"",
                  ""line"": 13,
                  ""args"": [
                    ""animal""
                  ]
                }
              ]
            },
            {
              ""directive"": ""include"",
              ""line"": 16,
              ""args"": [
                ""conf.d/server.conf""
              ],
              ""includes"": [
                1
              ]
            },
            {
              ""directive"": ""include"",
              ""line"": 17,
              ""args"": [
                ""conf.d/http*.conf""
              ],
              ""includes"": [
                2
              ]
            }
          ]
        }
      ]
    },
    {
      ""file"": ""testdata/configs/includes-regular/conf.d/server.conf"",
      ""status"": ""failed"",
      ""errors"": [
        {
          ""error"": ""[Errno 2] No such file or directory: 'testdata/configs/includes-regular/details.conf'"",
          ""line"": 7
        }
      ],
      ""parsed"": [
        {
          ""directive"": ""#"",
          ""line"": 1,
          ""args"": [],
          ""comment"": ""@ production""
        },
        {
          ""directive"": ""server"",
          ""line"": 2,
          ""args"": [],
          ""block"": [
            {
              ""directive"": ""#"",
              ""line"": 3,
              ""args"": [],
              ""comment"": ""listen      127.0.0.1:8080;""
            },
            {
              ""directive"": ""listen"",
              ""line"": 4,
              ""args"": [
                "":8080""
              ]
            },
            {
              ""directive"": ""server_name"",
              ""line"": 5,
              ""args"": [
                ""foo""
              ]
            },
            {
              ""directive"": ""#"",
              ""line"": 6,
              ""args"": [],
              ""comment"": "" including details.conf into server block""
            },
            {
              ""directive"": ""include"",
              ""line"": 7,
              ""args"": [
                ""details.conf""
              ]
            },
            {
              ""directive"": ""#"",
              ""line"": 8,
              ""args"": [],
              ""comment"": "" include     bar.conf;""
            },
            {
              ""directive"": ""#"",
              ""line"": 10,
              ""args"": [],
              ""comment"": ""@ ramones""
            },
            {
              ""directive"": ""location"",
              ""line"": 11,
              ""args"": [
                ""/heynow""
              ],
              ""block"": [
                {
                  ""directive"": ""return"",
                  ""line"": 12,
                  ""args"": [
                    ""200"",
                    ""Gaba Gaba Hey!""
                  ]
                }
              ]
            },
            {
              ""directive"": ""#"",
              ""line"": 15,
              ""args"": [],
              ""comment"": "" not tagged""
            },
            {
              ""directive"": ""location"",
              ""line"": 16,
              ""args"": [
                ""/nada""
              ],
              ""block"": [
                {
                  ""directive"": ""#"",
                  ""line"": 17,
                  ""args"": [],
                  ""comment"": ""@ hellaworld""
                },
                {
                  ""directive"": ""location"",
                  ""line"": 18,
                  ""args"": [
                    ""/nada/problem""
                  ],
                  ""block"": [
                    {
                      ""directive"": ""return"",
                      ""line"": 19,
                      ""args"": [
                        ""202"",
                        ""what me worry?""
                      ]
                    }
                  ]
                },
                {
                  ""directive"": ""return"",
                  ""line"": 21,
                  ""args"": [
                    ""201"",
                    ""say what?""
                  ]
                }
              ]
            },
            {
              ""directive"": ""#"",
              ""line"": 24,
              ""args"": [],
              ""comment"": "" not tagged either""
            },
            {
              ""directive"": ""location"",
              ""line"": 25,
              ""args"": [
                ""/meh""
              ],
              ""block"": [
                {
                  ""directive"": ""return"",
                  ""line"": 26,
                  ""args"": [
                    ""203"",
                    ""what ev er""
                  ]
                }
              ]
            }
          ]
        }
      ]
    },
    {
      ""file"": ""testdata/configs/includes-regular/conf.d/http-inner.conf"",
      ""status"": ""ok"",
      ""errors"": [],
      ""parsed"": [
        {
          ""directive"": ""#"",
          ""line"": 2,
          ""args"": [],
          ""comment"": "" this file is \""conf.d/http-inner.conf\"", loaded in as an include under main http""
        },
        {
          ""directive"": ""allow"",
          ""line"": 4,
          ""args"": [
            ""localhost""
          ]
        },
        {
          ""directive"": ""deny"",
          ""line"": 5,
          ""args"": [
            ""192.168.1.0/24""
          ]
        },
        {
          ""directive"": ""#"",
          ""line"": 7,
          ""args"": [],
          ""comment"": "" let's delete this as a test""
        },
        {
          ""directive"": ""expires"",
          ""line"": 8,
          ""args"": [
            ""max""
          ]
        },
        {
          ""directive"": ""#"",
          ""line"": 10,
          ""args"": [],
          ""comment"": "" end of conf.d/http-inner.conf (but still under http block)""
        }
      ]
    }
  ]
}
")].
Definition fs_includes_regular_globs : list (string * list string) := [].

(* includes-regular *)
Example parse_1 : view_ok (parse_main 100 (Opts [] None (fs_open fs_includes_regular) (fs_glob fs_includes_regular_globs) false false false false false false false [] default_match []) "testdata/configs/includes-regular/nginx.conf") ("failed", [("testdata/configs/includes-regular/conf.d/server.conf", (Some (5)%Z), "open testdata/configs/includes-regular/bar.conf: no such file or directory in testdata/configs/includes-regular/conf.d/server.conf:5")], [("testdata/configs/includes-regular/nginx.conf", "ok", []); ("testdata/configs/includes-regular/conf.d/server.conf", "failed", [((Some (5)%Z), "open testdata/configs/includes-regular/bar.conf: no such file or directory in testdata/configs/includes-regular/conf.d/server.conf:5")]); ("testdata/configs/includes-regular/foo.conf", "ok", [])]) [[(Dir "events" (1)%Z [] "" None None None false); (Dir "http" (2)%Z [] "" None (Some [(Dir "include" (3)%Z ["conf.d/server.conf"] "" (Some [(1)%Z]) None None false)]) None false)]; [(Dir "server" (1)%Z [] "" None (Some [(Dir "listen" (2)%Z ["127.0.0.1:8080"] "" None None None false); (Dir "server_name" (3)%Z ["default_server"] "" None None None false); (Dir "include" (4)%Z ["foo.conf"] "" (Some [(2)%Z]) None None false); (Dir "include" (5)%Z ["bar.conf"] "" None None None false)]) None false)]; [(Dir "location" (1)%Z ["/foo"] "" None (Some [(Dir "return" (2)%Z ["200"; "foo"] "" None None None false)]) None false)]].
Proof. vm_compute. split; reflexivity. Qed.

(* includes-regular-single-file *)
Example parse_2 : view_ok (parse_main 100 (Opts [] None (fs_open fs_includes_regular) (fs_glob fs_includes_regular_globs) false false true false false false false [] default_match []) "testdata/configs/includes-regular/nginx.conf") ("ok", [], [("testdata/configs/includes-regular/nginx.conf", "ok", [])]) [[(Dir "events" (1)%Z [] "" None (Some []) None false); (Dir "http" (2)%Z [] "" None (Some [(Dir "include" (3)%Z ["conf.d/server.conf"] "" None None None false)]) None false)]].
Proof. vm_compute. split; reflexivity. Qed.

Definition fs_includes_globbed : list (string * string) := [
  ("testdata/configs/includes-globbed/http.conf", "http {
    include servers/*.conf;
}
");
  ("testdata/configs/includes-globbed/http.json", "{""status"":""ok"",""errors"":[],""config"":[{""file"":""python/includes-globbed/http.conf"",""status"":""ok"",""errors"":[],""parsed"":[{""directive"":""http"",""line"":1,""args"":[],""block"":[{""directive"":""include"",""line"":2,""args"":[""servers/*.conf""],""includes"":[1,2]}]}]},{""file"":""python/includes-globbed/servers/server1.conf"",""status"":""ok"",""errors"":[],""parsed"":[{""directive"":""server"",""line"":1,""args"":[],""block"":[{""directive"":""listen"",""line"":2,""args"":[""8080""]},{""directive"":""include"",""line"":3,""args"":[""locations/*.conf""],""includes"":[3,4]}]}]},{""file"":""python/includes-globbed/servers/server2.conf"",""status"":""ok"",""errors"":[],""parsed"":[{""directive"":""server"",""line"":1,""args"":[],""block"":[{""directive"":""listen"",""line"":2,""args"":[""8081""]},{""directive"":""include"",""line"":3,""args"":[""locations/*.conf""],""includes"":[3,4]}]}]},{""file"":""python/includes-globbed/locations/location1.conf"",""status"":""ok"",""errors"":[],""parsed"":[{""directive"":""location"",""line"":1,""args"":[""/foo""],""block"":[{""directive"":""return"",""line"":2,""args"":[""200"",""foo""]}]}]},{""file"":""python/includes-globbed/locations/location2.conf"",""status"":""ok"",""errors"":[],""parsed"":[{""directive"":""location"",""line"":1,""args"":[""/bar""],""block"":[{""directive"":""return"",""line"":2,""args"":[""200"",""bar""]}]}]}]}
");
  ("testdata/configs/includes-globbed/locations/location1.conf", "location /foo {
    return 200 'foo';
}
");
  ("testdata/configs/includes-globbed/locations/location1.json", "{""status"":""failed"",""errors"":[{""file"":""python/includes-globbed/locations/location1.conf"",""error"":""\""location\"" directive is not allowed here in python/includes-globbed/locations/location1.conf:1"",""line"":1},{""file"":""python/includes-globbed/locations/location1.conf"",""error"":""\""return\"" directive is not allowed here in python/includes-globbed/locations/location1.conf:2"",""line"":2}],""config"":[{""file"":""python/includes-globbed/locations/location1.conf"",""status"":""failed"",""errors"":[{""error"":""\""location\"" directive is not allowed here in python/includes-globbed/locations/location1.conf:1"",""line"":1},{""error"":""\""return\"" directive is not allowed here in python/includes-globbed/locations/location1.conf:2"",""line"":2}],""parsed"":[]}]}
");
  ("testdata/configs/includes-globbed/locations/location2.conf", "location /bar {
    return 200 'bar';
}
");
  ("testdata/configs/includes-globbed/locations/location2.json", "{""status"":""failed"",""errors"":[{""file"":""python/includes-globbed/locations/location2.conf"",""error"":""\""location\"" directive is not allowed here in python/includes-globbed/locations/location2.conf:1"",""line"":1},{""file"":""python/includes-globbed/locations/location2.conf"",""error"":""\""return\"" directive is not allowed here in python/includes-globbed/locations/location2.conf:2"",""line"":2}],""config"":[{""file"":""python/includes-globbed/locations/location2.conf"",""status"":""failed"",""errors"":[{""error"":""\""location\"" directive is not allowed here in python/includes-globbed/locations/location2.conf:1"",""line"":1},{""error"":""\""return\"" directive is not allowed here in python/includes-globbed/locations/location2.conf:2"",""line"":2}],""parsed"":[]}]}
");
  ("testdata/configs/includes-globbed/nginx.conf", "events {}
include http.conf;
");
  ("testdata/configs/includes-globbed/nginx.json", "{
  ""status"": ""ok"",
  ""errors"": [],
  ""config"": [
    {
      ""file"": ""testdata/configs/includes-globbed/nginx.conf"",
      ""status"": ""ok"",
      ""errors"": [],
      ""parsed"": [
        {
          ""directive"": ""events"",
          ""line"": 1,
          ""args"": [],
          ""block"": []
        },
        {
          ""directive"": ""include"",
          ""line"": 2,
          ""args"": [
            ""http.conf""
          ],
          ""includes"": [
            1
          ]
        }
      ]
    },
    {
      ""file"": ""testdata/configs/includes-globbed/http.conf"",
      ""status"": ""ok"",
      ""errors"": [],
      ""parsed"": [
        {
          ""directive"": ""http"",
          ""line"": 1,
          ""args"": [],
          ""block"": [
            {
              ""directive"": ""include"",
              ""line"": 2,
              ""args"": [
                ""servers/*.conf""
              ],
              ""includes"": [
                2,
                3
              ]
            }
          ]
        }
      ]
    },
    {
      ""file"": ""testdata/configs/includes-globbed/servers/server1.conf"",
      ""status"": ""ok"",
      ""errors"": [],
      ""parsed"": [
        {
          ""directive"": ""server"",
          ""line"": 1,
          ""args"": [],
          ""block"": [
            {
              ""directive"": ""listen"",
              ""line"": 2,
              ""args"": [
                ""8080""
              ]
            },
            {
              ""directive"": ""include"",
              ""line"": 3,
              ""args"": [
                ""locations/*.conf""
              ],
              ""includes"": [
                4,
                5
              ]
            }
          ]
        }
      ]
    },
    {
      ""file"": ""testdata/configs/includes-globbed/servers/server2.conf"",
      ""status"": ""ok"",
      ""errors"": [],
      ""parsed"": [
        {
          ""directive"": ""server"",
          ""line"": 1,
          ""args"": [],
          ""block"": [
            {
              ""directive"": ""listen"",
              ""line"": 2,
              ""args"": [
                ""8081""
              ]
            },
            {
              ""directive"": ""include"",
              ""line"": 3,
              ""args"": [
                ""locations/*.conf""
              ],
              ""includes"": [
                4,
                5
              ]
            }
          ]
        }
      ]
    },
    {
      ""file"": ""testdata/configs/includes-globbed/locations/location1.conf"",
      ""status"": ""ok"",
      ""errors"": [],
      ""parsed"": [
        {
          ""directive"": ""location"",
          ""line"": 1,
          ""args"": [
            ""/foo""
          ],
          ""block"": [
            {
              ""directive"": ""return"",
              ""line"": 2,
              ""args"": [
                ""200"",
                ""foo""
              ]
            }
          ]
        }
      ]
    },
    {
      ""file"": ""testdata/configs/includes-globbed/locations/location2.conf"",
      ""status"": ""ok"",
      ""errors"": [],
      ""parsed"": [
        {
          ""directive"": ""location"",
          ""line"": 1,
          ""args"": [
            ""/bar""
          ],
          ""block"": [
            {
              ""directive"": ""return"",
              ""line"": 2,
              ""args"": [
                ""200"",
                ""bar""
              ]
            }
          ]
        }
      ]
    }
  ]
}
");
  ("testdata/configs/includes-globbed/servers/locations/not-included.conf", "# this file should never be included
asdfasdfasdfasdfasdfasdfasdfasdfasdf
");
  ("testdata/configs/includes-globbed/servers/locations/not-included.json", "{""status"":""failed"",""errors"":[{""file"":""python/includes-globbed/servers/locations/not-included.conf"",""error"":"""",""line"":null}],""config"":[{""file"":""python/includes-globbed/servers/locations/not-included.conf"",""status"":""failed"",""errors"":[{""error"":"""",""line"":null}],""parsed"":[]}]}
");
  ("testdata/configs/includes-globbed/servers/server1.conf", "server {
    listen 8080;
    include locations/*.conf;
}
");
  ("testdata/configs/includes-globbed/servers/server1.json", "{""status"":""failed"",""errors"":[{""file"":""python/includes-globbed/servers/server1.conf"",""error"":""\""server\"" directive is not allowed here in python/includes-globbed/servers/server1.conf:1"",""line"":1},{""file"":""python/includes-globbed/servers/server1.conf"",""error"":""\""listen\"" directive is not allowed here in python/includes-globbed/servers/server1.conf:2"",""line"":2},{""file"":""python/includes-globbed/servers/locations/not-included.conf"",""error"":"""",""line"":null}],""config"":[{""file"":""python/includes-globbed/servers/server1.conf"",""status"":""failed"",""errors"":[{""error"":""\""server\"" directive is not allowed here in python/includes-globbed/servers/server1.conf:1"",""line"":1},{""error"":""\""listen\"" directive is not allowed here in python/includes-globbed/servers/server1.conf:2"",""line"":2}],""parsed"":[{""directive"":""include"",""line"":3,""args"":[""locations/*.conf""],""includes"":[1]}]},{""file"":""python/includes-globbed/servers/locations/not-included.conf"",""status"":""failed"",""errors"":[{""error"":"""",""line"":null}],""parsed"":[]}]}
");
  ("testdata/configs/includes-globbed/servers/server2.conf", "server {
    listen 8081;
    include locations/*.conf;
}
");
  ("testdata/configs/includes-globbed/servers/server2.json", "{""status"":""failed"",""errors"":[{""file"":""python/includes-globbed/servers/server2.conf"",""error"":""\""server\"" directive is not allowed here in python/includes-globbed/servers/server2.conf:1"",""line"":1},{""file"":""python/includes-globbed/servers/server2.conf"",""error"":""\""listen\"" directive is not allowed here in python/includes-globbed/servers/server2.conf:2"",""line"":2},{""file"":""python/includes-globbed/servers/locations/not-included.conf"",""error"":"""",""line"":null}],""config"":[{""file"":""python/includes-globbed/servers/server2.conf"",""status"":""failed"",""errors"":[{""error"":""\""server\"" directive is not allowed here in python/includes-globbed/servers/server2.conf:1"",""line"":1},{""error"":""\""listen\"" directive is not allowed here in python/includes-globbed/servers/server2.conf:2"",""line"":2}],""parsed"":[{""directive"":""include"",""line"":3,""args"":[""locations/*.conf""],""includes"":[1]}]},{""file"":""python/includes-globbed/servers/locations/not-included.conf"",""status"":""failed"",""errors"":[{""error"":"""",""line"":null}],""parsed"":[]}]}
");
  ("testdata/configs/includes-globbed/xp.json", "{
  ""status"": ""ok"",
  ""errors"": [],
  ""config"": [
    {
      ""file"": ""testdata/configs/includes-globbed/nginx.conf"",
      ""status"": ""ok"",
      ""errors"": [],
      ""parsed"": [
        {
          ""directive"": ""events"",
          ""line"": 1,
          ""args"": []
        },
        {
          ""directive"": ""include"",
          ""line"": 2,
          ""args"": [
            ""http.conf""
          ],
          ""includes"": [
            1
          ]
        }
      ]
    },
    {
      ""file"": ""testdata/configs/includes-globbed/http.conf"",
      ""status"": ""ok"",
      ""errors"": [],
      ""parsed"": [
        {
          ""directive"": ""http"",
          ""line"": 1,
          ""args"": [],
          ""block"": [
            {
              ""directive"": ""include"",
              ""line"": 2,
              ""args"": [
                ""servers/*.conf""
              ],
              ""includes"": [
                2,
                3
              ]
            }
          ]
        }
      ]
    },
    {
      ""file"": ""testdata/configs/includes-globbed/servers/server1.conf"",
      ""status"": ""ok"",
      ""errors"": [],
      ""parsed"": [
        {
          ""directive"": ""server"",
          ""line"": 1,
          ""args"": [],
          ""block"": [
            {
              ""directive"": ""listen"",
              ""line"": 2,
              ""args"": [
                ""8080""
              ]
            },
            {
              ""directive"": ""include"",
              ""line"": 3,
              ""args"": [
                ""locations/*.conf""
              ],
              ""includes"": [
                4,
                5
              ]
            }
          ]
        }
      ]
    },
    {
      ""file"": ""testdata/configs/includes-globbed/servers/server2.conf"",
      ""status"": ""ok"",
      ""errors"": [],
      ""parsed"": [
        {
          ""directive"": ""server"",
          ""line"": 1,
          ""args"": [],
          ""block"": [
            {
              ""directive"": ""listen"",
              ""line"": 2,
              ""args"": [
                ""8081""
              ]
            },
            {
              ""directive"": ""include"",
              ""line"": 3,
              ""args"": [
                ""locations/*.conf""
              ],
              ""includes"": [
                4,
                5
              ]
            }
          ]
        }
      ]
    },
    {
      ""file"": ""testdata/configs/includes-globbed/locations/location1.conf"",
      ""status"": ""ok"",
      ""errors"": [],
      ""parsed"": [
        {
          ""directive"": ""location"",
          ""line"": 1,
          ""args"": [
            ""/foo""
          ],
          ""block"": [
            {
              ""directive"": ""return"",
              ""line"": 2,
              ""args"": [
                ""200"",
                ""foo""
              ]
            }
          ]
        }
      ]
    },
    {
      ""file"": ""testdata/configs/includes-globbed/locations/location2.conf"",
      ""status"": ""ok"",
      ""errors"": [],
      ""parsed"": [
        {
          ""directive"": ""location"",
          ""line"": 1,
          ""args"": [
            ""/bar""
          ],
          ""block"": [
            {
              ""directive"": ""return"",
              ""line"": 2,
              ""args"": [
                ""200"",
                ""bar""
              ]
            }
          ]
        }
      ]
    }
  ]
}
")].
Definition fs_includes_globbed_globs : list (string * list string) := [("testdata/configs/includes-globbed/locations/*.conf", ["testdata/configs/includes-globbed/locations/location2.conf"; "testdata/configs/includes-globbed/locations/location1.conf"]); ("testdata/configs/includes-globbed/servers/locations/*.conf", ["testdata/configs/includes-globbed/servers/locations/not-included.conf"]); ("testdata/configs/includes-globbed/servers/*.conf", ["testdata/configs/includes-globbed/servers/server1.conf"; "testdata/configs/includes-globbed/servers/server2.conf"])].

(* includes-globbed *)
Example parse_3 : view_ok (parse_main 100 (Opts [] None (fs_open fs_includes_globbed) (fs_glob fs_includes_globbed_globs) false false false false false false false [] default_match []) "testdata/configs/includes-globbed/nginx.conf") ("ok", [], [("testdata/configs/includes-globbed/nginx.conf", "ok", []); ("testdata/configs/includes-globbed/http.conf", "ok", []); ("testdata/configs/includes-globbed/servers/server1.conf", "ok", []); ("testdata/configs/includes-globbed/servers/server2.conf", "ok", []); ("testdata/configs/includes-globbed/locations/location1.conf", "ok", []); ("testdata/configs/includes-globbed/locations/location2.conf", "ok", [])]) [[(Dir "events" (1)%Z [] "" None None None false); (Dir "include" (2)%Z ["http.conf"] "" (Some [(1)%Z]) None None false)]; [(Dir "http" (1)%Z [] "" None (Some [(Dir "include" (2)%Z ["servers/*.conf"] "" (Some [(2)%Z; (3)%Z]) None None false)]) None false)]; [(Dir "server" (1)%Z [] "" None (Some [(Dir "listen" (2)%Z ["8080"] "" None None None false); (Dir "include" (3)%Z ["locations/*.conf"] "" (Some [(4)%Z; (5)%Z]) None None false)]) None false)]; [(Dir "server" (1)%Z [] "" None (Some [(Dir "listen" (2)%Z ["8081"] "" None None None false); (Dir "include" (3)%Z ["locations/*.conf"] "" (Some [(4)%Z; (5)%Z]) None None false)]) None false)]; [(Dir "location" (1)%Z ["/foo"] "" None (Some [(Dir "return" (2)%Z ["200"; "foo"] "" None None None false)]) None false)]; [(Dir "location" (1)%Z ["/bar"] "" None (Some [(Dir "return" (2)%Z ["200"; "bar"] "" None None None false)]) None false)]].
Proof. vm_compute. split; reflexivity. Qed.

(* includes-globbed-combine-configs *)
Example parse_4 : view_ok (parse_main 100 (Opts [] None (fs_open fs_includes_globbed) (fs_glob fs_includes_globbed_globs) false true false false false false false [] default_match []) "testdata/configs/includes-globbed/nginx.conf") ("ok", [], [("testdata/configs/includes-globbed/nginx.conf", "ok", [])]) [[(Dir "events" (1)%Z [] "testdata/configs/includes-globbed/nginx.conf" None (Some []) None false); (Dir "http" (1)%Z [] "testdata/configs/includes-globbed/http.conf" None (Some [(Dir "server" (1)%Z [] "testdata/configs/includes-globbed/servers/server1.conf" None (Some [(Dir "listen" (2)%Z ["8080"] "testdata/configs/includes-globbed/servers/server1.conf" None None None false); (Dir "location" (1)%Z ["/foo"] "testdata/configs/includes-globbed/locations/location1.conf" None (Some [(Dir "return" (2)%Z ["200"; "foo"] "testdata/configs/includes-globbed/locations/location1.conf" None None None false)]) None false); (Dir "location" (1)%Z ["/bar"] "testdata/configs/includes-globbed/locations/location2.conf" None (Some [(Dir "return" (2)%Z ["200"; "bar"] "testdata/configs/includes-globbed/locations/location2.conf" None None None false)]) None false)]) None false); (Dir "server" (1)%Z [] "testdata/configs/includes-globbed/servers/server2.conf" None (Some [(Dir "listen" (2)%Z ["8081"] "testdata/configs/includes-globbed/servers/server2.conf" None None None false); (Dir "location" (1)%Z ["/foo"] "testdata/configs/includes-globbed/locations/location1.conf" None (Some [(Dir "return" (2)%Z ["200"; "foo"] "testdata/configs/includes-globbed/locations/location1.conf" None None None false)]) None false); (Dir "location" (1)%Z ["/bar"] "testdata/configs/includes-globbed/locations/location2.conf" None (Some [(Dir "return" (2)%Z ["200"; "bar"] "testdata/configs/includes-globbed/locations/location2.conf" None None None false)]) None false)]) None false)]) None false)]].
Proof. vm_compute. split; reflexivity. Qed.

(* simple-ignore-directives-1 *)
Example parse_5 : view_ok (parse_main 100 (Opts ["listen"; "server_name"] None (fs_open fs_simple) (fs_glob fs_simple_globs) false false false false false false false [] default_match []) "testdata/configs/simple/nginx.conf") ("ok", [], [("testdata/configs/simple/nginx.conf", "ok", [])]) [[(Dir "events" (1)%Z [] "" None (Some [(Dir "worker_connections" (2)%Z ["1024"] "" None None None false)]) None false); (Dir "http" (5)%Z [] "" None (Some [(Dir "server" (6)%Z [] "" None (Some [(Dir "location" (9)%Z ["/"] "" None (Some [(Dir "return" (10)%Z ["200"; "foo bar baz"] "" None None None false)]) None false)]) None false)]) None false)]].
Proof. vm_compute. split; reflexivity. Qed.

(* simple-ignore-directives-2 *)
Example parse_6 : view_ok (parse_main 100 (Opts ["events"; "server"] None (fs_open fs_simple) (fs_glob fs_simple_globs) false false false false false false false [] default_match []) "testdata/configs/simple/nginx.conf") ("ok", [], [("testdata/configs/simple/nginx.conf", "ok", [])]) [[(Dir "http" (5)%Z [] "" None (Some []) None false)]].
Proof. vm_compute. split; reflexivity. Qed.

Definition fs_simple_variable_with_braces : list (string * string) := [
  ("testdata/configs/simple-variable-with-braces/nginx.conf", "events {
    worker_connections 1024;
}

http {
    server {
        listen       127.0.0.1:8080;
        server_name  default_server;
        location /proxy {
            set $backend_protocol http;
            set $backend_host bar;
            set $foo '';
            proxy_pass $backend_protocol://$backend_host${foo};
        }
    }
}
")].
Definition fs_simple_variable_with_braces_globs : list (string * list string) := [].

(* simple-variable-with-braces-ignore-directives-1 *)
Example parse_7 : view_ok (parse_main 100 (Opts ["listen"; "server_name"] None (fs_open fs_simple_variable_with_braces) (fs_glob fs_simple_variable_with_braces_globs) false false false false false false false [] default_match []) "testdata/configs/simple-variable-with-braces/nginx.conf") ("ok", [], [("testdata/configs/simple-variable-with-braces/nginx.conf", "ok", [])]) [[(Dir "events" (1)%Z [] "" None (Some [(Dir "worker_connections" (2)%Z ["1024"] "" None None None false)]) None false); (Dir "http" (5)%Z [] "" None (Some [(Dir "server" (6)%Z [] "" None (Some [(Dir "location" (9)%Z ["/proxy"] "" None (Some [(Dir "set" (10)%Z ["$backend_protocol"; "http"] "" None None None false); (Dir "set" (11)%Z ["$backend_host"; "bar"] "" None None None false); (Dir "set" (12)%Z ["$foo"; ""] "" None None None false); (Dir "proxy_pass" (13)%Z ["$backend_protocol://$backend_host${foo}"] "" None None None false)]) None false)]) None false)]) None false)]].
Proof. vm_compute. split; reflexivity. Qed.

(* with-comments-true *)
Example parse_8 : view_ok (parse_main 100 (Opts [] None (fs_open fs_with_comments) (fs_glob fs_with_comments_globs) false false false true false false false [] default_match []) "testdata/configs/with-comments/nginx.conf") ("ok", [], [("testdata/configs/with-comments/nginx.conf", "ok", [])]) [[(Dir "events" (1)%Z [] "" None (Some [(Dir "worker_connections" (2)%Z ["1024"] "" None None None false)]) None false); (Dir "#" (4)%Z [] "" None None (Some "comment") false); (Dir "http" (5)%Z [] "" None (Some [(Dir "server" (6)%Z [] "" None (Some [(Dir "listen" (7)%Z ["127.0.0.1:8080"] "" None None None false); (Dir "#" (7)%Z [] "" None None (Some "listen") false); (Dir "server_name" (8)%Z ["default_server"] "" None None None false); (Dir "location" (9)%Z ["/"] "" None (Some [(Dir "#" (9)%Z [] "" None None (Some "# this is brace") false); (Dir "#" (10)%Z [] "" None None (Some " location /") false); (Dir "return" (11)%Z ["200"; "foo bar baz"] "" None None None false)]) None false)]) None false)]) None false)]].
Proof. vm_compute. split; reflexivity. Qed.

(* with-comments-false *)
Example parse_9 : view_ok (parse_main 100 (Opts [] None (fs_open fs_with_comments) (fs_glob fs_with_comments_globs) false false false false false false false [] default_match []) "testdata/configs/with-comments/nginx.conf") ("ok", [], [("testdata/configs/with-comments/nginx.conf", "ok", [])]) [[(Dir "events" (1)%Z [] "" None (Some [(Dir "worker_connections" (2)%Z ["1024"] "" None None None false)]) None false); (Dir "http" (5)%Z [] "" None (Some [(Dir "server" (6)%Z [] "" None (Some [(Dir "listen" (7)%Z ["127.0.0.1:8080"] "" None None None false); (Dir "server_name" (8)%Z ["default_server"] "" None None None false); (Dir "location" (9)%Z ["/"] "" None (Some [(Dir "return" (11)%Z ["200"; "foo bar baz"] "" None None None false)]) None false)]) None false)]) None false)]].
Proof. vm_compute. split; reflexivity. Qed.

Definition fs_spelling_mistake : list (string * string) := [
  ("testdata/configs/spelling-mistake/nginx.conf", "events {}

http {
    server {
        location / {
            #directive is misspelled
            proxy_passs http://foo.bar;
        }
    }
}
");
  ("testdata/configs/spelling-mistake/nginx.json", "{
  ""status"": ""ok"",
  ""errors"": [],
  ""config"": [
    {
      ""file"": ""testdata/configs/spelling-mistake/nginx.conf"",
      ""status"": ""ok"",
      ""errors"": [],
      ""parsed"": [
        {
          ""directive"": ""events"",
          ""line"": 1,
          ""args"": [],
          ""block"": []
        },
        {
          ""directive"": ""http"",
          ""line"": 3,
          ""args"": [],
          ""block"": [
            {
              ""directive"": ""server"",
              ""line"": 4,
              ""args"": [],
              ""block"": [
                {
                  ""directive"": ""location"",
                  ""line"": 5,
                  ""args"": [
                    ""/""
                  ],
                  ""block"": [
                    {
                      ""directive"": ""#"",
                      ""line"": 6,
                      ""args"": [],
                      ""comment"": ""directive is misspelled""
                    },
                    {
                      ""directive"": ""proxy_passs"",
                      ""line"": 7,
                      ""args"": [
                        ""http://foo.bar""
                      ]
                    }
                  ]
                }
              ]
            }
          ]
        }
      ]
    }
  ]
}
")].
Definition fs_spelling_mistake_globs : list (string * list string) := [].

(* spelling-mistake *)
Example parse_10 : view_ok (parse_main 100 (Opts [] None (fs_open fs_spelling_mistake) (fs_glob fs_spelling_mistake_globs) false false false true true false false [] default_match []) "testdata/configs/spelling-mistake/nginx.conf") ("failed", [("testdata/configs/spelling-mistake/nginx.conf", (Some (7)%Z), "unknown directive ""proxy_passs"" in testdata/configs/spelling-mistake/nginx.conf:7")], [("testdata/configs/spelling-mistake/nginx.conf", "failed", [((Some (7)%Z), "unknown directive ""proxy_passs"" in testdata/configs/spelling-mistake/nginx.conf:7")])]) [[(Dir "events" (1)%Z [] "" None (Some []) None false); (Dir "http" (3)%Z [] "" None (Some [(Dir "server" (4)%Z [] "" None (Some [(Dir "location" (5)%Z ["/"] "" None (Some [(Dir "#" (6)%Z [] "" None None (Some "directive is misspelled") false)]) None false)]) None false)]) None false)]].
Proof. vm_compute. split; reflexivity. Qed.

Definition fs_missing_semicolon_above : list (string * string) := [
  ("testdata/configs/missing-semicolon-above/nginx.conf", "http {
    server {
        location /is-broken {
            proxy_pass http://is.broken.example
        }
        location /not-broken {
            proxy_pass http://not.broken.example;
        }
    }
}
")].
Definition fs_missing_semicolon_above_globs : list (string * list string) := [].

(* missing-semicolon-above *)
Example parse_11 : view_ok (parse_main 100 (Opts [] None (fs_open fs_missing_semicolon_above) (fs_glob fs_missing_semicolon_above_globs) false false false false false false false [] default_match []) "testdata/configs/missing-semicolon-above/nginx.conf") ("failed", [("testdata/configs/missing-semicolon-above/nginx.conf", (Some (4)%Z), "directive ""proxy_pass"" is not terminated by "";"" in testdata/configs/missing-semicolon-above/nginx.conf:4")], [("testdata/configs/missing-semicolon-above/nginx.conf", "failed", [((Some (4)%Z), "directive ""proxy_pass"" is not terminated by "";"" in testdata/configs/missing-semicolon-above/nginx.conf:4")])]) [[(Dir "http" (1)%Z [] "" None (Some [(Dir "server" (2)%Z [] "" None (Some [(Dir "location" (3)%Z ["/is-broken"] "" None (Some []) None false); (Dir "location" (6)%Z ["/not-broken"] "" None (Some [(Dir "proxy_pass" (7)%Z ["http://not.broken.example"] "" None None None false)]) None false)]) None false)]) None false)]].
Proof. vm_compute. split; reflexivity. Qed.

Definition fs_missing_semicolon_below : list (string * string) := [
  ("testdata/configs/missing-semicolon-below/nginx.conf", "http {
    server {
        location /not-broken {
            proxy_pass http://not.broken.example;
        }
        location /is-broken {
            proxy_pass http://is.broken.example
        }
    }
}
")].
Definition fs_missing_semicolon_below_globs : list (string * list string) := [].

(* missing-semicolon-below *)
Example parse_12 : view_ok (parse_main 100 (Opts [] None (fs_open fs_missing_semicolon_below) (fs_glob fs_missing_semicolon_below_globs) false false false false false false false [] default_match []) "testdata/configs/missing-semicolon-below/nginx.conf") ("failed", [("testdata/configs/missing-semicolon-below/nginx.conf", (Some (7)%Z), "directive ""proxy_pass"" is not terminated by "";"" in testdata/configs/missing-semicolon-below/nginx.conf:7")], [("testdata/configs/missing-semicolon-below/nginx.conf", "failed", [((Some (7)%Z), "directive ""proxy_pass"" is not terminated by "";"" in testdata/configs/missing-semicolon-below/nginx.conf:7")])]) [[(Dir "http" (1)%Z [] "" None (Some [(Dir "server" (2)%Z [] "" None (Some [(Dir "location" (3)%Z ["/not-broken"] "" None (Some [(Dir "proxy_pass" (4)%Z ["http://not.broken.example"] "" None None None false)]) None false); (Dir "location" (6)%Z ["/is-broken"] "" None (Some []) None false)]) None false)]) None false)]].
Proof. vm_compute. split; reflexivity. Qed.

Definition fs_comments_between_args : list (string * string) := [
  ("testdata/configs/comments-between-args/nginx.conf", "http { #comment 1
    log_format #comment 2
        \#arg\ 1 #comment 3
        '#arg 2' #comment 4
        #comment 5
        ;
}
");
  ("testdata/configs/comments-between-args/nginx.json", "{
  ""status"": ""ok"",
  ""errors"": [],
  ""config"": [
    {
      ""file"": ""testdata/configs/comments-between-args/nginx.conf"",
      ""status"": ""ok"",
      ""errors"": [],
      ""parsed"": [
        {
          ""directive"": ""http"",
          ""line"": 1,
          ""args"": [],
          ""block"": [
            {
              ""directive"": ""#"",
              ""line"": 1,
              ""args"": [],
              ""comment"": ""comment 1""
            },
            {
              ""directive"": ""log_format"",
              ""line"": 2,
              ""args"": [
                ""\\#arg\\ 1"",
                ""#arg 2""
              ]
            },
            {
              ""directive"": ""#"",
              ""line"": 2,
              ""args"": [],
              ""comment"": ""comment 2""
            },
            {
              ""directive"": ""#"",
              ""line"": 2,
              ""args"": [],
              ""comment"": ""comment 3""
            },
            {
              ""directive"": ""#"",
              ""line"": 2,
              ""args"": [],
              ""comment"": ""comment 4""
            },
            {
              ""directive"": ""#"",
              ""line"": 2,
              ""args"": [],
              ""comment"": ""comment 5""
            }
          ]
        }
      ]
    }
  ]
}
");
  ("testdata/configs/comments-between-args/xp.json", "{
  ""status"": ""ok"",
  ""errors"": [],
  ""config"": [
    {
      ""file"": ""testdata/configs/comments-between-args/nginx.conf"",
      ""status"": ""ok"",
      ""errors"": [],
      ""parsed"": [
        {
          ""directive"": ""http"",
          ""line"": 1,
          ""args"": [],
          ""block"": [
            {
              ""directive"": ""#"",
              ""line"": 1,
              ""args"": [],
              ""comment"": ""comment 1""
            },
            {
              ""directive"": ""log_format"",
              ""line"": 2,
              ""args"": [
                ""\\#arg\\ 1"",
                ""#arg 2""
              ]
            },
            {
              ""directive"": ""#"",
              ""line"": 2,
              ""args"": [],
              ""comment"": ""comment 2""
            },
            {
              ""directive"": ""#"",
              ""line"": 2,
              ""args"": [],
              ""comment"": ""comment 3""
            },
            {
              ""directive"": ""#"",
              ""line"": 2,
              ""args"": [],
              ""comment"": ""comment 4""
            },
            {
              ""directive"": ""#"",
              ""line"": 2,
              ""args"": [],
              ""comment"": ""comment 5""
            }
          ]
        }
      ]
    }
  ]
}
")].
Definition fs_comments_between_args_globs : list (string * list string) := [].

(* comments-between-args *)
Example parse_13 : view_ok (parse_main 100 (Opts [] None (fs_open fs_comments_between_args) (fs_glob fs_comments_between_args_globs) false false false true false false false [] default_match []) "testdata/configs/comments-between-args/nginx.conf") ("ok", [], [("testdata/configs/comments-between-args/nginx.conf", "ok", [])]) [[(Dir "http" (1)%Z [] "" None (Some [(Dir "#" (1)%Z [] "" None None (Some "comment 1") false); (Dir "log_format" (2)%Z ["\#arg\ 1"; "#arg 2"] "" None None None false); (Dir "#" (2)%Z [] "" None None (Some "comment 2") false); (Dir "#" (2)%Z [] "" None None (Some "comment 3") false); (Dir "#" (2)%Z [] "" None None (Some "comment 4") false); (Dir "#" (2)%Z [] "" None None (Some "comment 5") false)]) None false)]].
Proof. vm_compute. split; reflexivity. Qed.

Definition fs_comments_between_args_disable_parse : list (string * string) := [
  ("testdata/configs/comments-between-args-disable-parse/nginx.conf", "http { #comment 1
    log_format #comment 2
        \#arg\ 1 #comment 3
        '#arg 2' #comment 4
        #comment 5
        ;
}")].
Definition fs_comments_between_args_disable_parse_globs : list (string * list string) := [].

(* comments-between-args-disable-parse *)
Example parse_14 : view_ok (parse_main 100 (Opts [] None (fs_open fs_comments_between_args_disable_parse) (fs_glob fs_comments_between_args_disable_parse_globs) false false false false false false false [] default_match []) "testdata/configs/comments-between-args-disable-parse/nginx.conf") ("ok", [], [("testdata/configs/comments-between-args-disable-parse/nginx.conf", "ok", [])]) [[(Dir "http" (1)%Z [] "" None (Some [(Dir "log_format" (2)%Z ["\#arg\ 1"; "#arg 2"] "" None None None false)]) None false)]].
Proof. vm_compute. split; reflexivity. Qed.

Definition fs_premature_eof : list (string * string) := [
  ("testdata/configs/premature-eof/nginx.conf", "http {
    server {
        listen")].
Definition fs_premature_eof_globs : list (string * list string) := [].

(* premature-eof *)
Example parse_15 : view_ok (parse_main 100 (Opts [] None (fs_open fs_premature_eof) (fs_glob fs_premature_eof_globs) false false false false false false false [] default_match []) "testdata/configs/premature-eof/nginx.conf") ("failed", [("testdata/configs/premature-eof/nginx.conf", (Some (3)%Z), "premature end of file in testdata/configs/premature-eof/nginx.conf:3")], [("testdata/configs/premature-eof/nginx.conf", "failed", [((Some (3)%Z), "premature end of file in testdata/configs/premature-eof/nginx.conf:3")])]) [[]].
Proof. vm_compute. split; reflexivity. Qed.

Definition fs_directive_with_space : list (string * string) := [
  ("testdata/configs/directive-with-space/nginx.conf", "events {
}
http {
    map $http_user_agent $mobile {
        default       0;
        '~Opera Mini' 1;
    }

    charset_map koi8-r utf-8 {
        C0 D18E;
        C1 D0B0;
    }
}
");
  ("testdata/configs/directive-with-space/nginx.json", "{
  ""status"": ""ok"",
  ""errors"": [],
  ""config"": [
    {
      ""file"": ""testdata/configs/directive-with-space/nginx.conf"",
      ""status"": ""ok"",
      ""errors"": [],
      ""parsed"": [
        {
          ""directive"": ""events"",
          ""line"": 1,
          ""args"": [],
          ""block"": []
        },
        {
          ""directive"": ""http"",
          ""line"": 3,
          ""args"": [],
          ""block"": [
            {
              ""directive"": ""map"",
              ""line"": 4,
              ""args"": [
                ""$http_user_agent"",
                ""$mobile""
              ],
              ""block"": [
                {
                  ""directive"": ""default"",
                  ""line"": 5,
                  ""args"": [
                    ""0""
                  ]
                },
                {
                  ""directive"": ""~Opera Mini"",
                  ""line"": 6,
                  ""args"": [
                    ""1""
                  ]
                }
              ]
            }
          ]
        }
      ]
    }
  ]
}
");
  ("testdata/configs/directive-with-space/xp.json", "{
  ""status"": ""ok"",
  ""errors"": [],
  ""config"": [
    {
      ""file"": ""testdata/configs/directive-with-space/nginx.conf"",
      ""status"": ""ok"",
      ""errors"": [],
      ""parsed"": [
        {
          ""directive"": ""events"",
          ""line"": 1,
          ""args"": []
        },
        {
          ""directive"": ""http"",
          ""line"": 3,
          ""args"": [],
          ""block"": [
            {
              ""directive"": ""map"",
              ""line"": 4,
              ""args"": [
                ""$http_user_agent"",
                ""$mobile""
              ],
              ""block"": [
                {
                  ""directive"": ""default"",
                  ""line"": 5,
                  ""args"": [
                    ""0""
                  ]
                },
                {
                  ""directive"": ""~Opera Mini"",
                  ""line"": 6,
                  ""args"": [
                    ""1""
                  ]
                }
              ]
            }
          ]
        }
      ]
    }
  ]
}
")].
Definition fs_directive_with_space_globs : list (string * list string) := [].

(* directive-with-space *)
Example parse_16 : view_ok (parse_main 100 (Opts [] None (fs_open fs_directive_with_space) (fs_glob fs_directive_with_space_globs) false false false false true false false [] default_match []) "testdata/configs/directive-with-space/nginx.conf") ("ok", [], [("testdata/configs/directive-with-space/nginx.conf", "ok", [])]) [[(Dir "events" (1)%Z [] "" None (Some []) None false); (Dir "http" (3)%Z [] "" None (Some [(Dir "map" (4)%Z ["$http_user_agent"; "$mobile"] "" None (Some [(Dir "default" (5)%Z ["0"] "" None (Some []) None true); (Dir "~Opera Mini" (6)%Z ["1"] "" None (Some []) None true)]) None false); (Dir "charset_map" (9)%Z ["koi8-r"; "utf-8"] "" None (Some [(Dir "C0" (10)%Z ["D18E"] "" None (Some []) None true); (Dir "C1" (11)%Z ["D0B0"] "" None (Some []) None true)]) None false)]) None false)]].
Proof. vm_compute. split; reflexivity. Qed.

Definition fs_invalid_map : list (string * string) := [
  ("testdata/configs/invalid-map/nginx.conf", "events {
}
http {
    map $http_user_agent $mobile {
        default       0;
        '~Opera Mini' 1;
        i_am_lost {
            return 500;
        }
        too many params;
    }

    charset_map koi8-r utf-8 {
        C0;
    }
}
")].
Definition fs_invalid_map_globs : list (string * list string) := [].

(* invalid-map *)
Example parse_17 : view_ok (parse_main 100 (Opts [] None (fs_open fs_invalid_map) (fs_glob fs_invalid_map_globs) false false false false true false false [] default_match []) "testdata/configs/invalid-map/nginx.conf") ("failed", [("testdata/configs/invalid-map/nginx.conf", (Some (7)%Z), "unexpected ""{"" in testdata/configs/invalid-map/nginx.conf:7"); ("testdata/configs/invalid-map/nginx.conf", (Some (10)%Z), "invalid number of parameters in testdata/configs/invalid-map/nginx.conf:10"); ("testdata/configs/invalid-map/nginx.conf", (Some (14)%Z), "invalid number of parameters in testdata/configs/invalid-map/nginx.conf:14")], [("testdata/configs/invalid-map/nginx.conf", "failed", [((Some (7)%Z), "unexpected ""{"" in testdata/configs/invalid-map/nginx.conf:7"); ((Some (10)%Z), "invalid number of parameters in testdata/configs/invalid-map/nginx.conf:10"); ((Some (14)%Z), "invalid number of parameters in testdata/configs/invalid-map/nginx.conf:14")])]) [[(Dir "events" (1)%Z [] "" None (Some []) None false); (Dir "http" (3)%Z [] "" None (Some [(Dir "map" (4)%Z ["$http_user_agent"; "$mobile"] "" None (Some [(Dir "default" (5)%Z ["0"] "" None (Some []) None true); (Dir "~Opera Mini" (6)%Z ["1"] "" None (Some []) None true)]) None false); (Dir "charset_map" (13)%Z ["koi8-r"; "utf-8"] "" None (Some []) None false)]) None false)]].
Proof. vm_compute. split; reflexivity. Qed.

Definition fs_geo : list (string * string) := [
  ("testdata/configs/geo/nginx.conf", "events {
    worker_connections 1024;
}

http {
    geo $geo {
        ranges;
        default        0;
        192.168.1.0/24 1;
        127.0.0.1      2;
    }
    server {
        listen       127.0.0.1:8080;
        server_name  default_server;
        location / {
            if ( $geo = 2 ) {
                return 403;
            }
        }
    }
}");
  ("testdata/configs/geo/nginx.json", "{
  ""status"": ""ok"",
  ""errors"": [],
  ""config"": [
    {
      ""file"": ""testdata/configs/geo/nginx.conf"",
      ""status"": ""ok"",
      ""errors"": [],
      ""parsed"": [
        {
          ""directive"": ""events"",
          ""line"": 1,
          ""args"": [],
          ""block"": [
            {
              ""directive"": ""worker_connections"",
              ""line"": 2,
              ""args"": [
                ""1024""
              ]
            }
          ]
        },
        {
          ""directive"": ""http"",
          ""line"": 5,
          ""args"": [],
          ""block"": [
            {
              ""directive"": ""geo"",
              ""line"": 6,
              ""args"": [
                ""$geo""
              ],
              ""block"": [
                {
                  ""directive"": ""ranges"",
                  ""line"": 7,
                  ""args"": []
                },
                {
                  ""directive"": ""default"",
                  ""line"": 8,
                  ""args"": [
                    ""0""
                  ]
                },
                {
                  ""directive"": ""192.168.1.0/24"",
                  ""line"": 9,
                  ""args"": [
                    ""1""
                  ]
                },
                {
                  ""directive"": ""127.0.0.1"",
                  ""line"": 10,
                  ""args"": [
                    ""2""
                  ]
                }
              ]
            },
            {
              ""directive"": ""server"",
              ""line"": 12,
              ""args"": [],
              ""block"": [
                {
                  ""directive"": ""listen"",
                  ""line"": 13,
                  ""args"": [
                    ""127.0.0.1:8080""
                  ]
                },
                {
                  ""directive"": ""server_name"",
                  ""line"": 14,
                  ""args"": [
                    ""default_server""
                  ]
                },
                {
                  ""directive"": ""location"",
                  ""line"": 15,
                  ""args"": [
                    ""/""
                  ],
                  ""block"": [
                    {
                      ""directive"": ""if"",
                      ""line"": 16,
                      ""args"": [
                        ""$geo"",
                        ""="",
                        ""2""
                      ],
                      ""block"": [
                        {
                          ""directive"": ""return"",
                          ""line"": 17,
                          ""args"": [
                            ""403""
                          ]
                        }
                      ]
                    }
                  ]
                }
              ]
            }
          ]
        }
      ]
    }
  ]
}");
  ("testdata/configs/geo/xp.json", "{
  ""status"": ""ok"",
  ""errors"": [],
  ""config"": [
    {
      ""file"": ""testdata/configs/geo/nginx.conf"",
      ""status"": ""ok"",
      ""errors"": [],
      ""parsed"": [
        {
          ""directive"": ""events"",
          ""line"": 1,
          ""args"": [],
          ""block"": [
            {
              ""directive"": ""worker_connections"",
              ""line"": 2,
              ""args"": [
                ""1024""
              ]
            }
          ]
        },
        {
          ""directive"": ""http"",
          ""line"": 5,
          ""args"": [],
          ""block"": [
            {
              ""directive"": ""geo"",
              ""line"": 6,
              ""args"": [
                ""$geo""
              ],
              ""block"": [
                {
                  ""directive"": ""ranges"",
                  ""line"": 7,
                  ""args"": []
                },
                {
                  ""directive"": ""default"",
                  ""line"": 8,
                  ""args"": [
                    ""0""
                  ]
                },
                {
                  ""directive"": ""192.168.1.0/24"",
                  ""line"": 9,
                  ""args"": [
                    ""1""
                  ]
                },
                {
                  ""directive"": ""127.0.0.1"",
                  ""line"": 10,
                  ""args"": [
                    ""2""
                  ]
                }
              ]
            },
            {
              ""directive"": ""server"",
              ""line"": 12,
              ""args"": [],
              ""block"": [
                {
                  ""directive"": ""listen"",
                  ""line"": 13,
                  ""args"": [
                    ""127.0.0.1:8080""
                  ]
                },
                {
                  ""directive"": ""server_name"",
                  ""line"": 14,
                  ""args"": [
                    ""default_server""
                  ]
                },
                {
                  ""directive"": ""location"",
                  ""line"": 15,
                  ""args"": [
                    ""/""
                  ],
                  ""block"": [
                    {
                      ""directive"": ""if"",
                      ""line"": 16,
                      ""args"": [
                        ""$geo"",
                        ""="",
                        ""2""
                      ],
                      ""block"": [
                        {
                          ""directive"": ""return"",
                          ""line"": 17,
                          ""args"": [
                            ""403""
                          ]
                        }
                      ]
                    }
                  ]
                }
              ]
            }
          ]
        }
      ]
    }
  ]
}")].
Definition fs_geo_globs : list (string * list string) := [].

(* geo *)
Example parse_18 : view_ok (parse_main 100 (Opts [] None (fs_open fs_geo) (fs_glob fs_geo_globs) false false false false true false false [] default_match []) "testdata/configs/geo/nginx.conf") ("ok", [], [("testdata/configs/geo/nginx.conf", "ok", [])]) [[(Dir "events" (1)%Z [] "" None (Some [(Dir "worker_connections" (2)%Z ["1024"] "" None None None false)]) None false); (Dir "http" (5)%Z [] "" None (Some [(Dir "geo" (6)%Z ["$geo"] "" None (Some [(Dir "ranges" (7)%Z [] "" None (Some []) None true); (Dir "default" (8)%Z ["0"] "" None (Some []) None true); (Dir "192.168.1.0/24" (9)%Z ["1"] "" None (Some []) None true); (Dir "127.0.0.1" (10)%Z ["2"] "" None (Some []) None true)]) None false); (Dir "server" (12)%Z [] "" None (Some [(Dir "listen" (13)%Z ["127.0.0.1:8080"] "" None (Some []) None false); (Dir "server_name" (14)%Z ["default_server"] "" None (Some []) None false); (Dir "location" (15)%Z ["/"] "" None (Some [(Dir "if" (16)%Z ["$geo"; "="; "2"] "" None (Some [(Dir "return" (17)%Z ["403"] "" None (Some []) None false)]) None false)]) None false)]) None false)]) None false)]].
Proof. vm_compute. split; reflexivity. Qed.

Definition fs_types : list (string * string) := [
  ("testdata/configs/types/nginx.conf", "http {
    types {
        text/html html htm shtml;
        text/css css;
    }
}
")].
Definition fs_types_globs : list (string * list string) := [].

(* types *)
Example parse_19 : view_ok (parse_main 100 (Opts [] None (fs_open fs_types) (fs_glob fs_types_globs) false false false false true false false [] default_match []) "testdata/configs/types/nginx.conf") ("ok", [], [("testdata/configs/types/nginx.conf", "ok", [])]) [[(Dir "http" (1)%Z [] "" None (Some [(Dir "types" (2)%Z [] "" None (Some [(Dir "text/html" (3)%Z ["html"; "htm"; "shtml"] "" None (Some []) None true); (Dir "text/css" (4)%Z ["css"] "" None (Some []) None true)]) None false)]) None false)]].
Proof. vm_compute. split; reflexivity. Qed.

Definition fs_nap_waf_v4 : list (string * string) := [
  ("testdata/configs/nap-waf-v4/nginx.conf", "user nginx;
worker_processes  4;

load_module modules/ngx_http_app_protect_module.so;

error_log /var/log/nginx/error.log debug;

events {
    worker_connections  65536;
}

http {
    include       /etc/nginx/mime.types;
    default_type  application/octet-stream;
    sendfile        on;
    keepalive_timeout  65;

    app_protect_enable on; # This is how you enable NGINX App Protect WAF in the relevant context/block
    app_protect_policy_file ""/etc/app_protect/conf/NginxDefaultPolicy.json""; # This is a reference to the policy file to use. If not defined, the default policy is used
    app_protect_security_log_enable on; # This section enables the logging capability
    app_protect_security_log ""/etc/app_protect/conf/log_default.json"" syslog:server=127.0.0.1:515; # This is where the remote logger is defined in terms of: logging options (defined in the referenced file), log server IP, log server port

    server {
        listen       80;
        server_name  localhost;
        proxy_http_version 1.1;

        location / {
            client_max_body_size 0;
            default_type text/html;
            proxy_pass http://172.29.38.211:80$request_uri;
        }
    }
}
")].
Definition fs_nap_waf_v4_globs : list (string * list string) := [].

(* nap-waf-v4 *)
Example parse_20 : view_ok (parse_main 100 (Opts [] None (fs_open fs_nap_waf_v4) (fs_glob fs_nap_waf_v4_globs) false false true false true false false [lookup nginxPlusLatestDirectives; lookup appProtectWAFv4Directives] default_match []) "testdata/configs/nap-waf-v4/nginx.conf") ("ok", [], [("testdata/configs/nap-waf-v4/nginx.conf", "ok", [])]) [[(Dir "user" (1)%Z ["nginx"] "" None None None false); (Dir "worker_processes" (2)%Z ["4"] "" None None None false); (Dir "load_module" (4)%Z ["modules/ngx_http_app_protect_module.so"] "" None None None false); (Dir "error_log" (6)%Z ["/var/log/nginx/error.log"; "debug"] "" None None None false); (Dir "events" (8)%Z [] "" None (Some [(Dir "worker_connections" (9)%Z ["65536"] "" None None None false)]) None false); (Dir "http" (12)%Z [] "" None (Some [(Dir "include" (13)%Z ["/etc/nginx/mime.types"] "" None None None false); (Dir "default_type" (14)%Z ["application/octet-stream"] "" None None None false); (Dir "sendfile" (15)%Z ["on"] "" None None None false); (Dir "keepalive_timeout" (16)%Z ["65"] "" None None None false); (Dir "app_protect_enable" (18)%Z ["on"] "" None None None false); (Dir "app_protect_policy_file" (19)%Z ["/etc/app_protect/conf/NginxDefaultPolicy.json"] "" None None None false); (Dir "app_protect_security_log_enable" (20)%Z ["on"] "" None None None false); (Dir "app_protect_security_log" (21)%Z ["/etc/app_protect/conf/log_default.json"; "syslog:server=127.0.0.1:515"] "" None None None false); (Dir "server" (23)%Z [] "" None (Some [(Dir "listen" (24)%Z ["80"] "" None None None false); (Dir "server_name" (25)%Z ["localhost"] "" None None None false); (Dir "proxy_http_version" (26)%Z ["1.1"] "" None None None false); (Dir "location" (28)%Z ["/"] "" None (Some [(Dir "client_max_body_size" (29)%Z ["0"] "" None None None false); (Dir "default_type" (30)%Z ["text/html"] "" None None None false); (Dir "proxy_pass" (31)%Z ["http://172.29.38.211:80$request_uri"] "" None None None false)]) None false)]) None false)]) None false)]].
Proof. vm_compute. split; reflexivity. Qed.

Definition fs_nap_waf_v5 : list (string * string) := [
  ("testdata/configs/nap-waf-v5/nginx.conf", "user nginx;
worker_processes  4;

load_module modules/ngx_http_app_protect_module.so;

error_log /var/log/nginx/error.log debug;

events {
    worker_connections  65536;
}

http {
    include       /etc/nginx/mime.types;
    default_type  application/octet-stream;
    sendfile        on;
    keepalive_timeout  65;

    app_protect_enforcer_address 127.0.0.1:50000;
    app_protect_enable on; # This is how you enable NGINX App Protect WAF in the relevant context/block
    app_protect_policy_file ""/policies/policy1.tgz""; # This is a reference to the policy bundle file to use. If not defined, the default policy is used
    app_protect_security_log_enable on; # This section enables the logging capability
    app_protect_security_log log_all syslog:server=127.0.0.1:515; # This is where the remote logger is defined in terms of: logging options (defined in the referenced file), log server IP, log server port

    server {
        listen       80;
        server_name  localhost;
        proxy_http_version 1.1;

        location / {
            client_max_body_size 0;
            default_type text/html;
            proxy_pass http://172.29.38.211/;
        }
    }
}
")].
Definition fs_nap_waf_v5_globs : list (string * list string) := [].

(* nap-waf-v5 *)
Example parse_21 : view_ok (parse_main 100 (Opts [] None (fs_open fs_nap_waf_v5) (fs_glob fs_nap_waf_v5_globs) false false true false true false false [lookup nginxPlusLatestDirectives; lookup appProtectWAFv5Directives] default_match []) "testdata/configs/nap-waf-v5/nginx.conf") ("ok", [], [("testdata/configs/nap-waf-v5/nginx.conf", "ok", [])]) [[(Dir "user" (1)%Z ["nginx"] "" None None None false); (Dir "worker_processes" (2)%Z ["4"] "" None None None false); (Dir "load_module" (4)%Z ["modules/ngx_http_app_protect_module.so"] "" None None None false); (Dir "error_log" (6)%Z ["/var/log/nginx/error.log"; "debug"] "" None None None false); (Dir "events" (8)%Z [] "" None (Some [(Dir "worker_connections" (9)%Z ["65536"] "" None None None false)]) None false); (Dir "http" (12)%Z [] "" None (Some [(Dir "include" (13)%Z ["/etc/nginx/mime.types"] "" None None None false); (Dir "default_type" (14)%Z ["application/octet-stream"] "" None None None false); (Dir "sendfile" (15)%Z ["on"] "" None None None false); (Dir "keepalive_timeout" (16)%Z ["65"] "" None None None false); (Dir "app_protect_enforcer_address" (18)%Z ["127.0.0.1:50000"] "" None None None false); (Dir "app_protect_enable" (19)%Z ["on"] "" None None None false); (Dir "app_protect_policy_file" (20)%Z ["/policies/policy1.tgz"] "" None None None false); (Dir "app_protect_security_log_enable" (21)%Z ["on"] "" None None None false); (Dir "app_protect_security_log" (22)%Z ["log_all"; "syslog:server=127.0.0.1:515"] "" None None None false); (Dir "server" (24)%Z [] "" None (Some [(Dir "listen" (25)%Z ["80"] "" None None None false); (Dir "server_name" (26)%Z ["localhost"] "" None None None false); (Dir "proxy_http_version" (27)%Z ["1.1"] "" None None None false); (Dir "location" (29)%Z ["/"] "" None (Some [(Dir "client_max_body_size" (30)%Z ["0"] "" None None None false); (Dir "default_type" (31)%Z ["text/html"] "" None None None false); (Dir "proxy_pass" (32)%Z ["http://172.29.38.211/"] "" None None None false)]) None false)]) None false)]) None false)]].
Proof. vm_compute. split; reflexivity. Qed.

(* lua-basic *)
Example parse_22 : view_ok (parse_main 100 (Opts [] None (fs_open fs_lua_basic) (fs_glob fs_lua_basic_globs) false false true false true false false [lookup nginxPlusLatestDirectives; lookup luaDirectives] default_match []) "testdata/configs/lua-basic/nginx.conf") ("ok", [], [("testdata/configs/lua-basic/nginx.conf", "ok", [])]) [[(Dir "http" (1)%Z [] "" None (Some [(Dir "init_by_lua" (2)%Z ["
        print(""I need no extra escaping here, for example: \r\nblah"")
    "] "" None (Some []) None false); (Dir "lua_shared_dict" (5)%Z ["dogs"; "1m"] "" None (Some []) None false); (Dir "server" (6)%Z [] "" None (Some [(Dir "listen" (7)%Z ["8080"] "" None (Some []) None false); (Dir "location" (8)%Z ["/"] "" None (Some [(Dir "set_by_lua" (9)%Z ["$res"; " return 32 + math.cos(32) "] "" None None None false); (Dir "access_by_lua_file" (10)%Z ["/path/to/lua/access.lua"] "" None (Some []) None false)]) None false)]) None false)]) None false)]].
Proof. vm_compute. split; reflexivity. Qed.

(* lua-block-simple *)
Example parse_23 : view_ok (parse_main 100 (Opts [] None (fs_open fs_lua_block_simple) (fs_glob fs_lua_block_simple_globs) false false true false true false false [lookup nginxPlusLatestDirectives; lookup luaDirectives] default_match lua_lexers) "testdata/configs/lua-block-simple/nginx.conf") ("ok", [], [("testdata/configs/lua-block-simple/nginx.conf", "ok", [])]) [[(Dir "http" (1)%Z [] "" None (Some [(Dir "init_by_lua_block" (2)%Z ["
        print(""Lua block code with curly brace str {"")
    "] "" None (Some []) None false); (Dir "init_worker_by_lua_block" (5)%Z ["
        print(""Work that every worker"")
    "] "" None (Some []) None false); (Dir "body_filter_by_lua_block" (8)%Z ["
        local data, eof = ngx.arg[1], ngx.arg[2]
    "] "" None (Some []) None false); (Dir "header_filter_by_lua_block" (11)%Z ["
        ngx.header[""content-length""] = nil
    "] "" None (Some []) None false); (Dir "server" (14)%Z [] "" None (Some [(Dir "listen" (15)%Z ["127.0.0.1:8080"] "" None (Some []) None false); (Dir "location" (16)%Z ["/"] "" None (Some [(Dir "content_by_lua_block" (17)%Z ["
                ngx.say(""I need no extra escaping here, for example: \r\nblah"")
            "] "" None None None false); (Dir "return" (20)%Z ["200"; "foo bar baz"] "" None None None false)]) None false); (Dir "ssl_certificate_by_lua_block" (22)%Z ["
            print(""About to initiate a new SSL handshake!"")
        "] "" None (Some []) None false); (Dir "log_by_lua_block" (25)%Z ["
            print(""I need no extra escaping here, for example: \r\nblah"")
        "] "" None (Some []) None false); (Dir "location" (28)%Z ["/a"] "" None (Some [(Dir "client_max_body_size" (29)%Z ["100k"] "" None None None false); (Dir "client_body_buffer_size" (30)%Z ["100k"] "" None (Some []) None false)]) None false)]) None false); (Dir "upstream" (34)%Z ["foo"] "" None (Some [(Dir "server" (35)%Z ["127.0.0.1"] "" None (Some []) None false); (Dir "balancer_by_lua_block" (36)%Z ["
            -- use Lua to do something interesting here
        "] "" None (Some []) None false)]) None false)]) None false)]].
Proof. vm_compute. split; reflexivity. Qed.

(* lua-block-larger *)
Example parse_24 : view_ok (parse_main 100 (Opts [] None (fs_open fs_lua_block_larger) (fs_glob fs_lua_block_larger_globs) false false true false true false false [lookup nginxPlusLatestDirectives; lookup luaDirectives] default_match lua_lexers) "testdata/configs/lua-block-larger/nginx.conf") ("ok", [], [("testdata/configs/lua-block-larger/nginx.conf", "ok", [])]) [[(Dir "http" (1)%Z [] "" None (Some [(Dir "access_by_lua_block" (2)%Z ["
        -- check the client IP address is in our black list
        if ngx.var.remote_addr == ""132.5.72.3"" then
            ngx.exit(ngx.HTTP_FORBIDDEN)
        end

        -- check if the URI contains bad words
        if ngx.var.uri and
               string.match(ngx.var.request_body, ""evil"")
        then
            return ngx.redirect(""/terms_of_use.html"")
        end

        -- tests passed
    "] "" None (Some []) None false); (Dir "server" (17)%Z [] "" None (Some [(Dir "listen" (18)%Z ["127.0.0.1:8080"] "" None (Some []) None false); (Dir "location" (19)%Z ["/"] "" None (Some [(Dir "content_by_lua_block" (20)%Z ["
                ngx.req.read_body()  -- explicitly read the req body
                local data = ngx.req.get_body_data()
                if data then
                    ngx.say(""body data:"")
                    ngx.print(data)
                    return
                end

                -- body may get buffered in a temp file:
                local file = ngx.req.get_body_file()
                if file then
                    ngx.say(""body is in file "", file)
                else
                    ngx.say(""no body found"")
                end
            "] "" None (Some []) None false); (Dir "return" (37)%Z ["200"; "foo bar baz"] "" None None None false)]) None false)]) None false)]) None false)]].
Proof. vm_compute. split; reflexivity. Qed.

(* lua-block-tricky *)
Example parse_25 : view_ok (parse_main 100 (Opts [] None (fs_open fs_lua_block_tricky) (fs_glob fs_lua_block_tricky_globs) false false true true true false false [lookup nginxPlusLatestDirectives; lookup luaDirectives] default_match lua_lexers) "testdata/configs/lua-block-tricky/nginx.conf") ("ok", [], [("testdata/configs/lua-block-tricky/nginx.conf", "ok", [])]) [[(Dir "http" (1)%Z [] "" None (Some [(Dir "server" (2)%Z [] "" None (Some [(Dir "listen" (3)%Z ["127.0.0.1:8080"] "" None (Some []) None false); (Dir "server_name" (4)%Z ["content_by_lua_block"] "" None (Some []) None false); (Dir "#" (4)%Z [] "" None None (Some " make sure this doesn't trip up lexers") false); (Dir "set_by_lua_block" (5)%Z ["$res"; " -- irregular lua block directive
            local a = 32
            local b = 56

            ngx.var.diff = a - b;  -- write to $diff directly
            return a + b;          -- return the $sum value normally
        "] "" None (Some []) None false); (Dir "rewrite_by_lua_block" (12)%Z [" -- have valid braces in Lua code and quotes around directive
            do_something(""hello, world!\nhiya\n"")
            a = { 1, 2, 3 }
            btn = iup.button({title=""ok""})
        "] "" None (Some []) None false)]) None false); (Dir "upstream" (18)%Z ["content_by_lua_block"] "" None (Some [(Dir "#" (19)%Z [] "" None None (Some " stuff") false)]) None false)]) None false)]].
Proof. vm_compute. split; reflexivity. Qed.

Definition fs_limit_req_zone : list (string * string) := [
  ("testdata/configs/limit-req-zone/nginx.conf", "user  nginx;
worker_processes  auto;

error_log  /var/log/nginx/error.log notice;
pid        /var/run/nginx.pid;

events {
    worker_connections  1024;
}

http {
    include       /etc/nginx/mime.types;
    default_type  application/octet-stream;

    limit_req_zone $binary_remote_addr zone=one:10m rate=1r/s sync;

    log_format  main  '$remote_addr - $remote_user [$time_local] ""$request"" '
                      '$status $body_bytes_sent ""$http_referer"" '
                      '""$http_user_agent"" ""$http_x_forwarded_for""';

    access_log  /var/log/nginx/access.log  main;

    sendfile        on;

    keepalive_timeout  65;
}")].
Definition fs_limit_req_zone_globs : list (string * list string) := [].

(* limit-req-zone *)
Example parse_26 : view_ok (parse_main 100 (Opts [] None (fs_open fs_limit_req_zone) (fs_glob fs_limit_req_zone_globs) false false true false true false false [lookup nginxPlusR33Directives] default_match []) "testdata/configs/limit-req-zone/nginx.conf") ("ok", [], [("testdata/configs/limit-req-zone/nginx.conf", "ok", [])]) [[(Dir "user" (1)%Z ["nginx"] "" None None None false); (Dir "worker_processes" (2)%Z ["auto"] "" None None None false); (Dir "error_log" (4)%Z ["/var/log/nginx/error.log"; "notice"] "" None None None false); (Dir "pid" (5)%Z ["/var/run/nginx.pid"] "" None None None false); (Dir "events" (7)%Z [] "" None (Some [(Dir "worker_connections" (8)%Z ["1024"] "" None None None false)]) None false); (Dir "http" (11)%Z [] "" None (Some [(Dir "include" (12)%Z ["/etc/nginx/mime.types"] "" None None None false); (Dir "default_type" (13)%Z ["application/octet-stream"] "" None None None false); (Dir "limit_req_zone" (15)%Z ["$binary_remote_addr"; "zone=one:10m"; "rate=1r/s"; "sync"] "" None None None false); (Dir "log_format" (17)%Z ["main"; "$remote_addr - $remote_user [$time_local] ""$request"" "; "$status $body_bytes_sent ""$http_referer"" "; """$http_user_agent"" ""$http_x_forwarded_for"""] "" None None None false); (Dir "access_log" (21)%Z ["/var/log/nginx/access.log"; "main"] "" None None None false); (Dir "sendfile" (23)%Z ["on"] "" None None None false); (Dir "keepalive_timeout" (25)%Z ["65"] "" None None None false)]) None false)]].
Proof. vm_compute. split; reflexivity. Qed.

Definition fs_geoip2 : list (string * string) := [
  ("testdata/configs/geoip2/nginx.conf", "http {
    geoip2 /etc/Geo/GeoLite2-City.mmdb {
        auto_reload 5s;
        $geoip2_city_name   city names en;
    }
    geoip2_proxy 203.0.113.0/24;
    geoip2_proxy_recursive on;
    server {
        listen 80;
        server_name localhost;
        location / {
            return 200 ""Hello $geoip2_city_name"";
        }
    }
}


stream {
    geoip2 /etc/Geo/GeoLite2-Country.mmdb {
        $geoip2_country_name country names en;
    }

    map $geoip2_country_name $backend{
        ""United States"" us_backend;
        default default_backend;
    }

    server {
        listen 12345;
        proxy_pass $backend; 
    } 
        
    upstream us_backend { 
        server 192.168.0.1:12345;
    } 
        
    upstream default_backend { 
        server 192.168.0.2:12345; 
    }
}
")].
Definition fs_geoip2_globs : list (string * list string) := [].

(* geoip2 *)
Example parse_27 : view_ok_nl (parse_main 100 (Opts [] None (fs_open fs_geoip2) (fs_glob fs_geoip2_globs) false false true false true false false [lookup nginxPlusLatestDirectives; lookup geoip2Directives] default_match []) "testdata/configs/geoip2/nginx.conf") ("ok", [], [("testdata/configs/geoip2/nginx.conf", "ok", [])]) [[(Dir "http" (1)%Z [] "" None (Some [(Dir "geoip2" (2)%Z ["/etc/Geo/GeoLite2-City.mmdb"] "" None (Some [(Dir "auto_reload" (3)%Z ["5s"] "" None (Some []) None true); (Dir "$geoip2_city_name" (4)%Z ["city"; "names"; "en"] "" None (Some []) None true)]) None false); (Dir "geoip2_proxy" (6)%Z ["203.0.113.0/24"] "" None (Some []) None false); (Dir "geoip2_proxy_recursive" (7)%Z ["on"] "" None (Some []) None false); (Dir "server" (8)%Z [] "" None (Some [(Dir "listen" (9)%Z ["80"] "" None (Some []) None false); (Dir "server_name" (10)%Z ["localhost"] "" None (Some []) None false); (Dir "location" (11)%Z ["/"] "" None (Some [(Dir "return" (12)%Z ["200"; "Hello $geoip2_city_name"] "" None None None false)]) None false)]) None false)]) None false); (Dir "stream" (18)%Z [] "" None (Some [(Dir "geoip2" (19)%Z ["/etc/Geo/GeoLite2-Country.mmdb"] "" None (Some [(Dir "$geoip2_country_name" (20)%Z ["country"; "names"; "en"] "" None (Some []) None true)]) None false); (Dir "map" (23)%Z ["$geoip2_country_name"; "$backend"] "" None (Some [(Dir "United States" (24)%Z ["us_backend"] "" None (Some []) None true); (Dir "default" (25)%Z ["default_backend"] "" None (Some []) None true)]) None false); (Dir "server" (28)%Z [] "" None (Some [(Dir "listen" (29)%Z ["12345"] "" None (Some []) None false); (Dir "proxy_pass" (30)%Z ["$backend"] "" None (Some []) None false)]) None false); (Dir "upstream" (33)%Z ["us_backend"] "" None (Some [(Dir "server" (34)%Z ["192.168.0.1:12345"] "" None (Some []) None false)]) None false); (Dir "upstream" (37)%Z ["default_backend"] "" None (Some [(Dir "server" (39)%Z ["192.168.0.2:12345"] "" None (Some []) None false)]) None false)]) None false)]].
Proof. vm_compute. split; reflexivity. Qed.

Definition fs_oidc : list (string * string) := [
  ("testdata/configs/oidc/nginx.conf", "http {
    oidc_provider my_idp {
        issuer        ""https://provider.domain"";
        client_id     ""unique_id"";
        client_secret ""unique_secret"";
    }
    server {
        auth_oidc my_idp;
        location / {
            return 200 ""Hello"";
        }
    }
}
")].
Definition fs_oidc_globs : list (string * list string) := [].

(* oidc *)
Example parse_28 : view_ok (parse_main 100 (Opts [] None (fs_open fs_oidc) (fs_glob fs_oidc_globs) false false true false true false false [lookup nginxPlusR36Directives] default_match []) "testdata/configs/oidc/nginx.conf") ("ok", [], [("testdata/configs/oidc/nginx.conf", "ok", [])]) [[(Dir "http" (1)%Z [] "" None (Some [(Dir "oidc_provider" (2)%Z ["my_idp"] "" None (Some [(Dir "issuer" (3)%Z ["https://provider.domain"] "" None (Some []) None false); (Dir "client_id" (4)%Z ["unique_id"] "" None (Some []) None false); (Dir "client_secret" (5)%Z ["unique_secret"] "" None (Some []) None false)]) None false); (Dir "server" (7)%Z [] "" None (Some [(Dir "auth_oidc" (8)%Z ["my_idp"] "" None (Some []) None false); (Dir "location" (9)%Z ["/"] "" None (Some [(Dir "return" (10)%Z ["200"; "Hello"] "" None None None false)]) None false)]) None false)]) None false)]].
Proof. vm_compute. split; reflexivity. Qed.

Definition fs_if_expr : list (string * string) := [
  ("testdata/configs/if-expr/empty-parens.conf", "events {
    worker_connections 1024;
}

http {
    server {
        listen       127.0.0.1:8080;
        server_name  default_server;
        if () {
            set $var 10;
        }
        location / {
            return 200 ""foo bar baz"";
        }
    }
}
");
  ("testdata/configs/if-expr/empty-spaced-parens.conf", "events {
    worker_connections 1024;
}

http {
    server {
        listen       127.0.0.1:8080;
        server_name  default_server;
        if ( ) {
            set $var 10;
        }
        location / {
            return 200 ""foo bar baz"";
        }
    }
}
");
  ("testdata/configs/if-expr/missing-closing-paren.conf", "events {
    worker_connections 1024;
}

http {
    server {
        listen       127.0.0.1:8080;
        server_name  default_server;
        if ($slow {
            set $var 10;
        }
        location / {
            return 200 ""foo bar baz"";
        }
    }
}
");
  ("testdata/configs/if-expr/missing-opening-paren.conf", "events {
    worker_connections 1024;
}

http {
    server {
        listen       127.0.0.1:8080;
        server_name  default_server;
        if $slow) {
            set $var 10;
        }
        location / {
            return 200 ""foo bar baz"";
        }
    }
}
");
  ("testdata/configs/if-expr/nginx.conf", "events {
    worker_connections 1024;
}

http {
    server {
        listen       127.0.0.1:8080;
        server_name  default_server;
        if ($slow) {
            set $var 10;
        }
        location / {
            return 200 ""foo bar baz"";
        }
    }
}
");
  ("testdata/configs/if-expr/no-parens.conf", "events {
    worker_connections 1024;
}

http {
    server {
        listen       127.0.0.1:8080;
        server_name  default_server;
        if $slow {
            set $var 10;
        }
        location / {
            return 200 ""foo bar baz"";
        }
    }
}
");
  ("testdata/configs/if-expr/spaced-parens.conf", "events {
    worker_connections 1024;
}

http {
    server {
        listen       127.0.0.1:8080;
        server_name  default_server;
        if ( $slow ) {
            set $var 10;
        }
        location / {
            return 200 ""foo bar baz"";
        }
    }
}
")].
Definition fs_if_expr_globs : list (string * list string) := [].

Example if_expr_0 : match parse_main 100 (Opts [] None (fs_open fs_if_expr) (fs_glob fs_if_expr_globs) true false true false false false false [] default_match []) "testdata/configs/if-expr/nginx.conf" with ROk p => match pl_config p with [_] => True | _ => False end | _ => False end.
Proof. vm_compute. exact I. Qed.

Example if_expr_1 : match parse_main 100 (Opts [] None (fs_open fs_if_expr) (fs_glob fs_if_expr_globs) true false true false false false false [] default_match []) "testdata/configs/if-expr/spaced-parens.conf" with ROk p => match pl_config p with [_] => True | _ => False end | _ => False end.
Proof. vm_compute. exact I. Qed.

Example if_expr_2 : match parse_main 100 (Opts [] None (fs_open fs_if_expr) (fs_glob fs_if_expr_globs) true false true false false false false [] default_match []) "testdata/configs/if-expr/missing-opening-paren.conf" with RErr _ => True | _ => False end.
Proof. vm_compute. exact I. Qed.

Example if_expr_3 : match parse_main 100 (Opts [] None (fs_open fs_if_expr) (fs_glob fs_if_expr_globs) true false true false false false false [] default_match []) "testdata/configs/if-expr/missing-closing-paren.conf" with RErr _ => True | _ => False end.
Proof. vm_compute. exact I. Qed.

Example if_expr_4 : match parse_main 100 (Opts [] None (fs_open fs_if_expr) (fs_glob fs_if_expr_globs) true false true false false false false [] default_match []) "testdata/configs/if-expr/no-parens.conf" with RErr _ => True | _ => False end.
Proof. vm_compute. exact I. Qed.

Example if_expr_5 : match parse_main 100 (Opts [] None (fs_open fs_if_expr) (fs_glob fs_if_expr_globs) true false true false false false false [] default_match []) "testdata/configs/if-expr/empty-parens.conf" with RErr _ => True | _ => False end.
Proof. vm_compute. exact I. Qed.

Example if_expr_6 : match parse_main 100 (Opts [] None (fs_open fs_if_expr) (fs_glob fs_if_expr_globs) true false true false false false false [] default_match []) "testdata/configs/if-expr/empty-spaced-parens.conf" with RErr _ => True | _ => False end.
Proof. vm_compute. exact I. Qed.

Definition fs_braces : list (string * string) := [
  ("testdata/configs/braces/extra-brace.conf", "# Generated by NGINX Controller 2021-02-01 17:36:11.009002952 +0000 UTC m=+230.885274373;
user nginx;
worker_processes auto;
error_log /var/log/nginx/error.log notice;
pid /var/run/nginx.pid;
load_module modules/ngx_http_f5_metrics_module.so;
events {
	worker_connections 1024;

##### Extra brace
}}


http {
	server {
		server_name 127.0.0.1;
		listen 127.0.0.1:49151;
		access_log off;
		f5_metrics off;
		location /api {
			api;
		}
	}
}");
  ("testdata/configs/braces/missing-brace.conf", "# Generated by NGINX Controller 2021-02-01 17:36:11.009002952 +0000 UTC m=+230.885274373;
user nginx;
worker_processes auto;
error_log /var/log/nginx/error.log notice;
pid /var/run/nginx.pid;
load_module modules/ngx_http_f5_metrics_module.so;
events {
	worker_connections 1024;

}

http {
	server {
		server_name 127.0.0.1;
		listen 127.0.0.1:49151;
		access_log off;
		f5_metrics off;
		location /api {
			api;
		}
	}
### Missing brace below
")].
Definition fs_braces_globs : list (string * list string) := [].

Example braces_0 : match parse_main 100 (Opts [] None (fs_open fs_braces) (fs_glob fs_braces_globs) true false true false false false false [] default_match []) "testdata/configs/braces/extra-brace.conf" with RErr e => if prefix "unexpected ""}"" in testdata/configs/braces/extra-brace.conf" (err_string e) then True else False | _ => False end.
Proof. vm_compute. exact I. Qed.

Example braces_1 : match parse_main 100 (Opts [] None (fs_open fs_braces) (fs_glob fs_braces_globs) true false true false false false false [] default_match []) "testdata/configs/braces/missing-brace.conf" with RErr e => if prefix "unexpected end of file, expecting ""}"" in testdata/configs/braces/missing-brace.conf" (err_string e) then True else False | _ => False end.
Proof. vm_compute. exact I. Qed.

Definition fs_includes_cycle : list (string * string) := [
  ("testdata/configs/includes-cycle/invalid/location1.conf", "location /foo {
    include location2.conf;
}
");
  ("testdata/configs/includes-cycle/invalid/location2.conf", "location /bar {
    include location1.conf;
}
");
  ("testdata/configs/includes-cycle/invalid/nginx.conf", "http {
    server {
        listen 8080;
        include location1.conf;
    }
}
");
  ("testdata/configs/includes-cycle/valid/location1.conf", "location /foo {
    include location2.conf;
}
");
  ("testdata/configs/includes-cycle/valid/location2.conf", "location /bar {
    return 200 'bar';
}
");
  ("testdata/configs/includes-cycle/valid/nginx.conf", "http {
    server {
        listen 8080;
        include location1.conf;
    }

    server {
        listen 8081;
        include location2.conf;
    }
}
")].
Definition fs_includes_cycle_globs : list (string * list string) := [].

Example cycle_0 : match parse_main 100 (Opts [] None (fs_open fs_includes_cycle) (fs_glob fs_includes_cycle_globs) true true false false false false false [] default_match []) "testdata/configs/includes-cycle/valid/nginx.conf" with ROk p => match pl_config p with [_] => True | _ => False end | _ => False end.
Proof. vm_compute. exact I. Qed.

Example cycle_1 : match parse_main 100 (Opts [] None (fs_open fs_includes_cycle) (fs_glob fs_includes_cycle_globs) true true false false false false false [] default_match []) "testdata/configs/includes-cycle/invalid/nginx.conf" with RErr _ => True | _ => False end.
Proof. vm_compute. exact I. Qed.

Definition fs_ubuntu_default : list (string * string) := [
  ("testdata/configs/ubuntu-default/mime.types", "
types {
    text/html                             html htm shtml;
    text/css                              css;
    text/xml                              xml;
    image/gif                             gif;
    image/jpeg                            jpeg jpg;
    application/javascript                js;
    application/atom+xml                  atom;
    application/rss+xml                   rss;

    text/mathml                           mml;
    text/plain                            txt;
    text/vnd.sun.j2me.app-descriptor      jad;
    text/vnd.wap.wml                      wml;
    text/x-component                      htc;

    image/png                             png;
    image/tiff                            tif tiff;
    image/vnd.wap.wbmp                    wbmp;
    image/x-icon                          ico;
    image/x-jng                           jng;
    image/x-ms-bmp                        bmp;
    image/svg+xml                         svg svgz;
    image/webp                            webp;

    application/font-woff                 woff;
    application/java-archive              jar war ear;
    application/json                      json;
    application/mac-binhex40              hqx;
    application/msword                    doc;
    application/pdf                       pdf;
    application/postscript                ps eps ai;
    application/rtf                       rtf;
    application/vnd.apple.mpegurl         m3u8;
    application/vnd.ms-excel              xls;
    application/vnd.ms-fontobject         eot;
    application/vnd.ms-powerpoint         ppt;
    application/vnd.wap.wmlc              wmlc;
    application/vnd.google-earth.kml+xml  kml;
    application/vnd.google-earth.kmz      kmz;
    application/x-7z-compressed           7z;
    application/x-cocoa                   cco;
    application/x-java-archive-diff       jardiff;
    application/x-java-jnlp-file          jnlp;
    application/x-makeself                run;
    application/x-perl                    pl pm;
    application/x-pilot                   prc pdb;
    application/x-rar-compressed          rar;
    application/x-redhat-package-manager  rpm;
    application/x-sea                     sea;
    application/x-shockwave-flash         swf;
    application/x-stuffit                 sit;
    application/x-tcl                     tcl tk;
    application/x-x509-ca-cert            der pem crt;
    application/x-xpinstall               xpi;
    application/xhtml+xml                 xhtml;
    application/xspf+xml                  xspf;
    application/zip                       zip;

    application/octet-stream              bin exe dll;
    application/octet-stream              deb;
    application/octet-stream              dmg;
    application/octet-stream              iso img;
    application/octet-stream              msi msp msm;

    application/vnd.openxmlformats-officedocument.wordprocessingml.document    docx;
    application/vnd.openxmlformats-officedocument.spreadsheetml.sheet          xlsx;
    application/vnd.openxmlformats-officedocument.presentationml.presentation  pptx;

    audio/midi                            mid midi kar;
    audio/mpeg                            mp3;
    audio/ogg                             ogg;
    audio/x-m4a                           m4a;
    audio/x-realaudio                     ra;

    video/3gpp                            3gpp 3gp;
    video/mp2t                            ts;
    video/mp4                             mp4;
    video/mpeg                            mpeg mpg;
    video/quicktime                       mov;
    video/webm                            webm;
    video/x-flv                           flv;
    video/x-m4v                           m4v;
    video/x-mng                           mng;
    video/x-ms-asf                        asx asf;
    video/x-ms-wmv                        wmv;
    video/x-msvideo                       avi;
}
");
  ("testdata/configs/ubuntu-default/modules-enabled/50-mod-http-image-filter.conf", "load_module modules/ngx_http_image_filter_module.so;
");
  ("testdata/configs/ubuntu-default/modules-enabled/50-mod-http-xslt-filter.conf", "load_module modules/ngx_http_xslt_filter_module.so;
");
  ("testdata/configs/ubuntu-default/nginx.conf", "user www-data;
worker_processes auto;
pid /run/nginx.pid;
include modules-enabled/*.conf;

events {
	worker_connections 768;
	# multi_accept on;
}

http {

	##
	# Basic Settings
	##

	sendfile on;
	tcp_nopush on;
	tcp_nodelay on;
	keepalive_timeout 65;
	types_hash_max_size 2048;
	# server_tokens off;

	# server_names_hash_bucket_size 64;
	# server_name_in_redirect off;

	include mime.types;
	default_type application/octet-stream;

	##
	# SSL Settings
	##

	ssl_protocols TLSv1 TLSv1.1 TLSv1.2 TLSv1.3; # Dropping SSLv3, ref: POODLE
	ssl_prefer_server_ciphers on;

	##
	# Logging Settings
	##

	access_log /var/log/nginx/access.log;
	error_log /var/log/nginx/error.log;

	##
	# Gzip Settings
	##

	gzip on;

	# gzip_vary on;
	# gzip_proxied any;
	# gzip_comp_level 6;
	# gzip_buffers 16 8k;
	# gzip_http_version 1.1;
	# gzip_types text/plain text/css application/json application/javascript text/xml application/xml application/xml+rss text/javascript;

	##
	# Virtual Host Configs
	##

	include conf.d/*.conf;
	include sites-enabled/*;
}


#mail {
#	# See sample authentication script at:
#	# http://wiki.nginx.org/ImapAuthenticateWithApachePhpScript
# 
#	# auth_http localhost/auth.php;
#	# pop3_capabilities ""TOP"" ""USER"";
#	# imap_capabilities ""IMAP4rev1"" ""UIDPLUS"";
# 
#	server {
#		listen     localhost:110;
#		protocol   pop3;
#		proxy      on;
#	}
# 
#	server {
#		listen     localhost:143;
#		protocol   imap;
#		proxy      on;
#	}
#}
");
  ("testdata/configs/ubuntu-default/sites-enabled/default", "##
# You should look at the following URL's in order to grasp a solid understanding
# of Nginx configuration files in order to fully unleash the power of Nginx.
# https://www.nginx.com/resources/wiki/start/
# https://www.nginx.com/resources/wiki/start/topics/tutorials/config_pitfalls/
# https://wiki.debian.org/Nginx/DirectoryStructure
#
# In most cases, administrators will remove this file from sites-enabled/ and
# leave it as reference inside of sites-available where it will continue to be
# updated by the nginx packaging team.
#
# This file will automatically load configuration files provided by other
# applications, such as Drupal or Wordpress. These applications will be made
# available underneath a path with that package name, such as /drupal8.
#
# Please see /usr/share/doc/nginx-doc/examples/ for more detailed examples.
##

# Default server configuration
#
server {
	listen 80 default_server;
	listen [::]:80 default_server;

	# SSL configuration
	#
	# listen 443 ssl default_server;
	# listen [::]:443 ssl default_server;
	#
	# Note: You should disable gzip for SSL traffic.
	# See: https://bugs.debian.org/773332
	#
	# Read up on ssl_ciphers to ensure a secure configuration.
	# See: https://bugs.debian.org/765782
	#
	# Self signed certs generated by the ssl-cert package
	# Don't use them in a production server!
	#
	# include snippets/snakeoil.conf;

	root /var/www/html;

	# Add index.php to the list if you are using PHP
	index index.html index.htm index.nginx-debian.html;

	server_name _;

	location / {
		# First attempt to serve request as file, then
		# as directory, then fall back to displaying a 404.
		try_files $uri $uri/ =404;
	}

	# pass PHP scripts to FastCGI server
	#
	#location ~ \.php$ {
	#	include snippets/fastcgi-php.conf;
	#
	#	# With php-fpm (or other unix sockets):
	#	fastcgi_pass unix:/var/run/php/php7.4-fpm.sock;
	#	# With php-cgi (or other tcp sockets):
	#	fastcgi_pass 127.0.0.1:9000;
	#}

	# deny access to .htaccess files, if Apache's document root
	# concurs with nginx's one
	#
	#location ~ /\.ht {
	#	deny all;
	#}
}


# Virtual Host configuration for example.com
#
# You can move that to a different file under sites-available/ and symlink that
# to sites-enabled/ to enable it.
#
#server {
#	listen 80;
#	listen [::]:80;
#
#	server_name example.com;
#
#	root /var/www/example.com;
#	index index.html;
#
#	location / {
#		try_files $uri $uri/ =404;
#	}
#}
")].
Definition fs_ubuntu_default_globs : list (string * list string) := [("testdata/configs/ubuntu-default/modules-enabled/*.conf", ["testdata/configs/ubuntu-default/modules-enabled/50-mod-http-xslt-filter.conf"; "testdata/configs/ubuntu-default/modules-enabled/50-mod-http-image-filter.conf"]); ("testdata/configs/ubuntu-default/sites-enabled/*", ["testdata/configs/ubuntu-default/sites-enabled/default"])].

Example ubuntu : match parse_main 100 (Opts [] None (fs_open fs_ubuntu_default) (fs_glob fs_ubuntu_default_globs) true false false false false false false [] default_match []) "testdata/configs/ubuntu-default/nginx.conf" with ROk _ => True | _ => False end.
Proof. vm_compute. exact I. Qed.

Example build_1 : build (BOpts (0)%Z false false [] cmp_print) [(Dir "events" (0)%Z [] "" None (Some [(Dir "worker_connections" (0)%Z ["1024"] "" None None None false)]) None false); (Dir "http" (0)%Z [] "" None (Some [(Dir "server" (0)%Z [] "" None (Some [(Dir "listen" (0)%Z ["127.0.0.1:8080"] "" None None None false); (Dir "server_name" (0)%Z ["default_server"] "" None None None false); (Dir "location" (0)%Z ["/"] "" None (Some [(Dir "return" (0)%Z ["200"; "foo bar baz"] "" None None None false)]) None false)]) None false)]) None false)] = Some "events {
    worker_connections 1024;
}
http {
    server {
        listen 127.0.0.1:8080;
        server_name default_server;
        location / {
            return 200 ""foo bar baz"";
        }
    }
}".
Proof. vm_compute. reflexivity. Qed.

Example build_2 : build (BOpts (0)%Z false false [] cmp_print) [(Dir "events" (1)%Z [] "" None (Some [(Dir "worker_connections" (2)%Z ["1024"] "" None None None false)]) None false); (Dir "#" (4)%Z [] "" None None (Some "comment") false); (Dir "http" (5)%Z [] "" None (Some [(Dir "server" (6)%Z [] "" None (Some [(Dir "listen" (7)%Z ["127.0.0.1:8080"] "" None None None false); (Dir "#" (7)%Z [] "" None None (Some "listen") false); (Dir "server_name" (8)%Z ["default_server"] "" None None None false); (Dir "location" (9)%Z ["/"] "" None (Some [(Dir "#" (9)%Z [] "" None None (Some "# this is brace") false); (Dir "#" (10)%Z [] "" None None (Some " location /") false); (Dir "#" (11)%Z [] "" None None (Some " is here") false); (Dir "return" (12)%Z ["200"; "foo bar baz"] "" None None None false)]) None false)]) None false)]) None false)] = Some "events {
    worker_connections 1024;
}
#comment
http {
    server {
        listen 127.0.0.1:8080; #listen
        server_name default_server;
        location / { ## this is brace
            # location /
            # is here
            return 200 ""foo bar baz"";
        }
    }
}".
Proof. vm_compute. reflexivity. Qed.

Example build_3 : build (BOpts (0)%Z false false [] cmp_print) [(Dir "#" (1)%Z [] "" None None (Some " foo") false); (Dir "user" (5)%Z ["root"] "" None None None false)] = Some "# foo
user root;".
Proof. vm_compute. reflexivity. Qed.

Example build_4 : build (BOpts (0)%Z false false [] cmp_print) [(Dir "env" (1)%Z ["русский текст"] "" None None None false)] = Some "env ""русский текст"";".
Proof. vm_compute. reflexivity. Qed.

Example build_5 : build (BOpts (0)%Z false false [] cmp_print) [(Dir "#" (1)%Z [] "" None None (Some "comment1") false); (Dir "user" (2)%Z ["root"] "" None None None false); (Dir "#" (2)%Z [] "" None None (Some "comment2") false); (Dir "#" (2)%Z [] "" None None (Some "comment3") false)] = Some "#comment1
user root; #comment2 #comment3".
Proof. vm_compute. reflexivity. Qed.

Example build_6 : build (BOpts (0)%Z false false (apply_builders [(lua_build, lua_names)]) cmp_print) [(Dir "http" (0)%Z [] "" None (Some [(Dir "server" (0)%Z [] "" None (Some [(Dir "listen" (0)%Z ["127.0.0.1:8080"] "" None None None false); (Dir "server_name" (0)%Z ["default_server"] "" None None None false); (Dir "location" (0)%Z ["/"] "" None (Some [(Dir "content_by_lua_block" (1)%Z ["
                ngx.say(""I need no extra escaping here, for example: \r\nblah"")
            "] "" None None None false)]) None false)]) None false)]) None false)] = Some "http {
    server {
        listen 127.0.0.1:8080;
        server_name default_server;
        location / {
            content_by_lua_block {
                ngx.say(""I need no extra escaping here, for example: \r\nblah"")
            }
        }
    }
}".
Proof. vm_compute. reflexivity. Qed.

Example build_7 : build (BOpts (0)%Z false false (apply_builders [(lua_build, lua_names)]) cmp_print) [(Dir "set_by_lua_block" (1)%Z ["$res"; " -- irregular lua block directive
            local a = 32
            local b = 56

            ngx.var.diff = a - b;  -- write to $diff directly
            return a + b;          -- return the $sum value normally
        "] "" None None None false)] = Some "set_by_lua_block $res { -- irregular lua block directive
            local a = 32
            local b = 56

            ngx.var.diff = a - b;  -- write to $diff directly
            return a + b;          -- return the $sum value normally
        }".
Proof. vm_compute. reflexivity. Qed.

Definition cmp_opts_1 := Opts [] None (fs_open fs_simple) (fs_glob fs_simple_globs) false false false false false false false [] default_match [].
Definition cmp_1_ok : bool :=
  let parse1 := fun fs => parse_main 100 (Opts (o_ignore cmp_opts_1) None (fs_open fs) (o_glob cmp_opts_1)
     false false false (o_comments cmp_opts_1) (o_strict cmp_opts_1) false false [] default_match []) "testdata/configs/simple/nginx.conf" in
  match parse1 fs_simple with
  | ROk p => match pl_config p with
     | [c] => match build (BOpts 0 false false [] cmp_print) (cf_parsed c) with
        | Some t => match parse1 [("testdata/configs/simple/nginx.conf", t)] with
          | ROk p2 => match pl_config p2 with
             | [c2] => match build (BOpts 0 false false [] cmp_print) (cf_parsed c2) with
                       | Some t2 => String.eqb t t2 | None => false end
             | _ => false end
          | _ => false end
        | None => false end
     | _ => false end
  | _ => false end.
Example cmp_1 : cmp_1_ok = true.
Proof. vm_compute. reflexivity. Qed.

Definition cmp_opts_2 := Opts [] None (fs_open fs_messy) (fs_glob fs_messy_globs) false false false false false false false [] default_match [].
Definition cmp_2_ok : bool :=
  let parse1 := fun fs => parse_main 100 (Opts (o_ignore cmp_opts_2) None (fs_open fs) (o_glob cmp_opts_2)
     false false false (o_comments cmp_opts_2) (o_strict cmp_opts_2) false false [] default_match []) "testdata/configs/messy/nginx.conf" in
  match parse1 fs_messy with
  | ROk p => match pl_config p with
     | [c] => match build (BOpts 0 false false [] cmp_print) (cf_parsed c) with
        | Some t => match parse1 [("testdata/configs/messy/nginx.conf", t)] with
          | ROk p2 => match pl_config p2 with
             | [c2] => match build (BOpts 0 false false [] cmp_print) (cf_parsed c2) with
                       | Some t2 => String.eqb t t2 | None => false end
             | _ => false end
          | _ => false end
        | None => false end
     | _ => false end
  | _ => false end.
Example cmp_2 : cmp_2_ok = true.
Proof. vm_compute. reflexivity. Qed.

Definition cmp_opts_3 := Opts [] None (fs_open fs_with_comments) (fs_glob fs_with_comments_globs) false false false true false false false [] default_match [].
Definition cmp_3_ok : bool :=
  let parse1 := fun fs => parse_main 100 (Opts (o_ignore cmp_opts_3) None (fs_open fs) (o_glob cmp_opts_3)
     false false false (o_comments cmp_opts_3) (o_strict cmp_opts_3) false false [] default_match []) "testdata/configs/with-comments/nginx.conf" in
  match parse1 fs_with_comments with
  | ROk p => match pl_config p with
     | [c] => match build (BOpts 0 false false [] cmp_print) (cf_parsed c) with
        | Some t => match parse1 [("testdata/configs/with-comments/nginx.conf", t)] with
          | ROk p2 => match pl_config p2 with
             | [c2] => match build (BOpts 0 false false [] cmp_print) (cf_parsed c2) with
                       | Some t2 => String.eqb t t2 | None => false end
             | _ => false end
          | _ => false end
        | None => false end
     | _ => false end
  | _ => false end.
Example cmp_3 : cmp_3_ok = true.
Proof. vm_compute. reflexivity. Qed.

Definition fs_empty_value_map : list (string * string) := [
  ("testdata/configs/empty-value-map/nginx.conf", "events {
}
http {
    map string $variable {
        '' $arg;
        *.example.com '';
    }
}
");
  ("testdata/configs/empty-value-map/nginx.json", "{
  ""status"": ""ok"",
  ""errors"": [],
  ""config"": [
    {
      ""file"": ""testdata/configs/empty-value-map/nginx.conf"",
      ""status"": ""ok"",
      ""errors"": [],
      ""parsed"": [
        {
          ""directive"": ""events"",
          ""line"": 1,
          ""args"": [],
          ""block"": []
        },
        {
          ""directive"": ""http"",
          ""line"": 3,
          ""args"": [],
          ""block"": [
            {
              ""directive"": ""map"",
              ""line"": 4,
              ""args"": [
                ""string"",
                ""$variable""
              ],
              ""block"": [
                {
                  ""directive"": """",
                  ""line"": 5,
                  ""args"": [
                    ""$arg""
                  ]
                },
                {
                  ""directive"": ""*.example.com"",
                  ""line"": 6,
                  ""args"": [
                    """"
                  ]
                }
              ]
            }
          ]
        }
      ]
    }
  ]
}
")].
Definition fs_empty_value_map_globs : list (string * list string) := [].

Definition cmp_opts_4 := Opts [] None (fs_open fs_empty_value_map) (fs_glob fs_empty_value_map_globs) false false false false false false false [] default_match [].
Definition cmp_4_ok : bool :=
  let parse1 := fun fs => parse_main 100 (Opts (o_ignore cmp_opts_4) None (fs_open fs) (o_glob cmp_opts_4)
     false false false (o_comments cmp_opts_4) (o_strict cmp_opts_4) false false [] default_match []) "testdata/configs/empty-value-map/nginx.conf" in
  match parse1 fs_empty_value_map with
  | ROk p => match pl_config p with
     | [c] => match build (BOpts 0 false false [] cmp_print) (cf_parsed c) with
        | Some t => match parse1 [("testdata/configs/empty-value-map/nginx.conf", t)] with
          | ROk p2 => match pl_config p2 with
             | [c2] => match build (BOpts 0 false false [] cmp_print) (cf_parsed c2) with
                       | Some t2 => String.eqb t t2 | None => false end
             | _ => false end
          | _ => false end
        | None => false end
     | _ => false end
  | _ => false end.
Example cmp_4 : cmp_4_ok = true.
Proof. vm_compute. reflexivity. Qed.

Definition fs_russian_text : list (string * string) := [
  ("testdata/configs/russian-text/nginx.conf", "env 'русский текст';
events {}
");
  ("testdata/configs/russian-text/nginx.json", "{
  ""status"": ""ok"",
  ""errors"": [],
  ""config"": [
    {
      ""file"": ""testdata/configs/russian-text/nginx.conf"",
      ""status"": ""ok"",
      ""errors"": [],
      ""parsed"": [
        {
          ""directive"": ""env"",
          ""line"": 1,
          ""args"": [
            ""русский текст""
          ]
        },
        {
          ""directive"": ""events"",
          ""line"": 2,
          ""args"": [],
          ""block"": []
        }
      ]
    }
  ]
}
");
  ("testdata/configs/russian-text/xp.json", "{
  ""status"": ""ok"",
  ""errors"": [],
  ""config"": [
    {
      ""file"": ""testdata/configs/russian-text/nginx.conf"",
      ""status"": ""ok"",
      ""errors"": [],
      ""parsed"": [
        {
          ""directive"": ""env"",
          ""line"": 1,
          ""args"": [
            ""русский текст""
          ]
        },
        {
          ""directive"": ""events"",
          ""line"": 2,
          ""args"": []
        }
      ]
    }
  ]
}
")].
Definition fs_russian_text_globs : list (string * list string) := [].

Definition cmp_opts_5 := Opts [] None (fs_open fs_russian_text) (fs_glob fs_russian_text_globs) false false false false false false false [] default_match [].
Definition cmp_5_ok : bool :=
  let parse1 := fun fs => parse_main 100 (Opts (o_ignore cmp_opts_5) None (fs_open fs) (o_glob cmp_opts_5)
     false false false (o_comments cmp_opts_5) (o_strict cmp_opts_5) false false [] default_match []) "testdata/configs/russian-text/nginx.conf" in
  match parse1 fs_russian_text with
  | ROk p => match pl_config p with
     | [c] => match build (BOpts 0 false false [] cmp_print) (cf_parsed c) with
        | Some t => match parse1 [("testdata/configs/russian-text/nginx.conf", t)] with
          | ROk p2 => match pl_config p2 with
             | [c2] => match build (BOpts 0 false false [] cmp_print) (cf_parsed c2) with
                       | Some t2 => String.eqb t t2 | None => false end
             | _ => false end
          | _ => false end
        | None => false end
     | _ => false end
  | _ => false end.
Example cmp_5 : cmp_5_ok = true.
Proof. vm_compute. reflexivity. Qed.

Definition cmp_opts_6 := Opts [] None (fs_open fs_quoted_right_brace) (fs_glob fs_quoted_right_brace_globs) false false false false false false false [] default_match [].
Definition cmp_6_ok : bool :=
  let parse1 := fun fs => parse_main 100 (Opts (o_ignore cmp_opts_6) None (fs_open fs) (o_glob cmp_opts_6)
     false false false (o_comments cmp_opts_6) (o_strict cmp_opts_6) false false [] default_match []) "testdata/configs/quoted-right-brace/nginx.conf" in
  match parse1 fs_quoted_right_brace with
  | ROk p => match pl_config p with
     | [c] => match build (BOpts 0 false false [] cmp_print) (cf_parsed c) with
        | Some t => match parse1 [("testdata/configs/quoted-right-brace/nginx.conf", t)] with
          | ROk p2 => match pl_config p2 with
             | [c2] => match build (BOpts 0 false false [] cmp_print) (cf_parsed c2) with
                       | Some t2 => String.eqb t t2 | None => false end
             | _ => false end
          | _ => false end
        | None => false end
     | _ => false end
  | _ => false end.
Example cmp_6 : cmp_6_ok = true.
Proof. vm_compute. reflexivity. Qed.

Definition cmp_opts_7 := Opts [] None (fs_open fs_directive_with_space) (fs_glob fs_directive_with_space_globs) false false false false true false false [] default_match [].
Definition cmp_7_ok : bool :=
  let parse1 := fun fs => parse_main 100 (Opts (o_ignore cmp_opts_7) None (fs_open fs) (o_glob cmp_opts_7)
     false false false (o_comments cmp_opts_7) (o_strict cmp_opts_7) false false [] default_match []) "testdata/configs/directive-with-space/nginx.conf" in
  match parse1 fs_directive_with_space with
  | ROk p => match pl_config p with
     | [c] => match build (BOpts 0 false false [] cmp_print) (cf_parsed c) with
        | Some t => match parse1 [("testdata/configs/directive-with-space/nginx.conf", t)] with
          | ROk p2 => match pl_config p2 with
             | [c2] => match build (BOpts 0 false false [] cmp_print) (cf_parsed c2) with
                       | Some t2 => String.eqb t t2 | None => false end
             | _ => false end
          | _ => false end
        | None => false end
     | _ => false end
  | _ => false end.
Example cmp_7 : cmp_7_ok = true.
Proof. vm_compute. reflexivity. Qed.

Definition fs_empty_config : list (string * string) := [
  ("testdata/configs/empty-config/nginx.conf", "")].
Definition fs_empty_config_globs : list (string * list string) := [].

Definition cmp_opts_8 := Opts [] None (fs_open fs_empty_config) (fs_glob fs_empty_config_globs) false false false false false false false [] default_match [].
Definition cmp_8_ok : bool :=
  let parse1 := fun fs => parse_main 100 (Opts (o_ignore cmp_opts_8) None (fs_open fs) (o_glob cmp_opts_8)
     false false false (o_comments cmp_opts_8) (o_strict cmp_opts_8) false false [] default_match []) "testdata/configs/empty-config/nginx.conf" in
  match parse1 fs_empty_config with
  | ROk p => match pl_config p with
     | [c] => match build (BOpts 0 false false [] cmp_print) (cf_parsed c) with
        | Some t => match parse1 [("testdata/configs/empty-config/nginx.conf", t)] with
          | ROk p2 => match pl_config p2 with
             | [c2] => match build (BOpts 0 false false [] cmp_print) (cf_parsed c2) with
                       | Some t2 => String.eqb t t2 | None => false end
             | _ => false end
          | _ => false end
        | None => false end
     | _ => false end
  | _ => false end.
Example cmp_8 : cmp_8_ok = true.
Proof. vm_compute. reflexivity. Qed.

