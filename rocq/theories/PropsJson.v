(** * Json: the properties

    Statements only; the proofs are in JsonMain.v. *)
From Verif Require Import GoBase GoFacts Flags FlagsFacts Timestamp Trans Listen Daemon Config Shipped ShippedText ConfigFacts SpecConfig Table Json SpecTable SpecJson JsonFacts Fileio SpecFileio Sarnet Cli Startup SpecStartup StartupMain JsonMain.
From Coq Require Import Permutation.
Local Open Scope string_scope.
Local Open Scope N_scope.

(** C131: a text is accepted exactly if it is JSON nested at most 10000 deep, and then it is read as what it says; no text says
    two things *)
Theorem C131_text : forall text t, parse_doc 10000 text = Some t <-> document text t /\ (depth t <= 10000)%nat.
Proof. exact c131_text. Qed.
Print Assumptions C131_text.
Theorem C131_unique : forall text t t', document text t -> document text t' -> t = t'.
Proof. exact c131_unique. Qed.
Print Assumptions C131_unique.

(** C131: ReadConfig gets an object from a text that is one, the last of the members with the same name counting, and nothing
    from the text null; any other text is an error, and so is an object with a number that no float64 holds *)
Theorem C131_map : forall text,
  match unmarshal text with
  | Map m => distinct (JObj m) /\
      ((exists ms, document text (TObj ms) /\ (depth (TObj ms) <= 10000)%nat /\ stands_for (TObj ms) (JObj m)) \/
       (document text TNull /\ m = []))
  | NotMap => forall t, document text t -> (depth t <= 10000)%nat -> t <> TNull /\ forall ms, t = TObj ms -> some_number huge_number t
  | NotModelled => exists ms, document text (TObj ms) /\ (depth (TObj ms) <= 10000)%nat /\ ~ some_number huge_number (TObj ms) /\
      some_number (fun l => forall n, ~ whole_number l n) (TObj ms)
  end.
Proof. exact c131_map. Qed.
Print Assumptions C131_map.

(** C131: how the text is laid out, and how its strings are escaped, makes no difference *)
Theorem C131_layout : forall text text' t, document text t -> document text' t -> unmarshal text = unmarshal text'.
Proof. exact c131_layout. Qed.
Print Assumptions C131_layout.

(** [ex_text] has a number that the program's model has no value for; without it, the second "a" counts *)
Example C131_text_ex : document (bytes_of ex_text) ex_tree /\ depth ex_tree = 2%nat /\
  unmarshal (bytes_of ex_text) = NotModelled /\
  unmarshal (bytes_of "{""a"":1,""b"":[null],""a"":2}") = Map [("a", JNum 2); ("b", JArr [JNull])] /\
  unmarshal (bytes_of " null") = Map [] /\
  map (fun s => unmarshal (bytes_of s)) [""; "[1]"; "{""a"":01}"; "{""a"":1,}"; "{'a':1}"; "{} x"; "{""a"":""" ++ tab ++ """}"; "{""a"" 1}"; "{""a"":.5}"; "nul"]
    = repeat NotMap 10.
Proof. exact c131_text_ex. Qed.

(** C132: the shipped file is the JSON text of the configuration that the model of ReadConfig is given, in which no name is
    repeated *)
Theorem C132_shipped : unmarshal (bytes_of saratoga_text) = Map saratoga_json /\ distinct (JObj saratoga_json).
Proof. exact c132_shipped. Qed.
Print Assumptions C132_shipped.

(** C132: laid out in any other way the shipped file gives the same settings, in whatever order the members of the map are
    visited, and the program that starts with it is the one the other properties are about *)
Theorem C132_layout : forall text t, document (bytes_of saratoga_text) t -> document text t ->
  exists m, unmarshal text = Map m /\ forall obj, Permutation m obj -> readconfig "" obj = Ret (sar_cli, sar, sar_commands, None).
Proof. exact c132_layout. Qed.
Print Assumptions C132_layout.
Theorem C132_starts : forall h r prog config ifname text t, startup h = inl r -> h_args h = [prog; config; ifname] -> h_sardir h = "" ->
  read_file (h_fs h) (h_cwd h) config = Some text -> document (bytes_of saratoga_text) t -> document text t ->
  (forall m, unmarshal text = Map m -> h_json h text = Some m) ->
  exists d, names_dir (h_fs h) (h_cwd h) "/Users/chas/sardir" d /\ r_node r = Node.nstart (h_fs h) d.
Proof. exact c132_starts. Qed.
Print Assumptions C132_starts.

(** C132: in general, what a configuration has under a name is what the last member of that name in the text stands for *)
Theorem C132_member : forall text ms m k, document text (TObj ms) -> unmarshal text = Map m ->
  (In (bytes_of k) (map fst ms) -> exists t, last_member ms k t /\ stands_for t (get (JObj m) k)) /\
  (~ In (bytes_of k) (map fst ms) -> get (JObj m) k = JNull).
Proof. exact c132_member. Qed.
Print Assumptions C132_member.
Example C132_starts_ex : (exists r, startup ex_json_host = inl r) /\ read_file (h_fs ex_json_host) (h_cwd ex_json_host) "c.json" = Some ex_relaid /\
  (exists t, document (bytes_of saratoga_text) t /\ document ex_relaid t) /\
  (forall m, unmarshal ex_relaid = Map m -> h_json ex_json_host ex_relaid = Some m).
Proof. exact c132_starts_ex. Qed.
Example C132_member_ex : document (bytes_of ex_text) ex_tree /\ ex_tree = TObj [(bytes_of "a", TArr [TNum (bytes_of "1"); TNum (bytes_of "-2.5e+3"); TBool true; TNull]);
    (bytes_of "b", TObj []); (bytes_of "a", TStr (map ascii_of_N [120; 195; 169; 240; 159; 152; 128; 239; 191; 189; 10]))] /\
  exists ms m, document (bytes_of "{""a"":1,""b"":[null],""a"":2}") (TObj ms) /\ unmarshal (bytes_of "{""a"":1,""b"":[null],""a"":2}") = Map m /\
    get (JObj m) "a" = JNum 2 /\ get (JObj m) "c" = JNull.
Proof. exact c132_member_ex. Qed.
