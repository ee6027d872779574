(** * The text of a configuration: the properties (proofs) *)

From Verif Require Import GoBase GoFacts Flags FlagsFacts Timestamp Trans Listen Daemon Config Shipped ShippedText ConfigFacts SpecConfig Table Json SpecTable SpecJson JsonFacts Fileio SpecFileio Sarnet Cli Startup SpecStartup StartupMain.
From Coq Require Import Permutation.
Local Open Scope string_scope.
Local Open Scope N_scope.

(** C131: a text is accepted exactly if it is JSON nested at most 10000 deep, and then it is read as what it says; no text says
    two things *)
Lemma c131_text : forall text t, parse_doc 10000 text = Some t <-> document text t /\ (depth t <= 10000)%nat.
Proof. intros text t. apply parse_doc_iff. Qed.
Lemma c131_unique : forall text t t', document text t -> document text t' -> t = t'.
Proof.
  intros text t t' D D'. assert (P : parse_doc (depth t + depth t') text = Some t) by (apply parse_doc_iff; split; [exact D|lia]).
  assert (P' : parse_doc (depth t + depth t') text = Some t') by (apply parse_doc_iff; split; [exact D'|lia]). congruence.
Qed.

Lemma value_distinct : forall t j, value_of t = Some j -> distinct j.
Proof.
  induction t as [|b|l|s|l IH|l IH] using tree_induction; intros j H; try (injection H as <-; exact I).
  - cbn [value_of] in H. destruct (number l) as [n| |]; try discriminate. assert (j = JNum n) as -> by congruence. exact I.
  - rewrite value_of_arr in H. destruct (values_of l) as [js|] eqn:E; [|discriminate]. assert (j = JArr js) as -> by (cbn in H; congruence). clear H.
    cbn [distinct]. apply plain_fold. revert js E. induction IH as [|t l P F IH']; intros js E; cbn [values_of] in E.
    + assert (js = []) as -> by congruence. constructor.
    + destruct (value_of t) as [j|] eqn:V; [|discriminate]. destruct (values_of l) as [js'|]; [|discriminate]. assert (js = j :: js') as -> by congruence.
      constructor; auto.
  - rewrite value_of_obj in H. destruct (put_members l []) as [m|] eqn:E; [|discriminate]. assert (j = JObj m) as -> by (cbn in H; congruence). clear H.
    apply put_members_spec in E; [|constructor]. destruct E as (E1 & _ & _ & E4). rewrite Forall_forall in IH. cbn [distinct]. split; [exact E1|].
    apply (plain_fold _ (fun e => distinct (snd e))). apply Forall_forall. intros [k j] I. destruct (E4 k j I) as [(_ & [])|(b & t & a & E & _ & V)].
    apply (IH (bytes_of k, t)); [rewrite E; apply in_or_app; right; left; reflexivity|exact V].
Qed.

(** C131: ReadConfig gets an object from a text that is one, the last of the members with the same name counting, and nothing
    from the text null; any other text is an error, and so is an object with a number that no float64 holds *)
Lemma c131_map : forall text,
  match unmarshal text with
  | Map m => distinct (JObj m) /\
      ((exists ms, document text (TObj ms) /\ (depth (TObj ms) <= 10000)%nat /\ stands_for (TObj ms) (JObj m)) \/
       (document text TNull /\ m = []))
  | NotMap => forall t, document text t -> (depth t <= 10000)%nat -> t <> TNull /\ forall ms, t = TObj ms -> some_number huge_number t
  | NotModelled => exists ms, document text (TObj ms) /\ (depth (TObj ms) <= 10000)%nat /\ ~ some_number huge_number (TObj ms) /\
      some_number (fun l => forall n, ~ whole_number l n) (TObj ms)
  end.
Proof.
  intros text. unfold unmarshal. destruct (parse_doc max_depth text) as [t|] eqn:P.
  - apply parse_doc_iff in P. destruct P as (D & L).
    assert (G : forall t', (t <> TNull /\ forall ms, t = TObj ms -> some_number huge_number t) -> document text t' -> (depth t' <= 10000)%nat ->
      t' <> TNull /\ forall ms, t' = TObj ms -> some_number huge_number t').
    { intros t' N D' _. rewrite (c131_unique text t' t D' D). exact N. }
    destruct t as [|b|l|s|l|ms]; try (intros t'; apply G; split; [discriminate|intros ms; discriminate]; fail).
    + split; [split; [constructor|exact I]|]. right. auto.
    + destruct (too_large (TObj ms)) eqn:TL; [intros t'; apply G; split; [discriminate|intros ms' _; apply too_large_iff, TL]|].
      destruct (value_of (TObj ms)) as [j|] eqn:V.
      * pose proof (value_of_stands _ _ V) as S. pose proof (value_distinct _ _ V) as DD.
        inversion S as [| | | | |? m N K A B]; subst. split; [exact DD|]. left. exists ms. auto.
      * exists ms. split; [exact D|]. split; [exact L|]. split; [|apply value_of_none, V]. intros X. apply too_large_iff in X. congruence.
  - intros t D L. exfalso. pose proof (proj2 (parse_doc_iff max_depth text t) (conj D L)). congruence.
Qed.
(** C131: how the text is laid out, and how its strings are escaped, makes no difference *)
Lemma c131_layout : forall text text' t, document text t -> document text' t -> unmarshal text = unmarshal text'.
Proof.
  intros text text' t D D'. unfold unmarshal. destruct (parse_doc max_depth text) as [u|] eqn:P.
  - apply parse_doc_iff in P. destruct P as (U & L). rewrite (c131_unique text u t U D) in *. rewrite (proj2 (parse_doc_iff max_depth text' t) (conj D' L)). reflexivity.
  - destruct (parse_doc max_depth text') as [u|] eqn:P'; [|reflexivity]. exfalso. apply parse_doc_iff in P'. destruct P' as (U & L).
    rewrite (c131_unique text' u t U D') in L. pose proof (proj2 (parse_doc_iff max_depth text t) (conj D L)). congruence.
Qed.
Definition tab : string := String (ascii_of_N 9) "".
Definition ex_text : string := "{ ""a"" : [1, -2.5e+3, true ,null],""b"":{}, ""a"":""x\u00e9\ud83d\ude00\ud800\n""" ++ tab ++ "}".
Definition ex_tree : jtree :=
  TObj [(bytes_of "a", TArr [TNum (bytes_of "1"); TNum (bytes_of "-2.5e+3"); TBool true; TNull]); (bytes_of "b", TObj []);
        (bytes_of "a", TStr (map ascii_of_N [120; 195; 169; 240; 159; 152; 128; 239; 191; 189; 10]))].
(** [ex_text] has a number that the program's model has no value for; without it, the second "a" counts *)
Example c131_text_ex : document (bytes_of ex_text) ex_tree /\ depth ex_tree = 2%nat /\
  unmarshal (bytes_of ex_text) = NotModelled /\
  unmarshal (bytes_of "{""a"":1,""b"":[null],""a"":2}") = Map [("a", JNum 2); ("b", JArr [JNull])] /\
  unmarshal (bytes_of " null") = Map [] /\
  map (fun s => unmarshal (bytes_of s)) [""; "[1]"; "{""a"":01}"; "{""a"":1,}"; "{'a':1}"; "{} x"; "{""a"":""" ++ tab ++ """}"; "{""a"" 1}"; "{""a"":.5}"; "nul"]
    = repeat NotMap 10.
Proof.
  assert (P : parse_doc 10000 (bytes_of ex_text) = Some ex_tree) by (vm_compute; reflexivity). apply c131_text in P. split; [apply P|].
  split; [reflexivity|]. split; [vm_compute; reflexivity|]. split; [vm_compute; reflexivity|]. split; vm_compute; reflexivity.
Qed.

(** C132: the shipped file is the JSON text of the configuration that the model of ReadConfig is given, in which no name is
    repeated *)
Lemma c132_shipped : unmarshal (bytes_of saratoga_text) = Map saratoga_json /\ distinct (JObj saratoga_json).
Proof.
  assert (U : unmarshal (bytes_of saratoga_text) = Map saratoga_json) by (vm_compute; reflexivity). split; [exact U|].
  pose proof (c131_map (bytes_of saratoga_text)) as M. rewrite U in M. apply M.
Qed.
(** C132: laid out in any other way the shipped file gives the same settings, in whatever order the members of the map are
    visited, and the program that starts with it is the one the other properties are about *)
Lemma c132_layout : forall text t, document (bytes_of saratoga_text) t -> document text t ->
  exists m, unmarshal text = Map m /\ forall obj, Permutation m obj -> readconfig "" obj = Ret (sar_cli, sar, sar_commands, None).
Proof.
  intros text t D D'. exists saratoga_json. rewrite <- (c131_layout _ _ _ D D'). split; [exact (proj1 c132_shipped)|]. intros obj P.
  apply (readconfig_perm "" saratoga_json obj _ saratoga_json_keys P shipped_reads).
Qed.
Lemma c132_starts : forall h r prog config ifname text t, startup h = inl r -> h_args h = [prog; config; ifname] -> h_sardir h = "" ->
  read_file (h_fs h) (h_cwd h) config = Some text -> document (bytes_of saratoga_text) t -> document text t ->
  (forall m, unmarshal text = Map m -> h_json h text = Some m) ->
  exists d, names_dir (h_fs h) (h_cwd h) "/Users/chas/sardir" d /\ r_node r = Node.nstart (h_fs h) d.
Proof.
  intros h r prog config ifname text t S A E F D D' J.
  assert (H : holds h config saratoga_json).
  { apply holds_iff. exists text. split; [exact F|]. apply J. rewrite <- (c131_layout _ _ _ D D'). exact (proj1 c132_shipped). }
  destruct (c111_shipped h r prog config ifname S A E H) as (d & N & R & _). exists d. auto.
Qed.
(** C132: in general, what a configuration has under a name is what the last member of that name in the text stands for *)
Lemma c132_member : forall text ms m k, document text (TObj ms) -> unmarshal text = Map m ->
  (In (bytes_of k) (map fst ms) -> exists t, last_member ms k t /\ stands_for t (get (JObj m) k)) /\
  (~ In (bytes_of k) (map fst ms) -> get (JObj m) k = JNull).
Proof.
  intros text ms m k D U. pose proof (c131_map text) as M. rewrite U in M. destruct M as (_ & [(ms' & D' & _ & S)|(D' & _)]).
  2: { pose proof (c131_unique _ _ _ D D'). discriminate. }
  assert (ms' = ms) as -> by (pose proof (c131_unique _ _ _ D D'); congruence). inversion S as [| | | | |? m' N K A B]; subst.
  assert (E : In k (keys m) <-> In (bytes_of k) (map fst ms)).
  { rewrite K, !in_map_iff. split; intros (x & X & I); exists x; (split; [|exact I]).
    - rewrite <- X, bytes_of_string_of. reflexivity.
    - rewrite X, string_of_bytes_of. reflexivity. }
  rewrite <- E. unfold get. cbn [members]. destruct (lookup k m) as [j|] eqn:L.
  - split; [|intros X; exfalso; apply X; apply in_map_iff; exists (k, j); split; [reflexivity|apply lookup_In, L]]. intros _. apply B. apply lookup_In, L.
  - split; [intros X; exfalso; apply lookup_None in L; contradiction|reflexivity].
Qed.

(** A host that has the shipped file with a blank before and an end of line after it *)
Definition ex_relaid : list byte := (bytes_of (" " ++ saratoga_text) ++ [ascii_of_N 10])%list.
Definition ex_json_host : host :=
  {| h_args := ["saratoga"; "c.json"; "eth0"]; h_sardir := "";
     h_fs := [([], ex_dir); (["Users"], ex_dir); (["Users"; "chas"], ex_dir); (["Users"; "chas"; "sardir"], ex_dir);
              (["c.json"], {| n_kind := KFile ex_relaid; n_size := 9828; n_mtime := ex_at; n_ctime := ex_at |})];
     h_cwd := []; h_json := fun text => match unmarshal text with Map m => Some m | _ => None end;
     h_statfs := fun _ => {| sf_bsize := 4096; sf_blocks := 1000000; sf_bfree := 600000; sf_bavail := 500000 |};
     h_find := fun n => if (n =? "eth0")%string then Some 1500%Z else None; h_gui := true; h_ifaces := Some [];
     h_ip := fun s => s; h_join := fun f _ ip _ => Some (match f with V4 => ip ++ ":7542" | V6 => "[" ++ ip ++ "]:7542" end); h_opt := fun _ _ => true |}.
Example c132_starts_ex : (exists r, startup ex_json_host = inl r) /\ read_file (h_fs ex_json_host) (h_cwd ex_json_host) "c.json" = Some ex_relaid /\
  (exists t, document (bytes_of saratoga_text) t /\ document ex_relaid t) /\
  (forall m, unmarshal ex_relaid = Map m -> h_json ex_json_host ex_relaid = Some m).
Proof.
  split; [destruct (startup ex_json_host) as [r|e] eqn:E; [eauto|exfalso; vm_compute in E; discriminate E]|]. split; [vm_compute; reflexivity|]. split.
  - destruct (parse_doc 10000 (bytes_of saratoga_text)) as [t|] eqn:P; [|exfalso; vm_compute in P; discriminate P]. exists t. apply c131_text in P. destruct P as (D & L).
    split; [exact D|]. destruct D as (w1 & b & w2 & E & W1 & W2 & T). exists (" "%char :: w1), b, (w2 ++ [ascii_of_N 10])%list.
    split; [unfold ex_relaid; cbn [append bytes_of list_ascii_of_string app]; fold (bytes_of saratoga_text); rewrite E; cbn [app]; rewrite <- !app_assoc; reflexivity|].
    split; [constructor; [cbn; tauto|exact W1]|]. split; [apply Forall_app; split; [exact W2|constructor; [cbn; tauto|constructor]]|exact T].
  - intros m U. unfold ex_json_host. cbn [h_json]. rewrite U. reflexivity.
Qed.
Example c132_member_ex : document (bytes_of ex_text) ex_tree /\ ex_tree = TObj [(bytes_of "a", TArr [TNum (bytes_of "1"); TNum (bytes_of "-2.5e+3"); TBool true; TNull]);
    (bytes_of "b", TObj []); (bytes_of "a", TStr (map ascii_of_N [120; 195; 169; 240; 159; 152; 128; 239; 191; 189; 10]))] /\
  exists ms m, document (bytes_of "{""a"":1,""b"":[null],""a"":2}") (TObj ms) /\ unmarshal (bytes_of "{""a"":1,""b"":[null],""a"":2}") = Map m /\
    get (JObj m) "a" = JNum 2 /\ get (JObj m) "c" = JNull.
Proof.
  split; [apply c131_text_ex|]. split; [reflexivity|].
  exists [(bytes_of "a", TNum (bytes_of "1")); (bytes_of "b", TArr [TNull]); (bytes_of "a", TNum (bytes_of "2"))], [("a", JNum 2); ("b", JArr [JNull])].
  split; [apply c131_text; vm_compute; reflexivity|]. repeat split; vm_compute; reflexivity.
Qed.
