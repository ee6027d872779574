(** * When the program starts, and with what: the theorems *)

From Verif Require Import GoBase Flags Config SpecFlags SpecConfig ConfigMain ConfigFacts Shipped Timestamp Fileio SpecFileio FileioFacts FlagStrFacts Trans Listen Daemon SpecDaemon Sarnet Transfer Cli Node SpecNode Screen Startup SpecStartup.
Local Open Scope string_scope.
Local Open Scope N_scope.

Lemma holds_iff : forall h config obj, holds h config obj <-> exists text, read_file (h_fs h) (h_cwd h) config = Some text /\ h_json h text = Some obj.
Proof.
  intros h config obj. unfold holds, read_file, content_of. split.
  - intros (p & n & text & R & G & K & J). exists text. rewrite R, G, K. auto.
  - intros (text & R & J). destruct (resolve_follow _ _ config) as [p|] eqn:RF; [|discriminate]. destruct (fs_get p (h_fs h)) as [n|] eqn:G; [|discriminate].
    destruct (n_kind n) eqn:K; try discriminate. injection R as ->. exists p, n, text. auto.
Qed.
Lemma load_cases : forall h config,
  match load_config h config with
  | Ret (Some (cli, T, cmds)) => exists obj, holds h config obj /\ readconfig (h_sardir h) obj = Ret (cli, T, cmds, None)
  | Ret None => forall obj, holds h config obj -> exists cli T cmds e, readconfig (h_sardir h) obj = Ret (cli, T, cmds, Some e)
  | _ => exists obj, holds h config obj /\ readconfig (h_sardir h) obj = Panic
  end.
Proof.
  intros h config. unfold load_config. change (snd (getmaxdesc max_uint)) with true. cbv iota.
  destruct (read_file (h_fs h) (h_cwd h) config) as [text|] eqn:R.
  - destruct (h_json h text) as [obj|] eqn:J.
    + assert (HO : holds h config obj) by (apply holds_iff; eauto). destruct (readconfig (h_sardir h) obj) as [[[[cli T] cmds] [e|]]| |] eqn:RC; cbn [obind].
      * intros obj' HO'. apply holds_iff in HO' as (t & A & B). rewrite R in A. injection A as <-. rewrite J in B. injection B as <-. rewrite RC. eauto.
      * eauto.
      * eauto.
      * exfalso. exact (proj2 (c90_panics (h_sardir h) obj) RC).
    + intros obj HO. apply holds_iff in HO as (t & A & B). congruence.
  - intros obj HO. apply holds_iff in HO as (t & A & B). congruence.
Qed.
Lemma holds_fun : forall h config o o', holds h config o -> holds h config o' -> o = o'.
Proof. intros h config o o' A B. apply holds_iff in A as (t & A & A'). apply holds_iff in B as (t' & B & B'). congruence. Qed.
Lemma load_some : forall h config cli, configures h config cli <-> exists T cmds, load_config h config = Ret (Some (cli, T, cmds)).
Proof.
  intros h config cli. pose proof (load_cases h config) as L. split.
  - intros (obj & T & cmds & HO & RC). destruct (load_config h config) as [[[[cli' T'] cmds']|]| |].
    + destruct L as (obj' & HO' & RC'). rewrite (holds_fun _ _ _ _ HO HO') in RC. rewrite RC in RC'. injection RC' as -> -> ->. eauto.
    + destruct (L _ HO) as (? & ? & ? & ? & X). congruence.
    + destruct L as (obj' & HO' & RC'). rewrite (holds_fun _ _ _ _ HO HO') in RC. congruence.
    + destruct L as (obj' & HO' & RC'). rewrite (holds_fun _ _ _ _ HO HO') in RC. congruence.
  - intros (T & cmds & E). rewrite E in L. destruct L as (obj & HO & RC). exists obj, T, cmds. auto.
Qed.
Lemma chdir_iff : forall fs cwd name d, chdir fs cwd name = Some d <-> names_dir fs cwd name d.
Proof.
  intros fs cwd name d. unfold chdir, names_dir. destruct (resolve_follow fs cwd name) as [p|]; [|split; [discriminate|intros (X & _); discriminate]].
  destruct (fs_get p fs) as [n|] eqn:G; [destruct (is_dir n) eqn:D|].
  - split; [intros [= <-]; eauto|]. intros ([= <-] & _). reflexivity.
  - split; [discriminate|]. intros ([= <-] & n' & G' & D'). congruence.
  - split; [discriminate|]. intros ([= <-] & n' & G' & D'). congruence.
Qed.
Lemma statfs_iff : forall h cwd name, (exists st, statfs_of h cwd name = Some st) <-> exists p, names (h_fs h) cwd name p.
Proof.
  intros h cwd name. unfold statfs_of, names. destruct (resolve_follow (h_fs h) cwd name) as [p|]; [|split; [intros (? & [=])|intros (? & X & _); discriminate]].
  destruct (fs_get p (h_fs h)) as [n|] eqn:G; [split; eauto|]. split; [intros (? & [=])|]. intros (q & [= <-] & n & X). congruence.
Qed.
Lemma listen_iff : forall h cli ifname f, listen_on h cli ifname f = None <-> listens h cli ifname f.
Proof.
  intros h cli ifname f. unfold listen_on, listens, group. cbn [ua_ip]. destruct (h_join _ _ _ _ _) as [local|]; [|split; [discriminate|intros (? & ? & X & _); discriminate]].
  unfold set_multicast_loop, is_ipv4, is_ipv6. destruct (Nat.eqb_spec (count_byte "." local) 3) as [D|D]; [|destruct (Nat.leb_spec 2 (count_byte ":" local)) as [C|C]].
  - split.
    + destruct (h_opt h f LoopV4) eqn:A, (h_opt h f ReuseAddr) eqn:B, (h_opt h f ReusePort) eqn:E; cbn; try discriminate. intros _. exists local, LoopV4. auto 8.
    + intros (l & o & [= <-] & [(_ & ->)|(X & _)] & A & B & E); [rewrite A, B, E; reflexivity|congruence].
  - split.
    + destruct (h_opt h f LoopV6) eqn:A, (h_opt h f ReuseAddr) eqn:B, (h_opt h f ReusePort) eqn:E; cbn; try discriminate. intros _. exists local, LoopV6. auto 10.
    + intros (l & o & [= <-] & [(X & _)|(_ & _ & ->)] & A & B & E); [congruence|rewrite A, B, E; reflexivity].
  - split; [discriminate|]. intros (l & o & [= <-] & [(X & _)|(_ & X & _)] & _); [congruence|lia].
Qed.
Lemma listen_some : forall h cli ifname f e, listen_on h cli ifname f = Some e ->
  let ip := h_ip h (match f with V4 => cl_v4 cli | V6 => cl_v6 cli end) in
  (h_join h f ifname ip (cl_port cli) = None /\ e = NoGroup f ip (cl_port cli)) \/
  (h_join h f ifname ip (cl_port cli) <> None /\ ~ listens h cli ifname f /\ e = NoLoop f).
Proof.
  intros h cli ifname f e E ip. assert (NL : ~ listens h cli ifname f) by (rewrite <- listen_iff; congruence). unfold listen_on, group in E. cbn [ua_ip] in E. fold ip in E.
  destruct (h_join _ _ _ _ _) as [local|]; [|injection E as <-; left; auto]. destruct (set_multicast_loop _ _); [discriminate|]. injection E as <-. right. split; [discriminate|]. auto.
Qed.

Lemma startup_refuses : forall h e, startup h = inr e -> refuses h e.
Proof.
  intros h e. unfold startup. destruct (h_args h) as [|prog [|config [|ifname [|more args]]]] eqn:A;
    try (intros [= <-]; apply no_arguments; intros; congruence).
  pose proof (load_cases h config) as L. destruct (load_config h config) as [[[[cli T] cmds]|]| |] eqn:LC.
  2:{ intros [= <-]. eapply no_config; eauto. }
  2,3: intros [= <-]; destruct L as (obj & HO & RC); eapply bad_type; eauto.
  assert (CF : configured h config ifname cli) by (split; [eauto|apply load_some; eauto]).
  destruct (chdir _ _ _) as [d|] eqn:CD. 2:{ intros [= <-]. eapply no_sardir; [exact CF|]. intros d X. apply chdir_iff in X. congruence. }
  apply chdir_iff in CD. destruct (statfs_of h d (cl_sardir cli)) as [st|] eqn:ST.
  2:{ intros [= <-]. eapply no_stat; [exact CF|exact CD|]. intros p X. assert (Y : exists st, statfs_of h d (cl_sardir cli) = Some st) by (apply statfs_iff; eauto). destruct Y. congruence. }
  assert (HS : housed h cli d) by (split; [exact CD|apply statfs_iff; eauto]).
  destruct (h_find h ifname) as [mtu|] eqn:F. 2:{ intros [= <-]. eapply no_interface; eauto. }
  assert (F' : h_find h ifname <> None) by congruence.
  destruct (h_gui h) eqn:GU; cbn [negb]. 2:{ intros [= <-]. eapply no_terminal; eauto. }
  destruct (h_ifaces h) as [ifs|] eqn:IF. 2:{ intros [= <-]. eapply no_interfaces; eauto. }
  assert (IF' : h_ifaces h <> None) by congruence.
  destruct (listen_on h cli ifname V6) as [e6|] eqn:L6.
  { intros [= <-]. destruct (listen_some _ _ _ _ _ L6) as [(J & ->)|(J & NL & ->)]; [eapply no_group6; eauto|eapply no_loop6; eauto]. }
  apply listen_iff in L6. destruct (listen_on h cli ifname V4) as [e4|] eqn:L4; [|discriminate].
  intros [= <-]. destruct (listen_some _ _ _ _ _ L4) as [(J & ->)|(J & NL & ->)]; [eapply no_group4; eauto|eapply no_loop4; eauto].
Qed.
Lemma configured_startup : forall h config ifname cli, configured h config ifname cli -> exists prog T cmds,
  h_args h = [prog; config; ifname] /\ load_config h config = Ret (Some (cli, T, cmds)).
Proof. intros h config ifname cli ((prog & A) & C). apply load_some in C as (T & cmds & L). exists prog, T, cmds. auto. Qed.
Lemma housed_iff : forall h cli d, housed h cli d <-> chdir (h_fs h) (h_cwd h) (cl_sardir cli) = Some d /\ exists st, statfs_of h d (cl_sardir cli) = Some st.
Proof. intros h cli d. unfold housed. rewrite chdir_iff, statfs_iff. reflexivity. Qed.
Lemma refuses_startup : forall h e, refuses h e -> startup h = inr e.
Proof.
  intros h e R. unfold startup.
  destruct R as [A|prog config ifname A C|prog config ifname obj A HO RC|config ifname cli CF D|config ifname cli d CF D S|config ifname cli d CF HS F|config ifname cli d CF HS F G
    |config ifname cli d CF HS F G I|config ifname cli d CF HS F G I J|config ifname cli d CF HS F G I J NL|config ifname cli d CF HS F G I L6 J|config ifname cli d CF HS F G I L6 J NL];
  try (apply configured_startup in CF as (prog & T & cmds & A & LC); rewrite A, LC);
  try (apply housed_iff in HS as (CD & st & ST); rewrite CD, ST);
  try (destruct (h_find h ifname) as [mtu|]; [|congruence]); try (rewrite G; cbn [negb]); try (destruct (h_ifaces h) as [ifs|]; [|congruence]).
  - destruct (h_args h) as [|prog [|config [|ifname [|more args]]]]; try reflexivity. exfalso. exact (A _ _ _ eq_refl).
  - rewrite A. pose proof (load_cases h config) as L. destruct (load_config h config) as [[[[cli T] cmds]|]| |]; [|reflexivity|..]; destruct L as (obj & HO & RC); destruct (C _ HO) as (? & ? & ? & ? & X); congruence.
  - rewrite A. pose proof (load_cases h config) as L. destruct (load_config h config) as [[[[cli T] cmds]|]| |]; [|exfalso|reflexivity|reflexivity].
    + exfalso. destruct L as (obj' & HO' & RC'). rewrite (holds_fun _ _ _ _ HO HO') in RC. congruence.
    + destruct (L _ HO) as (? & ? & ? & ? & X). congruence.
  - destruct (chdir _ _ _) as [d|] eqn:CD; [|reflexivity]. apply chdir_iff in CD. exfalso. exact (D _ CD).
  - apply chdir_iff in D. rewrite D. destruct (statfs_of h d (cl_sardir cli)) as [st|] eqn:ST; [|reflexivity]. assert (X : exists p, names (h_fs h) d (cl_sardir cli) p) by (apply statfs_iff; eauto).
    destruct X as (p & X). exfalso. exact (S _ X).
  - first [rewrite F; reflexivity|discriminate F].
  - reflexivity.
  - first [rewrite I; reflexivity|discriminate I].
  - unfold listen_on at 1, group. cbn [ua_ip]. rewrite J. reflexivity.
  - rewrite <- listen_iff in NL. destruct (listen_on h cli ifname V6) as [e|] eqn:L; [|congruence]. destruct (listen_some _ _ _ _ _ L) as [(X & _)|(_ & _ & ->)]; [congruence|reflexivity].
  - apply listen_iff in L6. rewrite L6. unfold listen_on, group. cbn [ua_ip]. rewrite J. reflexivity.
  - apply listen_iff in L6. rewrite L6. rewrite <- listen_iff in NL. destruct (listen_on h cli ifname V4) as [e|] eqn:L; [|congruence]. destruct (listen_some _ _ _ _ _ L) as [(X & _)|(_ & _ & ->)]; [congruence|reflexivity].
Qed.

(** C110: The program starts exactly if it has its two arguments, the configuration is usable, its directory is found twice,
    once from where the program is started and once from within that directory, the interface exists, and the terminal
    and both multicast groups can be used.  Otherwise it says which of these, in this order, failed first. *)
Lemma c110_starts : forall h,
  ((exists r, startup h = inl r) <-> can_start h) /\
  (forall e, startup h = inr e <-> refuses h e).
Proof.
  intros h. split; [|intro e; split; [apply startup_refuses|apply refuses_startup]]. split.
  - intros (r & E). unfold startup in E. destruct (h_args h) as [|prog [|config [|ifname [|more args]]]] eqn:A; try discriminate.
    destruct (load_config h config) as [[[[cli T] cmds]|]| |] eqn:LC; try discriminate.
    destruct (chdir _ _ _) as [d|] eqn:CD; [|discriminate]. destruct (statfs_of h d (cl_sardir cli)) as [st|] eqn:ST; [|discriminate].
    destruct (h_find h ifname) as [mtu|] eqn:F; [|discriminate]. destruct (h_gui h) eqn:GU; cbn [negb] in E; [|discriminate]. destruct (h_ifaces h) as [ifs|] eqn:IF; [|discriminate].
    destruct (listen_on h cli ifname V6) eqn:L6; [discriminate|]. destruct (listen_on h cli ifname V4) eqn:L4; [discriminate|].
    exists config, ifname, cli, d. split; [split; [eauto|apply load_some; eauto]|]. split; [apply housed_iff; eauto|]. rewrite F, IF. repeat split; try congruence; apply listen_iff; assumption.
  - intros (config & ifname & cli & d & CF & HS & F & G & I & L6 & L4). unfold startup. apply configured_startup in CF as (prog & T & cmds & A & LC). rewrite A, LC.
    apply housed_iff in HS as (CD & st & ST). rewrite CD, ST. destruct (h_find h ifname); [|congruence]. rewrite G. cbn [negb]. destruct (h_ifaces h); [|congruence].
    apply listen_iff in L6, L4. rewrite L6, L4. eauto.
Qed.
(** A system on which the program starts with the shipped configuration *)
Definition ex_at : gotime := {| unix_secs := 1700000000; unix_nanos := 5 |}.
Definition ex_dir : Fileio.node := {| n_kind := KDir; n_size := 4096; n_mtime := ex_at; n_ctime := ex_at |}.
Definition ex_config : Fileio.node := {| n_kind := KFile []; n_size := 0; n_mtime := ex_at; n_ctime := ex_at |}.
Definition ex_disk : fsys := [([], ex_dir); (["Users"], ex_dir); (["Users"; "chas"], ex_dir); (["Users"; "chas"; "sardir"], ex_dir); (["c.json"], ex_config)].
Definition ex_host (args : list string) (sardir : string) : host :=
  {| h_args := args; h_sardir := sardir; h_fs := ex_disk; h_cwd := []; h_json := fun _ => Some saratoga_json;
     h_statfs := fun _ => {| sf_bsize := 4096; sf_blocks := 1000000; sf_bfree := 600000; sf_bavail := 500000 |};
     h_find := fun n => if (n =? "eth0")%string then Some 1500%Z else None; h_gui := true; h_ifaces := Some [];
     h_ip := fun s => s; h_join := fun f _ ip _ => Some (match f with V4 => ip ++ ":7542" | V6 => "[" ++ ip ++ "]:7542" end); h_opt := fun _ _ => true |}.
Example c110_starts_ex :
  (exists r, startup (ex_host ["saratoga"; "c.json"; "eth0"] "") = inl r) /\
  startup (ex_host ["saratoga"; "c.json"; "eth1"] "") = inr (NoInterface "c.json") /\
  startup (ex_host ["saratoga"; "c.json"; "eth0"] "Users") = inr NoStat /\
  startup (ex_host ["saratoga"; "c.json"; "eth0"] "/nowhere") = inr (NoSardir "/nowhere") /\
  startup (ex_host ["saratoga"; "d.json"; "eth0"] "") = inr (BadConfig "d.json") /\
  startup (ex_host ["saratoga"] "") = inr Usage.
Proof. split; [eexists; vm_compute; reflexivity|]. repeat split; vm_compute; reflexivity. Qed.

(** C110: A directory given by its absolute name is found the second time if it was the first time.  One that is
    given by a plain name is found again only if there is something of that name in it: otherwise the program does not start. *)
Lemma c110_sardir : forall h config ifname cli, configured h config ifname cli ->
  (is_abs (cl_sardir cli) = true -> forall d, housed h cli d <-> names_dir (h_fs h) (h_cwd h) (cl_sardir cli) d) /\
  (plain (cl_sardir cli) ->
   (exists n, fs_get (h_cwd h) (h_fs h) = Some n /\ is_dir n = true) ->
   (exists n, fs_get (h_cwd h ++ [cl_sardir cli])%list (h_fs h) = Some n /\ is_dir n = true) ->
   (startup h = inr NoStat <-> forall p, ~ names (h_fs h) (h_cwd h ++ [cl_sardir cli])%list (cl_sardir cli) p) /\
   (fs_get (h_cwd h ++ [cl_sardir cli; cl_sardir cli])%list (h_fs h) = None -> startup h = inr NoStat)).
Proof.
  intros h config ifname cli CF. split.
  - intros AB d. unfold housed. split; [intros (X & _); exact X|]. intro D. split; [exact D|]. exists d. destruct D as (R & n & G & _). split; [|eauto].
    unfold resolve_follow, resolve in *. rewrite AB in *. exact R.
  - intros PL (c0 & C0 & C1) (n & N0 & N1).
    assert (RS : forall cwd, resolve (h_fs h) cwd (cl_sardir cli) = walk (h_fs h) cwd [cl_sardir cli]).
    { intro cwd. destruct PL as (P1 & P2 & P3 & P4 & P5). unfold resolve. destruct (String.eqb_spec (cl_sardir cli) ""); [congruence|].
      assert (HN : has_nul (cl_sardir cli) = false). { unfold has_nul. apply not_true_iff_false. intro X. apply existsb_exists in X as (b & I & E). apply Ascii.eqb_eq in E. subst b. exact (P5 I). }
      rewrite HN. rewrite split_on_none by exact P4. destruct (cl_sardir cli) as [|a s] eqn:SD; [congruence|]. cbn [is_abs]. destruct (Ascii.eqb_spec a "/") as [->|]; [exfalso; apply P4; left; reflexivity|reflexivity]. }
    assert (W : forall cwd m, fs_get cwd (h_fs h) = Some m -> is_dir m = true -> walk (h_fs h) cwd [cl_sardir cli] = inl (cwd ++ [cl_sardir cli])%list).
    { intros cwd m G D. destruct PL as (P1 & P2 & P3 & _). cbn [walk]. rewrite G, D. destruct (String.eqb_spec (cl_sardir cli) ""); [congruence|]. destruct (String.eqb_spec (cl_sardir cli) "."); [congruence|].
      destruct (String.eqb_spec (cl_sardir cli) ".."); [congruence|]. reflexivity. }
    assert (ND : names_dir (h_fs h) (h_cwd h) (cl_sardir cli) (h_cwd h ++ [cl_sardir cli])%list).
    { split; [|eauto]. unfold resolve_follow. rewrite RS, (W _ _ C0 C1). cbn [follow]. rewrite N0. unfold is_dir in N1. destruct (n_kind n); try discriminate. reflexivity. }
    assert (I : startup h = inr NoStat <-> forall p, ~ names (h_fs h) (h_cwd h ++ [cl_sardir cli])%list (cl_sardir cli) p).
    { split.
      - intros E p X. apply startup_refuses in E. inversion E as [| | | |config' ifname' cli' d CF' D' S'| | | | | | |]; subst.
        destruct CF as ((prog & A) & C). destruct CF' as ((prog' & A') & C'). rewrite A in A'. injection A' as <- <- <-. apply load_some in C as (T & cmds & L). apply load_some in C' as (T' & cmds' & L').
        rewrite L in L'. injection L' as <- _ _. destruct D' as (R' & _). destruct ND as (R & _). rewrite R in R'. injection R' as <-. exact (S' _ X).
      - intro X. apply refuses_startup. eapply no_stat; eauto. }
    split; [exact I|]. intro NO. apply I. intros p (R & m & G). unfold resolve_follow in R. rewrite RS, (W _ _ N0 N1) in R. rewrite <- app_assoc in R. cbn [app] in R.
    cbn [follow] in R. rewrite NO in R. injection R as <-. congruence.
Qed.
Example c110_sardir_ex :
  (exists cli, configured (ex_host ["saratoga"; "c.json"; "eth0"] "Users") "c.json" "eth0" cli /\ cl_sardir cli = "Users" /\ plain "Users") /\
  fs_get ["Users"; "Users"] ex_disk = None.
Proof.
  split; [|reflexivity]. eexists. split; [split; [eexists; reflexivity|]|].
  - apply load_some. eexists _, _. vm_compute. reflexivity.
  - split; [reflexivity|]. unfold plain. repeat split; try discriminate; cbn; intuition discriminate.
Qed.

(** C110: With wrong arguments or an unusable configuration the program ends with exit status 0, as if all were well; if the
    interface does not exist, the message names the configuration file in its place. *)
Lemma c110_misleading : forall h e, startup h = inr e ->
  (exit_status e = 0 <-> e = Usage \/ exists config, e = BadConfig config) /\
  (forall named, e = NoInterface named -> exists prog ifname, h_args h = [prog; named; ifname] /\ h_find h ifname = None).
Proof.
  intros h e E. split.
  - destruct e; cbn [exit_status]; split; try discriminate; eauto; intros [X|(c & X)]; discriminate.
  - intros named ->. apply startup_refuses in E. inversion E as [| | | | |config ifname cli d ((prog & A) & _) HS F| | | | | |]; subst. eauto.
Qed.

Lemma has_text_occurs : forall w s, has_text w s = true <-> occurs w s.
Proof.
  intros w s. induction s as [|c s IH]; cbn [has_text].
  - rewrite orb_false_r. split.
    + intro P. exists "", "". destruct w; [reflexivity|discriminate].
    + intros (a & b & E). destruct a; [|discriminate]. destruct w; [reflexivity|discriminate].
  - rewrite orb_true_iff, IH. split.
    + intros [P|(a & b & E)]; [|exists (String c a), b; rewrite E; reflexivity].
      exists "". assert (X : forall w s, prefix w s = true -> exists b, s = w ++ b).
      { clear. induction w as [|x w IH]; intros s P; [exists s; reflexivity|]. destruct s as [|y s]; [discriminate|]. cbn [prefix] in P.
        destruct (ascii_dec x y) as [<-|]; [|discriminate]. destruct (IH s P) as (b & ->). exists b. reflexivity. }
      destruct (X _ _ P) as (b & ->). exists b. reflexivity.
    + intros (a & b & E). destruct a as [|x a]; [left|right; exists a, b; injection E; auto].
      cbn [append] in E. rewrite E. clear. induction w as [|x w IH]; [destruct b; reflexivity|]. cbn [append prefix]. destruct (ascii_dec x x); [exact IH|congruence].
Qed.
Lemma address_lines_shown : forall line l,
  address_lines line l (map (fun a => CPrint VMsg true "green_black" (line (fst a) (snd a))) (filter (fun a => has_text "ip" (snd a)) l)).
Proof.
  intros line l. induction l as [|[a net] l IH]; [constructor|]. cbn [filter snd]. destruct (has_text "ip" net) eqn:T.
  - cbn [map]. apply (al_ip line a net); [apply has_text_occurs, T|exact IH].
  - apply al_other; [|exact IH]. intro X. apply has_text_occurs in X. congruence.
Qed.
Lemma iface_lines_shown : forall ifname ifs, interface_lines ifname ifs (flat_map (iface_lines ifname) ifs).
Proof.
  intros ifname ifs. induction ifs as [|i ifs IH]; [constructor|]. cbn [flat_map]. unfold iface_lines at 1. destruct (String.eqb_spec (if_name i) ifname) as [X|X].
  - rewrite X. rewrite <- app_comm_cons, <- app_assoc. apply il_this; [exact X| | |exact IH].
    + apply (address_lines_shown (fun a net => tab ++ " Unicast " ++ a ++ " " ++ net)).
    + apply (address_lines_shown (fun a net => "Multicast " ++ a ++ " Net:" ++ net)).
  - apply il_other; assumption.
Qed.
(** C111: A program that starts listens on the given interface for the groups and the port of its configuration, takes
    the MTU of that interface, works in its directory, and shows this about itself. *)
Lemma c111_started : forall h r, startup h = inl r ->
  exists config ifname cli d mtu p ifs, configured h config ifname cli /\ names_dir (h_fs h) (h_cwd h) (cl_sardir cli) d /\
    names (h_fs h) d (cl_sardir cli) p /\ h_find h ifname = Some mtu /\ h_ifaces h = Some ifs /\
    r_mtu r = mtu /\ r_iface r = ifname /\ r_prompt r = cl_prompt cli /\
    (forall f, r_group r f = {| ua_ip := h_ip h (match f with V4 => cl_v4 cli | V6 => cl_v6 cli end); ua_port := Z.to_N (cl_port cli); ua_zone := "" |}) /\
    node_setup (r_mtu r) (r_node r) = the_daemon mtu d (cl_sardir cli) /\
    y_cli (n_cli (r_node r)) = cli /\ w_fs (ds_world (n_net (r_node r))) = h_fs h /\ is_fs (y_tran (n_cli (r_node r))) = h_fs h /\
    n_dead (r_node r) = false /\ heard_by (r_node r) = [] /\ y_tasks (n_cli (r_node r)) = [] /\
    let st := h_statfs h p in
    (0 <= sf_bsize st < 2 ^ 63)%Z -> Z.to_N (sf_bsize st) * sf_bavail st < 2 ^ 64 ->
    exists about, r_shown r = (about ++ introduction (cl_sardir cli) (Z.to_N (sf_bsize st) * sf_bavail st / 1048576) (r_group r V6) (r_group r V4))%list /\
      interface_lines ifname ifs about.
Proof.
  intros h r E. unfold startup in E. destruct (h_args h) as [|prog [|config [|ifname [|more args]]]] eqn:A; try discriminate.
  destruct (load_config h config) as [[[[cli T] cmds]|]| |] eqn:LC; try discriminate.
  destruct (chdir _ _ _) as [d|] eqn:CD; [|discriminate]. destruct (statfs_of h d (cl_sardir cli)) as [st|] eqn:ST; [|discriminate].
  destruct (h_find h ifname) as [mtu|] eqn:F; [|discriminate]. destruct (h_gui h) eqn:GU; cbn [negb] in E; [|discriminate]. destruct (h_ifaces h) as [ifs|] eqn:IF; [|discriminate].
  destruct (listen_on h cli ifname V6) eqn:L6; [discriminate|]. destruct (listen_on h cli ifname V4) eqn:L4; [discriminate|]. injection E as <-.
  unfold statfs_of in ST. destruct (resolve_follow (h_fs h) d (cl_sardir cli)) as [p|] eqn:RF; [|discriminate]. destruct (fs_get p (h_fs h)) as [n|] eqn:G; [|discriminate]. injection ST as <-.
  exists config, ifname, cli, d, mtu, p, ifs. split; [split; [eauto|apply load_some; eauto]|]. split; [apply chdir_iff, CD|]. split; [split; eauto|].
  repeat (split; [reflexivity || assumption || (intros []; reflexivity)|]). cbv zeta. intros B0 B1.
  exists (flat_map (iface_lines ifname) ifs). split.
  - cbn [r_shown r_group]. f_equal. unfold banner, introduction, says.
    assert (MB : u64 (u64_of_Z (sf_bsize (h_statfs h p)) * sf_bavail (h_statfs h p)) / 1024 / 1024 = Z.to_N (sf_bsize (h_statfs h p)) * sf_bavail (h_statfs h p) / 1048576).
    { unfold u64_of_Z. rewrite Z.mod_small by lia. unfold u64, wrap. rewrite N.mod_small by exact B1. rewrite N.div_div by discriminate. reflexivity. }
    rewrite MB. reflexivity.
  - apply iface_lines_shown.
Qed.
(** C111: Started with the shipped configuration, it is in the state from which the other theorems about runs of the whole
    program begin. *)
Lemma c111_shipped : forall h r prog config ifname, startup h = inl r -> h_args h = [prog; config; ifname] -> h_sardir h = "" -> holds h config saratoga_json ->
  exists d, names_dir (h_fs h) (h_cwd h) "/Users/chas/sardir" d /\ r_node r = nstart (h_fs h) d /\ runs_to (r_mtu r) (r_node r).
Proof.
  intros h r prog config ifname E A SD HO. pose proof (load_cases h config) as L.
  unfold startup in E. rewrite A in E. destruct (load_config h config) as [[[[cli T] cmds]|]| |] eqn:LC; try discriminate. destruct L as (obj & HO' & RC). rewrite (holds_fun _ _ _ _ HO' HO), SD, shipped_reads in RC. injection RC as <- <- <-.
  destruct (chdir _ _ _) as [d|] eqn:CD; [|discriminate]. destruct (statfs_of h d (cl_sardir sar_cli)) as [st|] eqn:ST; [|discriminate].
  destruct (h_find h ifname) as [mtu|] eqn:F; [|discriminate]. destruct (h_gui h) eqn:GU; cbn [negb] in E; [|discriminate]. destruct (h_ifaces h) as [ifs|] eqn:IF; [|discriminate].
  destruct (listen_on h sar_cli ifname V6) eqn:L6; [discriminate|]. destruct (listen_on h sar_cli ifname V4) eqn:L4; [discriminate|]. injection E as <-.
  exists d. split; [apply chdir_iff in CD; exact CD|]. split; [reflexivity|]. exists (h_fs h), d, []. split; [intros l []|reflexivity].
Qed.
Example c111_started_ex :
  match startup (ex_host ["saratoga"; "c.json"; "eth0"] "") with
  | inl r => r_mtu r = 1500%Z /\ is_cwd (y_tran (n_cli (r_node r))) = ["Users"; "chas"; "sardir"] /\ r_group r V4 = {| ua_ip := "224.0.0.108"; ua_port := 7542; ua_zone := "" |} /\
      nth_error (r_shown r) 1 = Some (CPrint VMsg false "green_black" ("Available space is 1953 MB" ++ line_end))
  | inr _ => False
  end.
Proof. vm_compute. repeat split. Qed.
