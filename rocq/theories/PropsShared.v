(** * Shared: the properties

    Statements only; the proofs are in SharedMain.v. *)
From Verif Require Import GoBase GoFacts Flags SpecFlags FlagsFacts Config Shipped Data SpecFrames Beacon Transfer Words SpecWords Cli SpecCli Shared SpecShared SharedFacts SharedCopy SharedMain.
From Coq Require Import Lia Permutation.
Local Open Scope string_scope.
Local Open Scope N_scope.

(** C134: whenever no command is at work, the settings are what the commands that have
    finished make of them one after the other, in the order in which they finished, whatever
    the interleaving of their accesses *)
Theorem C134_serial : forall c jobs is,
  let s := rrun (begin c jobs) is in
  let order := finishing (begin c jobs) is in
  rs_dead s = false -> rs_lock s = None ->
  rs_set s = one_by_one jobs order c /\ NoDup order /\ forall i, In i order <-> finished s i = true.
Proof. exact c134_serial. Qed.
Print Assumptions C134_serial.

(** C134: only commands that start transfers can take part in the end of the program:
    commands on the settings, and beacon commands, never end it, however they interleave *)
Theorem C134_safe : forall c jobs is, (forall j, In j jobs -> is_transfer j = false) -> rs_dead (rrun (begin c jobs) is) = false.
Proof. exact c134_safe. Qed.
Print Assumptions C134_safe.

(** C134: and they never block each other for good: while a goroutine has something left to
    do, one of them can go on *)
Theorem C134_progress : forall c jobs is i j,
  let s := rrun (begin c jobs) is in
  rs_dead s = false -> nth_error jobs i = Some j -> finished s i = false -> exists k s', rstep s k = Some s'.
Proof. exact c134_progress. Qed.
Print Assumptions C134_progress.

(** C134: each step is one of a number fixed at the start, so the goroutines come to an end *)
Theorem C134_ends : forall s i s', rstep s i = Some s' -> rs_dead s' = false ->
  list_sum (map (fun w => List.length (wk_todo w)) (rs_work s)) = S (list_sum (map (fun w => List.length (wk_todo w)) (rs_work s'))).
Proof. exact c134_ends. Qed.
Print Assumptions C134_ends.
Example C134_ex :
  let jobs := [JSetting ["checksum"; "md5"]; JSetting ["timestamp"; "32"]; JBeacon 2] in
  let is := [1; 1; 0; 1; 2; 1; 1; 0; 2; 0; 0; 2; 0; 0; 2; 2; 2; 2]%nat in
  let s := rrun (begin sar_cli jobs) is in
  rs_dead s = false /\ rs_lock s = None /\ finishing (begin sar_cli jobs) is = [1; 0; 2]%nat /\
  value (rs_set s) (Flag "csumtype") = KText "md5" /\ value (rs_set s) Stamp = KText "posix32" /\ rs_set s <> sar_cli.
Proof. exact c134_ex. Qed.

(** C135: changing the settings while a transfer starts can end the program: whatever the
    settings are, the program can die exactly if some command starts a transfer while some
    command sets a header flag *)
Theorem C135_dies : forall c jobs, cl_global c <> [] ->
  (exists is, rs_dead (rrun (begin c jobs) is) = true) <->
  (exists order, In (JTransfer order) jobs) /\ (exists ws f v, In (JSetting ws) jobs /\ sets_flag ws f v).
Proof. exact c135_dies. Qed.
Print Assumptions C135_dies.

(** C135: what a transfer's copy of the settings says: each setting has in it a value that it
    had at some moment of the run, except that the copy has the IPv4 group in place of the
    IPv6 group, and no count of beacons *)
Theorem C135_members : forall c jobs is i order d,
  let s := rrun (begin c jobs) is in
  nth_error jobs i = Some (JTransfer order) -> NoDup order -> (forall f, In f order <-> value c (Flag f) <> KNone) ->
  rs_dead s = false -> finished_with s i d ->
  value d Count = KNum 0 /\
  forall k, k <> Count -> exists m, at_some_moment (begin c jobs) is m /\ value d k = value m (match k with Group6 => Group4 | _ => k end).
Proof. exact c135_members. Qed.
Print Assumptions C135_members.

(** C135: so two commands may be given one after the other, and a transfer that starts
    meanwhile work with the second setting but not with the first, though the settings were
    never so *)
Theorem C135_mixed : forall c w1 w2 k1 k2 v1 v2 x1 x2 o1 o2 o3,
  sets_flag w1 k1 v1 -> sets_flag w2 k2 v2 -> k1 <> k2 ->
  value c (Flag k1) = KText x1 -> value c (Flag k2) = KText x2 -> x1 <> v1 -> x2 <> v2 ->
  NoDup (o1 ++ k1 :: o2 ++ k2 :: o3) ->
  let jobs := [JSetting w1; JSetting w2; JTransfer (o1 ++ k1 :: o2 ++ k2 :: o3)] in
  exists is d, let s := rrun (begin c jobs) is in
    rs_dead s = false /\ finishing (begin c jobs) is = [0; 1; 2]%nat /\ finished_with s 2 d /\
    value d (Flag k1) = KText x1 /\ value d (Flag k2) = KText v2 /\
    forall m, at_some_moment (begin c jobs) is m -> ~ (value m (Flag k1) = KText x1 /\ value m (Flag k2) = KText v2).
Proof. exact c135_mixed. Qed.
Print Assumptions C135_mixed.
Example C135_ex :
  let keys := map fst (cl_global sar_cli) in
  sets_flag ["checksum"; "md5"] "csumtype" "md5" /\ sets_flag ["descriptor"; "d16"] "descriptor" "d16" /\
  In "csumtype" keys /\ In "descriptor" keys /\ NoDup keys /\
  value sar_cli (Flag "csumtype") <> KText "md5" /\ value sar_cli (Flag "descriptor") <> KText "d16" /\
  (let jobs := [JSetting ["checksum"; "md5"]; JTransfer keys] in
   rs_dead (rrun (begin sar_cli jobs) (repeat 1%nat 16 ++ [0; 0; 1]%nat)) = true /\
   exists d, finished_with (rrun (begin sar_cli jobs) (repeat 1%nat 60 ++ repeat 0%nat 9)) 1 d /\ value d (Flag "csumtype") = value sar_cli (Flag "csumtype") /\
     value d Group6 = value sar_cli Group4).
Proof. exact c135_ex. Qed.
