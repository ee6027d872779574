(** * Crash: the properties

    Statements only; the proofs are in CrashMain.v. *)
From Verif Require Import GoBase GoFacts Timestamp Fileio SpecFileio FileioFacts FileioMain SpecHandles HandlesFacts Partial PartialMain Crash SpecCrash DirentMain CrashMain.
Local Open Scope string_scope.
Local Open Scope N_scope.

(** C160: killed at any moment, with a system that does what it is asked to (in one call or in several), the process leaves exactly the
    chunks up to some byte, in the order they were written: every such cut can happen, and nothing else. *)
Theorem C160_killed : forall now cwd fs f l c c', receives fs f c -> in_bounds l ->
  ((exists answers fs', never_fails answers /\ leaves now cwd answers fs f l fs' /\ content_of fs' (of_path f) = Some c') <->
   exists l', cut_off l l' /\ c' = written_all c l').
Proof. exact c160_killed. Qed.
Print Assumptions C160_killed.

(** C160: when writes can also fail (a full disk, an error of the device) and the caller goes on with the next chunk: exactly the
    chunks up to some chunk, of each a prefix. *)
Theorem C160_failing : forall now cwd fs f l c c', receives fs f c -> in_bounds l ->
  ((exists answers fs', leaves now cwd answers fs f l fs' /\ content_of fs' (of_path f) = Some c') <->
   exists l', parts_of l l' /\ c' = written_all c l').
Proof. exact c160_failing. Qed.
Print Assumptions C160_failing.

(** C160: in either case no other file is touched. *)
Theorem C160_others : forall now cwd answers fs f l fs' c, receives fs f c -> in_bounds l -> leaves now cwd answers fs f l fs' ->
  unchanged_except (of_path f) fs fs' /\ exists c', content_of fs' (of_path f) = Some c'.
Proof. exact c160_others. Qed.
Print Assumptions C160_others.

(** C160: the process opened a file to receive into, wrote to it, and was killed at some moment.  Started again with the same name, it
    opens the same file and empties it, whatever was received; only if the file is seen at the second place (sardir twice) opening is
    refused. *)
Theorem C160_again : forall now now1 now2 ok cwd answers fs sardir fname ttype ttype' l f fs' p,
  ttype = "get" \/ ttype = "take" -> ttype' = "get" \/ ttype' = "take" -> in_bounds l ->
  let o := file_open now1 false fs cwd sardir fname ttype in
  or_fp o = Some f -> content_of (or_fs o) (of_path f) = Some [] -> proc_run now cwd answers (or_fs o, Between f l) = (fs', p) ->
  let o' := file_open now2 ok fs' cwd sardir fname ttype' in
  (doubled_exists fs' cwd sardir fname = false ->
     or_err o' = false /\ content_of (or_fs o') (of_path f) = Some [] /\ unchanged_except (of_path f) fs' (or_fs o') /\
     exists f', or_fp o' = Some f' /\ of_path f' = of_path f /\ of_write f' = true) /\
  (doubled_exists fs' cwd sardir fname = true -> or_err o' = true /\ or_fp o' = None /\ or_fs o' = fs').
Proof. exact c160_again. Qed.
Print Assumptions C160_again.

(** C160: with a directory of transfers that has an absolute name and does not contain a directory of its own first name, this is always
    so: all that was received is lost. *)
Theorem C160_lost : forall now now1 now2 ok cwd answers fs c1 rest fname ttype ttype' l f fs' p,
  ttype = "get" \/ ttype = "take" -> ttype' = "get" \/ ttype' = "take" -> in_bounds l -> (forall c, In c (c1 :: rest) -> plain c) ->
  fs_get ((c1 :: rest) ++ [c1])%list fs = None ->
  let o := file_open now1 false fs cwd (abs_name (c1 :: rest)) fname ttype in
  or_fp o = Some f -> content_of (or_fs o) (of_path f) = Some [] -> of_path f <> ((c1 :: rest) ++ [c1])%list ->
  proc_run now cwd answers (or_fs o, Between f l) = (fs', p) ->
  let o' := file_open now2 ok fs' cwd (abs_name (c1 :: rest)) fname ttype' in
  or_err o' = false /\ content_of (or_fs o') (of_path f) = Some [].
Proof. exact c160_lost. Qed.
Print Assumptions C160_lost.

(** C160: the file does not tell what was received: bytes that were never received, in front of some that were, are zeros, and so are
    zeros that were received. *)
Theorem C160_gap : forall n buf, buf <> [] ->
  written_all [] [(N.of_nat n, buf)] = written_all [] [(0, repeat (ascii_of_N 0) n); (N.of_nat n, buf)].
Proof. exact c160_gap. Qed.
Print Assumptions C160_gap.
Example C160_ex :
  content_of (fst ex_killed) ["Users"; "chas"; "sardir"; "new"] = Some (bytes_of "a" ++ repeat (ascii_of_N 0) 2 ++ bytes_of "def")%list /\
  receives (or_fs (file_open ex_time false ex_tree [] "/Users/chas/sardir" "new" "get")) (ex_open ["Users"; "chas"; "sardir"; "new"]) [] /\
  in_bounds [(3, bytes_of "def"); (0, bytes_of "abc")] /\
  cut_off [(3, bytes_of "def"); (0, bytes_of "abc")] [(3, bytes_of "def"); (0, firstn 1 (bytes_of "abc"))] /\
  content_of (or_fs (file_open ex_time false (fst ex_killed) [] "/Users/chas/sardir" "new" "get")) ["Users"; "chas"; "sardir"; "new"] = Some [].
Proof. exact c160_ex. Qed.

(** With "." for the directory of transfers the second opening is refused *)
Example C160_refused_ex :
  let s := proc_run ex_time ["Users"] [Did 1; Did 1; Did 9] (ex_tree, Opening "." "new" "get" [(0, bytes_of "abc")]) in
  content_of (fst s) ["Users"; "new"] = Some (bytes_of "abc") /\ doubled_exists (fst s) ["Users"] "." "new" = true /\
  or_err (file_open ex_time false (fst s) ["Users"] "." "new" "get") = true.
Proof. exact c160_refused_ex. Qed.
