(** * Tranlist: the properties

    Statements only; the proofs are in TranlistMain.v. *)
From Verif Require Import GoBase Sarnet Transfer SpecTransfer TransferMain Table SpecTable TableMain SpecShow ShowMain Tranlist SpecTranlist TranlistMain.
Local Open Scope string_scope.
Local Open Scope N_scope.

(** C155: files, and tran without a type, look at the length of the table and then at one transfer after the other.  If, when the
    command comes to the transfer number [i], the table has no more than [i] transfers, the program ends; this is the only way it
    can fail.  Else it shows as many transfers as there were at its first look, each as it is found in its place. *)
Theorem C155_all : forall T sched tables, moments T sched tables ->
  let n := List.length (tables 0%nat) in
  (amid (info_seen "") sched T = Panic <-> exists i, (i < n)%nat /\ (List.length (tables (S i)) <= i)%nat) /\
  ((forall i, (i < n)%nat -> (i < List.length (tables (S i)))%nat) ->
   exists l text, amid (info_seen "") sched T = Ret text /\ transfers_shown "" l text /\ List.length l = n /\
     forall i, (i < n)%nat -> nth_error l i = nth_error (tables (S i)) i).
Proof. exact c155_all. Qed.
Print Assumptions C155_all.

(** C155: while no transfer is removed, a listing shows exactly the transfers (of the kind) that are there at its first look,
    however many are started meanwhile. *)
Theorem C155_started : forall kind T cs sched T', changed T cs T' -> (forall g, In g sched -> starts g) ->
  exists text, amid (info_seen kind) (cs :: sched) T = Ret text /\ transfers_shown kind (chosen kind T') text.
Proof. exact c155_started. Qed.
Print Assumptions C155_started.

(** C155: what one removal does to a listing.  A listing of the transfers of a kind looks once at the length of the table, once at
    each transfer, and once more at each of the kind (of all kinds: once at each).  A removal before the first look leaves the last
    transfer out; one after the last look is not noticed; at every other moment it ends the program. *)
Theorem C155_removed : forall kind T u k, In u T ->
  let looks := (1 + List.length T + (if String.eqb kind "" then 0 else List.length (of_kind kind T)))%nat in
  let result := amid (info_seen kind) (only_at k [Removed u]) T in
  (k = 0%nat -> exists text, result = Ret text /\ transfers_shown kind (chosen kind (removelast T)) text) /\
  ((0 < k < looks)%nat -> result = Panic) /\
  ((looks <= k)%nat -> exists text, result = Ret text /\ transfers_shown kind (chosen kind T) text).
Proof. exact c155_removed. Qed.
Print Assumptions C155_removed.

(** C155: a listing of one kind can show a transfer of any other kind: when the last transfer is of the kind, and it is removed and
    another one is started between the two looks at it, this other one is shown as if it were of the kind (defect). *)
Theorem C155_wrong : forall kind before t u, kind <> "" -> tr_ttype t = kind ->
  exists k text, amid (info_seen kind) (only_at k [Removed t; Added u]) (before ++ [t]) = Ret text /\
    transfers_shown kind (of_kind kind before ++ [u]) text.
Proof. exact c155_wrong. Qed.
Print Assumptions C155_wrong.

(** C155: whatever happens meanwhile, a listing of one kind that does not end the program shows no more transfers than there were at its
    first look, and in the place of each of them there was one of the kind just before. *)
Theorem C155_kind : forall kind T sched tables text, kind <> "" -> moments T sched tables ->
  amid (info_seen kind) sched T = Ret text ->
  exists l, transfers_shown kind l text /\ (List.length l <= List.length (tables 0%nat))%nat /\
    forall x, In x l -> exists i k t, (i < List.length (tables 0%nat))%nat /\ (0 < k)%nat /\
      nth_error (tables k) i = Some t /\ tr_ttype t = kind /\ nth_error (tables (S k)) i = Some x.
Proof. exact c155_kind. Qed.
Print Assumptions C155_kind.

(** C155: while no transfer is removed, the transfer that rmtran means is looked for among those that are there at the first look. *)
Theorem C155_find_started : forall addr session T cs sched T', changed T cs T' -> (forall g, In g sched -> starts g) ->
  finds addr session T' (amid (match_seen addr session) (cs :: sched) T).
Proof. exact c155_find_started. Qed.
Print Assumptions C155_find_started.

(** C155: what one removal does to looking for a transfer.  The search looks at the length of the table and then at the last transfer:
    once, if it is not connected to the address; twice, if it is but has another session; three times, if it is the one that is meant.
    A removal between the look at the length and the last of these looks ends the program (defect).  Before that the search
    goes through the remaining transfers, after that it is not disturbed. *)
Theorem C155_find_removed : forall addr session before t u k looks, In u (before ++ [t]) ->
  (~ connected_to addr t /\ looks = 1 \/ connected_to addr t /\ tr_session t <> session /\ looks = 2 \/ named addr session t /\ looks = 3)%nat ->
  let result := amid (match_seen addr session) (only_at k [Removed u]) (before ++ [t]) in
  (k = 0%nat -> finds addr session before result) /\
  ((0 < k <= looks)%nat -> result = Panic) /\
  ((looks < k)%nat -> finds addr session (before ++ [t]) result).
Proof. exact c155_find_removed. Qed.
Print Assumptions C155_find_removed.

(** Three transfers, of which a failed one is removed while another goroutine lists them: after the second look the program ends *)
Example C155_all_ex :
  let T := TransferMain.ex_table in let u := ex_transfer 7 ex_peer "a" in let v := ex_transfer 10 ex_peer2 "d" in
  amid (info_seen "") (only_at 2 [Removed u]) T = Panic /\
  amid (info_seen "") (only_at 2 [Removed u; Added v]) T = Ret (info_text [u; ex_transfer 8 ex_peer2 "b"; v]) /\
  moments T (only_at 2 [Removed u; Added v]) (at_look T (only_at 2 [Removed u; Added v])) /\
  map (fun k => map tr_session (at_look T (only_at 2 [Removed u; Added v]) k)) [0; 1; 2; 3]%nat = [[7; 8; 9]; [7; 8; 9]; [7; 8; 10]; [7; 8; 10]].
Proof. exact c155_all_ex. Qed.
Example C155_removed_ex :
  let T := TransferMain.ex_table in let u := ex_transfer 7 ex_peer "a" in
  In u T /\ List.length (of_kind "get" T) = 3%nat /\
  map (fun k => match amid (info_seen "get") (only_at k [Removed u]) T with Ret _ => true | _ => false end) [0; 1; 2; 3; 4; 5; 6; 7; 8]%nat =
    [true; false; false; false; false; false; false; true; true] /\
  amid (info_seen "put") (only_at 4 [Removed u]) T = Ret "No put transfers currently in progress".
Proof. exact c155_removed_ex. Qed.

(** "get" lists a transfer that puts *)
Example C155_wrong_ex :
  let t := ex_transfer 7 ex_peer "a" in
  let u := {| tr_direction := initiator; tr_session := 8; tr_conn := tr_conn t; tr_peer := ex_peer; tr_ttype := "put"; tr_tstamptype := ""; tr_filename := "new";
    tr_fp := None; tr_filemeta := None; tr_csumtype := ""; tr_havemeta := false; tr_checksum := []; tr_dir := None; tr_data := []; tr_progress := 0; tr_inrespto := 0;
    tr_curfills := []; tr_cliflags := None |} in
  tr_ttype t = "get" /\ starts [Added u] /\
  amid (info_seen "get") (only_at 2 [Removed t; Added u]) [t] = Ret
"|------|--------|-------------|---|
|Direct|Tran Typ|           IP|Fname|
|------|--------|-------------|---|
|Initiator|     put|10.0.0.1:7542|new|
|------|--------|-------------|---|
".
Proof. exact c155_wrong_ex. Qed.

(** Looking for the first transfer, while one is removed *)
Example C155_find_ex :
  let T := TransferMain.ex_table in let u := ex_transfer 7 ex_peer "a" in
  named "10.0.0.1:7542" 7 u /\ connected_to "10.0.0.1:7542" (ex_transfer 9 ex_peer "c") /\ tr_session (ex_transfer 9 ex_peer "c") <> 7 /\
  map (fun k => match amid (match_seen "10.0.0.1:7542" 7) (only_at k [Removed u]) T with Ret (Some i) => Some i | _ => None end) [0; 1; 2; 3; 4; 5]%nat =
    [Some 0; None; None; Some 0; Some 0; Some 0]%nat /\
  amid (match_seen "10.0.0.1:7542" 9) (only_at 3 [Removed u]) T = Panic.
Proof. exact c155_find_ex. Qed.
