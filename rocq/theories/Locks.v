(** * Model of the mutexes: which function locks and unlocks what, and goroutines that run them *)

From Coq Require Import List Bool Arith.
Import ListNotations.

(** sarflags/sarflags.go:267 Climu; sarwin/sarwin.go:894 Trmu, 859 smu, 94 ViewMu; beacon/beacon.go:339 pmu;
    trans/trans.go:42 Trmu.  Setglobal (sarflags/sarflags.go:769-783) locks a variable of its own, which nobody
    else can lock: it is left out. *)
Inductive mutex := Climu | Trmu | Smu | ViewMu | Pmu | RxTrmu.
(** The functions that lock, or call one that does.  [Setting]: the twelve commands cmdChecksum, cmdDescriptor, cmdFreespace, cmdBcount,
    cmdInterval, cmdReqtstamp, cmdRxwilling, cmdStream, cmdTimeout, cmdTimestamp, cmdTimezone and cmdTxwilling
    (sarwin/sarwin.go:1372-2455), which begin with the same two lines.  [PrintText]: what fprintf and fprintln hand to
    gocui (sarwin/sarwin.go:304-348).  [Fetch]: cmdGet, cmdGetdir and cmdTake (1578-1652).  [Push]: cmdPut, cmdPutblind, cmdGive and
    cmdDelete (1890-2076). *)
Inductive fname :=
| NewPeer | NewSession | NewInitiator | NewResponder | Change | Remove | Setting | CmdBeacon | ReadConfig | AddRxTran
| PrintText | Fetch | Push | Do | CmdRmtran.
(** Go statements, as far as mutexes are concerned (sarwin/sarwin.go:736-2455): which branch is taken and how often a loop is
    run is left open.  [Forever]: a receive from a channel to which nobody sends. *)
Inductive stmt :=
| Skip | Lock (m : mutex) | Unlock (m : mutex) | DeferUnlock (m : mutex) | Return | Forever
| Seq (a b : stmt) | Either (a b : stmt) | Loop (a : stmt) | Call (f : fname).
(** Statements one after the other (Go syntax, e.g. sarwin/sarwin.go:736-746) *)
Fixpoint block (l : list stmt) : stmt := match l with [] => Skip | [a] => a | a :: r => Seq a (block r) end.
(** if without else (Go syntax, e.g. sarwin/sarwin.go:925-947) *)
Definition Perhaps (a : stmt) : stmt := Either a Skip.

(** The bodies.  beacon/beacon.go:344-385 NewPeer; sarwin/sarwin.go:736-746 newsession, 921-987 NewInitiator, 990-1086 NewResponder,
    1191-1213 Change, 1216-1229 Remove, 1372-2455 the settings, 1276-1365 cmdBeacon; sarflags/sarflags.go:322-566 ReadConfig;
    trans/trans.go:50-233 AddRxTran; sarwin/sarwin.go:304-348 fprintf and fprintln, 1578-1652 cmdGet, cmdGetdir, cmdTake, 1890-2076
    cmdPut, cmdPutblind, cmdGive, cmdDelete, 1248-1256 Do, 2078-2106 cmdRmtran.
    Simplification: a panic, which ends the program, is left out. *)
Definition body (f : fname) : stmt :=
  match f with
  | NewPeer =>
      block [Perhaps Return;                                                             (* 345-347 *)
             Loop (Perhaps (block [Lock Pmu; DeferUnlock Pmu; Either Return Return]));   (* 349-369 *)
             Lock Pmu; DeferUnlock Pmu; Return]                                          (* 381-384 *)
  | NewSession => block [Lock Smu; DeferUnlock Smu; Return]                              (* 737-745 *)
  | NewInitiator =>
      block [Loop (block [Perhaps (block [Call Remove; Return]);                         (* 925-933 *)
                          Perhaps Return; Perhaps Return]);                              (* 936-947 *)
             Lock Trmu; DeferUnlock Trmu; Call NewSession; Return]                       (* 953-986 *)
  | NewResponder =>
      block [Perhaps Return; Perhaps Return; Perhaps Return;                             (* 993-1009 *)
             Lock Trmu; DeferUnlock Trmu;                                                (* 1012-1013 *)
             Perhaps Return; Perhaps Return; Perhaps Return; Return]                     (* 1045-1085 *)
  | Change => block [Lock Trmu; DeferUnlock Trmu; Perhaps Return; Return]                (* 1193-1212 *)
  | Remove => block [Lock Trmu; DeferUnlock Trmu; Loop (Perhaps Return); Return]         (* 1217-1228 *)
  | Setting => block [Lock Climu; DeferUnlock Climu; Perhaps Return]
  | CmdBeacon => block [Lock Climu; DeferUnlock Climu; Perhaps Return; Perhaps Return; Loop Skip]   (* 1279-1365 *)
  | ReadConfig =>
      block [Perhaps Return; Perhaps Return; Perhaps Return;                             (* 332-346 *)
             Lock Climu; DeferUnlock Climu; Loop (Perhaps Return); Return]               (* 348-565 *)
  | AddRxTran =>
      block [Perhaps Return;                                                             (* 50-205, any of its returns *)
             Lock RxTrmu; Unlock RxTrmu;                                                 (* 223-225 *)
             Perhaps Return; Return]                                                     (* 227-232 *)
  | PrintText => block [Lock ViewMu; DeferUnlock ViewMu; Return]                         (* 307-323, 331-347 *)
  | Fetch => Perhaps (Call NewInitiator)                                                 (* 1593, 1616, 1642 *)
  | Push =>
      Perhaps (block [Call NewInitiator;                                                 (* 1904 *)
                      Perhaps (block [Forever; Perhaps (Call Remove); Return])])         (* 1905-1918 *)
  | Do => Forever                                                                        (* 1255 *)
  | CmdRmtran => Perhaps (Call Remove)                                                   (* 2097 *)
  end.

(** What a goroutine does with mutexes, and the place at which it waits forever
    (sync.Mutex, as used in sarwin/sarwin.go:736-2455) *)
Inductive act := Acq (m : mutex) | Rel (m : mutex) | Hang.
(** How a statement ends: the next one follows, the function returns, or the goroutine waits forever (Go semantics, for sarwin/sarwin.go:736-2455) *)
Inductive flow := Next | Back | Stuck.
(** The ways to execute a statement: what is done with mutexes, which unlocks have been deferred (the latest
    first), how it ends (Go semantics of the statements, for sarwin/sarwin.go:736-2455).  A function that returns, or comes to its
    end, runs what it has deferred. *)
Inductive exec : stmt -> list act -> list mutex -> flow -> Prop :=
| ex_skip : exec Skip [] [] Next
| ex_lock : forall m, exec (Lock m) [Acq m] [] Next
| ex_unlock : forall m, exec (Unlock m) [Rel m] [] Next
| ex_defer : forall m, exec (DeferUnlock m) [] [m] Next
| ex_return : exec Return [] [] Back
| ex_forever : exec Forever [Hang] [] Stuck
| ex_seq : forall a b t t' ds ds' fl, exec a t ds Next -> exec b t' ds' fl -> exec (Seq a b) (t ++ t') (ds' ++ ds) fl
| ex_seq_end : forall a b t ds fl, exec a t ds fl -> fl <> Next -> exec (Seq a b) t ds fl
| ex_left : forall a b t ds fl, exec a t ds fl -> exec (Either a b) t ds fl
| ex_right : forall a b t ds fl, exec b t ds fl -> exec (Either a b) t ds fl
| ex_loop_done : forall a, exec (Loop a) [] [] Next
| ex_loop : forall a t t' ds ds' fl, exec a t ds Next -> exec (Loop a) t' ds' fl -> exec (Loop a) (t ++ t') (ds' ++ ds) fl
| ex_loop_end : forall a t ds fl, exec a t ds fl -> fl <> Next -> exec (Loop a) t ds fl
| ex_call : forall f t ds fl, exec (body f) t ds fl -> fl <> Stuck -> exec (Call f) (t ++ map Rel ds) [] Next
| ex_call_stuck : forall f t ds, exec (body f) t ds Stuck -> exec (Call f) t [] Stuck.
(** A goroutine that calls one function after the other (no code of its own: e.g. the goroutines of saratoga/saratoga.go:607-671) *)
Inductive calls : list fname -> list act -> Prop :=
| calls_none : calls [] []
| calls_one : forall f fs t t', exec (Call f) t [] Next -> calls fs t' -> calls (f :: fs) (t ++ t')
| calls_stuck : forall f fs t, exec (Call f) t [] Stuck -> calls (f :: fs) t.

(** ** Goroutines and mutexes *)

(** Auxiliary, no code of its own: equality of the mutexes of sarwin/sarwin.go:94-894 and the others *)
Definition mutex_eq_dec (a b : mutex) : {a = b} + {a <> b}.
Proof. decide equality. Defined.
(** A goroutine: what it has done and what it has left to do (sync.Mutex, as used in sarwin/sarwin.go:736-2455) *)
Record lthread := { t_done : list act; t_todo : list act }.
(** The mutexes that are locked, the goroutines, and whether the program has died of unlocking a mutex that is not
    locked (sync.Mutex, as used in sarwin/sarwin.go:736-2455) *)
Record lstate := { l_locked : mutex -> bool; l_threads : list lthread; l_dead : bool }.
(** Auxiliary, no code of its own: one goroutine moves on (for sarwin/sarwin.go:736-2455) *)
Fixpoint put_thread (i : nat) (t : lthread) (ts : list lthread) : list lthread :=
  match ts, i with
  | [], _ => []
  | _ :: r, O => t :: r
  | a :: r, S i => a :: put_thread i t r
  end.
(** A step of goroutine [i]; None: it has finished, waits for a mutex, or waits forever
    (sync.Mutex Lock and Unlock, as called in sarwin/sarwin.go:736-2455) *)
Definition lstep (s : lstate) (i : nat) : option lstate :=
  match nth_error (l_threads s) i with
  | Some {| t_done := d; t_todo := a :: r |} =>
      let ts := put_thread i {| t_done := d ++ [a]; t_todo := r |} (l_threads s) in
      match a with
      | Acq m =>
          if l_locked s m then None
          else Some {| l_locked := fun x => if mutex_eq_dec m x then true else l_locked s x; l_threads := ts; l_dead := l_dead s |}
      | Rel m =>
          if l_locked s m
          then Some {| l_locked := fun x => if mutex_eq_dec m x then false else l_locked s x; l_threads := ts; l_dead := l_dead s |}
          else Some {| l_locked := l_locked s; l_threads := ts; l_dead := true |}
      | Hang => None
      end
  | _ => None
  end.
(** No code of its own: an execution; a goroutine that cannot move is passed over (for sarwin/sarwin.go:736-2455) *)
Fixpoint lrun (s : lstate) (is : list nat) : lstate :=
  match is with [] => s | i :: r => lrun (match lstep s i with Some s' => s' | None => s end) r end.
(** Nothing is locked at the beginning: the zero value of a sync.Mutex (sarwin/sarwin.go:94, 859, 894 and the others) *)
Definition lstart (ts : list (list act)) : lstate :=
  {| l_locked := fun _ => false; l_threads := map (fun t => {| t_done := []; t_todo := t |}) ts; l_dead := false |}.
