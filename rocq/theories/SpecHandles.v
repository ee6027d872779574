(** * Specification vocabulary for open files *)

From Verif Require Import GoBase Flags Timestamp Fileio SpecFileio Handles.
Local Open Scope string_scope.
Local Open Scope N_scope.

(** Positions are uint64 *)
Definition uint64_op (o : hop) : Prop :=
  match o with HRead _ pos _ | HWrite _ pos _ => pos < 2 ^ 64 | _ => True end.
(** The content of the file behind handle [i] (None: there is no such handle, or it is no regular file) *)
Definition contents (w : world) (i : nat) : option (list byte) :=
  match nth_error (w_files w) i with
  | Some f => match node_at w (h_at f) with
              | Some n => match n_kind n with KFile c => Some c | _ => None end
              | None => None
              end
  | None => None
  end.
(** Handles [i] and [j] are handles of one file *)
Definition one_file (w : world) (i j : nat) : bool :=
  match nth_error (w_files w) i, nth_error (w_files w) j with
  | Some f, Some g => place_eqb (h_at f) (h_at g)
  | _, _ => false
  end.
(** Handle [i] has been opened, and not closed since *)
Definition is_open (w : world) (i : nat) : bool :=
  match nth_error (w_files w) i with Some f => h_open f | None => false end.
(** Handle [i] was opened for writing *)
Definition writable (w : world) (i : nat) : bool :=
  match nth_error (w_files w) i with Some f => h_write f | None => false end.
(** What fp.Name() says for handle [i] *)
Definition name_of (w : world) (i : nat) : option string := option_map h_name (nth_error (w_files w) i).
(** Handle [i] is of the file that has the name [p] *)
Definition named (w : world) (i : nat) (p : path) : Prop :=
  exists f, nth_error (w_files w) i = Some f /\ h_at f = Named p.
(** How many handles have been handed out *)
Definition handed_out (w : world) : nat := List.length (w_files w).

(** A world that can come about: by calls of the package, from some file system on *)
Definition came_about (sardir : string) (w : world) : Prop :=
  exists fs cwd l rs, Forall uint64_op l /\ hrun sardir (no_files fs cwd) l = Ret (w, rs).
(** No name leads to the file of handle [i] any more *)
Definition nameless (w : world) (i : nat) : Prop := (i < handed_out w)%nat /\ forall p, ~ named w i p.

(** The content after writing [buf] at [pos], byte by byte *)
Definition written (c : list byte) (pos : nat) (buf : list byte) : list byte :=
  match buf with
  | [] => c
  | _ => map (fun i => match byte_after c pos buf i with Some b => b | None => ascii_of_N 0 end)
             (seq 0 (Nat.max (List.length c) (pos + List.length buf)))
  end.
(** What a call and its result say about the content of the file of handle [i], when
    [mine] says which handles are of that file: a write that succeeded on one of them, or an
    opening for receiving that yielded one of them *)
Definition told (mine : nat -> bool) (c : list byte) (e : hop * hres) : list byte :=
  match e with
  | (HWrite (Some j) pos buf, RWrote (Some _)) => if mine j then written c (N.to_nat pos) buf else c
  | (HOpen _ _ _ ttype, ROpened (Some j) _) =>
      if mine j && (String.eqb ttype "get" || String.eqb ttype "take") then [] else c
  | _ => c
  end.
(** The calls that close handle [i] *)
Definition closes (i : nat) (o : hop) : bool :=
  match o with HClose (Some j) | HDelete (Some j) => Nat.eqb i j | _ => false end.
(** The calls that use handle [i], and that they report an error *)
Definition uses (i : nat) (o : hop) : bool :=
  match o with HRead (Some j) _ _ | HWrite (Some j) _ _ | HClose (Some j) => Nat.eqb i j | _ => false end.
Definition error_res (r : hres) : Prop :=
  match r with ROpened _ e => e = true | RRead r => r = None | RWrote r => r = None | RDone b => b = false end.
