(** * Specification vocabulary: who can change a frame after it was made *)

From Verif Require Import GoBase Holes Timestamp Data Status Request Beacon Fileio Dirent Metadata Trans Listen Memory.
Local Open Scope string_scope.
Local Open Scope N_scope.

(** A slice that lies within its array, as every slice of a Go program does *)
Definition alive {A} (H : list (list A)) (s : option sref) : Prop :=
  match s with
  | None => True
  | Some s => exists x, nth_error H (sl_array s) = Some x
                        /\ (sl_length s <= sl_capacity s)%nat /\ (sl_start s + sl_capacity s <= List.length x)%nat
  end.
(** Every array of [H] is in [H'] with the same content *)
Definition all_kept {A} (H H' : list (list A)) : Prop := forall a x, nth_error H a = Some x -> nth_error H' a = Some x.
(** ... in both kinds of arrays: nothing that existed before was written to *)
Definition nothing_written (M M' : mem) : Prop := all_kept (mb M) (mb M') /\ all_kept (mh M) (mh M').
(** The arrays made between [H] and [H1] are in [H2] with the same content; the older ones may have changed in any way *)
Definition new_kept {A} (H H1 H2 : list (list A)) : Prop :=
  forall a x, nth_error H a = None -> nth_error H1 a = Some x -> nth_error H2 a = Some x.
(** A later memory [M2]: the program may have written anything to the arrays that existed in [M], among them the buffer that was
    decoded, and may have made new ones; only the arrays made between [M] and [M1] were left alone *)
Definition older_overwritten (M M1 M2 : mem) : Prop := new_kept (mb M) (mb M1) (mb M2) /\ new_kept (mh M) (mh M1) (mh M2).
(** The slice's array did not exist in [H] *)
Definition made_since {A} (H : list (list A)) (s : option sref) : Prop :=
  match s with None => True | Some s => nth_error H (sl_array s) = None end.

(** The frame's slice is in an array that did not exist in [M] *)
Definition data_apart (M : mem) (d : mdata) : Prop := made_since (mb M) (md_payload d).
Definition request_apart (M : mem) (r : mrequest) : Prop := made_since (mb M) (mr_auth r).
Definition metadata_apart (M : mem) (m : mmetadata) : Prop := made_since (mb M) (mm_checksum m).
Definition status_apart (M : mem) (s : mstatus) : Prop := made_since (mh M) (ms_holes s).

(** Decoding on the memory [M] gave what the decoder gives on values; it wrote to nothing that existed before; and if there was
    no error then the frame's slices are new and the frame keeps its value whatever is written to the older arrays later *)
Definition decoded_apart {F V} (value : mem -> F -> V) (apart : mem -> F -> Prop) (M : mem)
    (res : outcome (mem * F * error)) (spec : outcome (V * error)) : Prop :=
  match res with
  | Ret (M1, x, e) =>
      spec = Ret (value M1 x, e) /\ nothing_written M M1
      /\ (e = None -> apart M x /\ forall M2, older_overwritten M M1 M2 -> value M2 x = value M1 x)
  | Panic => spec = Panic
  | Fatal => spec = Fatal
  end.
(** The bytes returned by an encoder are the ones it gives on values; they are in a new array, so that neither do later writes
    to older arrays (those of the frame among them) change them, nor do writes to them change the frame *)
Definition encoded_apart (M : mem) (res : outcome (mem * (sref + string))) (spec : outcome encoded) : Prop :=
  match res with
  | Ret (M1, inl s) =>
      spec = Ret (Frame (seen (mb M1) (Some s))) /\ nothing_written M M1 /\ made_since (mb M) (Some s)
      /\ forall M2, older_overwritten M M1 M2 -> seen (mb M2) (Some s) = seen (mb M1) (Some s)
  | Ret (M1, inr e) => spec = Ret (EncErr e) /\ M1 = M
  | Panic => spec = Panic
  | Fatal => spec = Fatal
  end.

(** A delivered frame by value, as read from the memory [M] *)
Definition frame_value (M : mem) (f : mframe) : frame :=
  match f with
  | MBeacon b => FBeacon b
  | MRequest r => FRequest (request_value M r)
  | MMetadata m => FMetadata (metadata_value M m)
  | MData d => FData (data_value M d)
  | MStatus s => FStatus (status_value M s)
  end.
Definition heard_value (M : mem) (h : mheard) : heard :=
  match h with
  | MDropped => Dropped
  | MToRx from f => ToRx {| pk_addr := from; pk_info := frame_value M f |}
  | MToTx p => ToTx p
  end.
(** What the datagrams are, each on its own and by value *)
Fixpoint each_alone (mtu : Z) (l : list arrival) : outcome (list heard) :=
  match l with
  | [] => Ret []
  | a :: r =>
      do h <- listen_one (ar_now a) mtu (ar_bytes a) (ar_from a);
      do hs <- each_alone mtu r;
      Ret (h :: hs)
  end.
(** The receive buffers exist and have the size that the listener gives them *)
Definition buffers_ready (mtu : Z) (bufs : nat -> sref) (M : mem) : Prop :=
  forall i, alive (mb M) (Some (bufs i)) /\ sl_length (bufs i) = Z.to_nat (mtu + 40).

(** [old] with [now] written over it from the front, as far as [old] reaches *)
Definition written_over {A} (old now : list A) : list A := (firstn (List.length old) now ++ skipn (List.length now) old)%list.
(** How many elements a slice can take up before append moves it to a new array *)
Definition room (s : option sref) : nat := match s with None => 0 | Some s => sl_capacity s - sl_length s end%nat.
