(** * Specification vocabulary for frames

    How numbers lie on the wire, what the header fields of the protocol mean, and
    the layout of every frame, written down from the protocol and not from the
    encoders. *)

From Verif Require Import GoBase SpecFlags.
Local Open Scope string_scope.
Local Open Scope N_scope.

(** [v] as [k] bytes, most significant first: byte number [i] holds bits
    8(k-1-i) .. 8(k-1-i)+7. *)
Definition wire (k : nat) (v : N) : list byte :=
  map (fun i => ascii_of_N ((v / 2 ^ (8 * N.of_nat (k - 1 - i))) mod 256)) (seq 0 k).

(** [k] zero bytes *)
Definition zeros (k : nat) : list byte := repeat (ascii_of_N 0) k.

(** The number the bytes [i .. i+k-1] of a datagram hold, most significant first *)
Definition number_at (frame : list byte) (i k : nat) : N :=
  fold_left (fun acc b => acc * 256 + N_of_ascii b) (firstn k (skipn i frame)) 0.

(** ** Fields of the 32-bit header *)
Definition hd_version (h : N) : N := bit_field 32 0 3 h.
Definition hd_frametype (h : N) : N := bit_field 32 3 5 h.
Definition hd_descriptor (h : N) : N := bit_field 32 8 2 h.
Definition hd_reqtstamp (h : N) : N := bit_field 32 12 1 h.
Definition hd_freespace (h : N) : N := bit_field 32 17 1 h.
Definition hd_freespaced (h : N) : N := bit_field 32 18 2 h.
Definition hd_csumlen (h : N) : N := bit_field 32 24 4 h.
Definition hd_csumtype (h : N) : N := bit_field 32 28 4 h.
Definition hd_errcode (h : N) : N := bit_field 32 24 8 h.
Definition hd_transfer (h : N) : N := bit_field 32 10 2 h.

(** Bytes of an offset for descriptor 0, 1, 2 (16, 32, 64 bits).  Descriptor 3
    (128 bits) is not supported. *)
Definition descriptor_width (d : N) : option nat :=
  match d with 0 => Some 2%nat | 1 => Some 4%nat | 2 => Some 8%nat | _ => None end.

(** ** Timestamps: one type byte, the seconds, the nanoseconds, padding to 16 *)
Record ts_layout := { tl_name : string; tl_secs : nat; tl_nanos : nat }.
Definition ts_type (v : N) : option ts_layout :=
  match v with
  | 1 => Some {| tl_name := "posix32"; tl_secs := 4; tl_nanos := 0 |}
  | 2 => Some {| tl_name := "posix64"; tl_secs := 8; tl_nanos := 0 |}
  | 3 => Some {| tl_name := "posix32_32"; tl_secs := 4; tl_nanos := 4 |}
  | 4 => Some {| tl_name := "posix64_32"; tl_secs := 8; tl_nanos := 4 |}
  | 5 => Some {| tl_name := "epoch2000_32"; tl_secs := 4; tl_nanos := 0 |}
  | _ => None
  end.
Definition ts_wire (ty : N) (L : ts_layout) (secs nsecs : N) : list byte :=
  (wire 1 ty ++ wire (tl_secs L) secs ++ wire (tl_nanos L) nsecs
   ++ zeros (15 - tl_secs L - tl_nanos L))%list.
