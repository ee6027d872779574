(** * Specification vocabulary: which part of a header a decoder looks at *)

From Verif Require Import GoBase SpecFlags SpecWire Timestamp Holes Data Status Request Beacon Fileio Dirent Metadata.
Local Open Scope string_scope.
Local Open Scope N_scope.

(** Two datagrams that differ at most in their first [k] bytes *)
Definition same_behind (k : nat) (f g : list byte) : Prop := List.length f = List.length g /\ skipn k f = skipn k g.
(** The header of a datagram *)
Definition header_of (f : list byte) : N := number_at f 0 4.

(** Two decodings that end in the same way: both crash, or both leave frames that are alike and give the same error, or none *)
Definition ends_alike {A} (alike : A -> A -> Prop) (r r' : outcome (A * error)) : Prop :=
  match r, r' with
  | Ret (a, e), Ret (b, e') => alike a b /\ e = e'
  | Panic, Panic => True
  | Fatal, Fatal => True
  | _, _ => False
  end.
(** Two encodings that end in the same way: both crash, or both give the same error, or bytes that differ at most in the
    first [k], which hold the header [h] and [h'] *)
Definition encodes_alike (k : nat) (h h' : N) (r r' : outcome encoded) : Prop :=
  match r, r' with
  | Ret (Frame a), Ret (Frame b) => exists rest, a = (wire k h ++ rest)%list /\ b = (wire k h' ++ rest)%list
  | Ret (EncErr e), Ret (EncErr e') => e = e'
  | Panic, Panic => True
  | Fatal, Fatal => True
  | _, _ => False
  end.

(** Frames that are the same but for their headers *)
Definition data_alike (a b : data) : Prop :=
  d_session a = d_session b /\ d_tstamp a = d_tstamp b /\ d_offset a = d_offset b /\ d_payload a = d_payload b.
Definition status_alike (a b : status) : Prop :=
  s_session a = s_session b /\ s_tstamp a = s_tstamp b /\ s_progress a = s_progress b /\ s_inrespto a = s_inrespto b
  /\ s_holes a = s_holes b.
Definition request_alike (a b : request) : Prop :=
  r_session a = r_session b /\ r_fname a = r_fname b /\ r_auth a = r_auth b.
Definition beacon_alike (a b : beacon) : Prop := b_freespace a = b_freespace b /\ b_eid a = b_eid b.
Definition entry_alike (a b : dirent) : Prop :=
  de_size a = de_size b /\ de_mtime a = de_mtime b /\ de_ctime a = de_ctime b /\ de_path a = de_path b.
Definition metadata_alike (a b : metadata) : Prop :=
  m_session a = m_session b /\ m_checksum a = m_checksum b /\ m_dir a = m_dir b.
