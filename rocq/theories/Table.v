(** * Model of the tables that sarwin/sarwin.go shows *)

From Verif Require Import GoBase Flags Config Shipped Timestamp Data Beacon Fileio Sarnet Transfer Words Clock.
Local Open Scope string_scope.
Local Open Scope N_scope.

(** ** Package unicode/utf8 and verb %s of package fmt *)

(** utf8.go first, acceptRanges: how many bytes the first byte of a character calls for
    and in which range the second must be; None for a byte that starts no character
    (unicode/utf8, for sarwin/sarwin.go:1815-1864) *)
Definition rune_start (a : byte) : option (nat * N * N) :=
  let c := N_of_ascii a in
  if c <? 0xC2 then None
  else if c <=? 0xDF then Some (2%nat, 0x80, 0xBF)
  else if c =? 0xE0 then Some (3%nat, 0xA0, 0xBF)
  else if c =? 0xED then Some (3%nat, 0x80, 0x9F)
  else if c <=? 0xEF then Some (3%nat, 0x80, 0xBF)
  else if c =? 0xF0 then Some (4%nat, 0x90, 0xBF)
  else if c <=? 0xF3 then Some (4%nat, 0x80, 0xBF)
  else if c =? 0xF4 then Some (4%nat, 0x80, 0x8F)
  else None.
(** Auxiliary, no code of its own: a byte in a range (unicode/utf8, for sarwin/sarwin.go:1815-1834) *)
Definition in_bytes (lo hi : N) (a : byte) : bool := (lo <=? N_of_ascii a) && (N_of_ascii a <=? hi).
(** The bytes that follow the first of a text; what is left after its first character
    (unicode/utf8, for the widths "%*s" of sarwin/sarwin.go:1856-1864) *)
Definition rune_rest (a : byte) (r : list byte) : list byte :=
  if N_of_ascii a <? 0x80 then r
  else match rune_start a with
       | None => r
       | Some (2%nat, lo, hi) => match r with b :: r' => if in_bytes lo hi b then r' else r | _ => r end
       | Some (3%nat, lo, hi) => match r with b :: c :: r' => if in_bytes lo hi b && in_bytes 0x80 0xBF c then r' else r | _ => r end
       | Some (_, lo, hi) => match r with b :: c :: d :: r' => if in_bytes lo hi b && in_bytes 0x80 0xBF c && in_bytes 0x80 0xBF d then r' else r | _ => r end
       end.
(** utf8.RuneCountInString: a byte that starts no character counts as one
    (fmt pads by characters: sarwin/sarwin.go:1856-1864) *)
Fixpoint rune_count_loop (fuel : nat) (l : list byte) : nat :=
  match fuel, l with
  | S fuel, a :: r => S (rune_count_loop fuel (rune_rest a r))
  | _, _ => O
  end.
(** utf8.RuneCountInString (fmt pads by characters: sarwin/sarwin.go:1856-1864) *)
Definition rune_count (s : string) : nat := rune_count_loop (slen s) (bytes_of s).

(** So many spaces (fmt "%*s", sarwin/sarwin.go:1835-1837, 1852-1853) *)
Definition spaces (n : nat) : string := string_of (repeat " "%char n).
(** fmt.Sprintf("%<w>s", s): format.go padString.  Width 0 asks for no padding.
    Simplification: fmt ignores widths above a million. (sarwin/sarwin.go:1097-1124, 1835-1875) *)
Definition fmt_s (w : nat) (s : string) : string := spaces (w - rune_count s) ++ s.
(** strings.Repeat("-", n) (sarwin/sarwin.go:1812-1875, 1097-1124) *)
Definition dashes (n : nat) : string := string_of (repeat "-"%char n).

(** "\n" (sarwin/sarwin.go:1812-1875) *)
Definition newline : string := String (ascii_of_N 10) "".
(** fmt.Sprintf of a format that is made of [sep], a %<w>s for each width, [sep] after
    each, and a newline (sarwin/sarwin.go:1097-1124, 1835-1875) *)
Fixpoint row_cells (sep : string) (ws : list nat) (fields : list string) : string :=
  match ws, fields with
  | w :: ws, f :: fields => fmt_s w f ++ sep ++ row_cells sep ws fields
  | _, _ => newline
  end.
(** Fmt.Sprintf of a row with "|" between the fields (sarwin/sarwin.go:1835-1875) *)
Definition table_row (sep : string) (ws : list nat) (fields : list string) : string := sep ++ row_cells sep ws fields.

(** ** sarwin.go:1805-1886 cmdPeers *)

(** sarwin.go:1814 the widths worked out so far *)
Record pwidths := { pw_addr : nat; pw_eid : nat; pw_cre : nat; pw_mod : nat; pw_tx : nat; pw_rx : nat }.
(** sarwin/sarwin.go:1815-1834: a width grows to the length of a text *)
Definition longer (n : nat) (s : string) : nat := if (n <? slen s)%nat then slen s else n.
(** sarwin.go:1815-1834 *)
Fixpoint peer_widths (w : pwidths) (l : list (peer * string * string)) : pwidths :=
  match l with
  | [] => w
  | (p, cre, upd) :: l =>
      peer_widths {| pw_addr := longer (pw_addr w) (p_addr p);
                     pw_eid := longer (pw_eid w) (p_eid p);
                     pw_rx := longer (pw_rx w) (p_canrx p);
                     pw_tx := longer (pw_tx w) (p_cantx p);
                     pw_cre := longer (pw_cre w) cre;
                     pw_mod := if (pw_mod w <? slen cre)%nat then slen upd else pw_mod w |} l
  end.
(** sarwin.go:1835-1837, 1852-1853 the widths of the columns *)
Definition peer_columns (w : pwidths) : list nat :=
  [pw_addr w; 6%nat; if (pw_eid w <? 3)%nat then 3%nat else pw_eid w; 3%nat; pw_rx w; pw_tx w; pw_cre w; pw_mod w].
(** sarwin.go:1856-1864 the fields of a row *)
Definition peer_fields (e : peer * string * string) : list string :=
  let '(p, cre, upd) := e in
  [p_addr p; itoa (p_freespace p / 1024 / 1024); p_eid p; p_maxdesc p; p_canrx p; p_cantx p; cre; upd].
(** sarwin/sarwin.go:1835-1837: the titles of the columns *)
Definition peer_titles : list string := ["IP"; "GB"; "EID"; "Des"; "Rx"; "Tx"; "Created"; "Modified"].
(** sarwin/sarwin.go:1856-1864: the times of a peer *)
Fixpoint peer_times (l : list peer) : outcome (list (peer * string * string)) :=
  match l with
  | [] => Ret []
  | p :: l => do c <- ts_print (p_created p); do u <- ts_print (p_updated p); do r <- peer_times l; Ret ((p, c, u) :: r)
  end.
(** sarwin.go:1812-1875: the text.  Simplification: the times of all peers are printed
    first (printing is without effects, and ends the process or not whenever it is done). *)
Definition peers_text (peers : list peer) : outcome string :=
  do l <- peer_times peers;
  let ws := peer_columns (peer_widths {| pw_addr := 0; pw_eid := 0; pw_cre := 0; pw_mod := 0; pw_tx := 0; pw_rx := 0 |} l) in
  let border := table_row "+" ws (map dashes ws) in
  let rows := sort_strings (map (fun e => table_row "|" ws (peer_fields e)) l) in
  Ret (border ++ table_row "|" ws peer_titles ++ border ++ String.concat "" rows ++ border).

(** ** sarwin.go:1089-1130 Info *)

(** sarwin.go:1232-1238 FmtPrint: the first field is a constant, the others are the type,
    the peer and the file of the transfer *)
Definition transfer_fields (t : string * string * string) : list string :=
  let '(ttype, peer, fname) := t in ["Initiator"; ttype; peer; fname].
(** sarwin.go:1097-1124 the text *)
Definition transfers_text (l : list (string * string * string)) : string :=
  let ws := [6%nat; 8%nat; fold_left longer (map (fun t => snd (fst t)) l) 0%nat; fold_left longer (map snd l) 0%nat] in
  let border := table_row "|" ws (map dashes ws) in
  let rows := sort_strings (map (fun t => table_row "|" ws (transfer_fields t)) l) in
  border ++ table_row "|" ws ["Direct"; "Tran Typ"; "IP"; "Fname"] ++ border ++ String.concat "" rows ++ border.
(** What the table says of transfers (sarwin/sarwin.go:1089-1130 Info) *)
Definition info_text (ts : list transfer) : string :=
  transfers_text (map (fun t => (tr_ttype t, udpaddr_string (tr_peer t), tr_filename t)) ts).
(** sarwin.go:1240-1246 Print *)
Definition transfer_print (t : transfer) : string :=
  (if tr_direction t then "Initiator" else "Responder") ++ "|" ++ tr_ttype t ++ "|" ++ udpaddr_string (tr_peer t) ++ "|" ++ tr_filename t.
