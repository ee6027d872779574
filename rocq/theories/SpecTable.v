(** * Specification vocabulary for tables of text *)

From Verif Require Import GoBase Timestamp Beacon Sarnet Transfer SpecClock.
From Coq Require Import Permutation.
Local Open Scope string_scope.
Local Open Scope N_scope.

(** ** Characters *)

(** The characters of Unicode, and how UTF-8 writes them *)
Definition character (c : N) : Prop := c < 0xD800 \/ 0xE000 <= c < 0x110000.
Definition utf8_bytes (c : N) : list byte :=
  map ascii_of_N
    (if c <? 0x80 then [c]
     else if c <? 0x800 then [0xC0 + c / 64; 0x80 + c mod 64]
     else if c <? 0x10000 then [0xE0 + c / 4096; 0x80 + c / 64 mod 64; 0x80 + c mod 64]
     else [0xF0 + c / 262144; 0x80 + c / 4096 mod 64; 0x80 + c / 64 mod 64; 0x80 + c mod 64]).
(** The number of columns a text takes: one per character, and one per byte that does
    not begin one *)
Inductive columns : list byte -> nat -> Prop :=
| col_none : columns [] 0
| col_char : forall c l n, character c -> columns l n -> columns (utf8_bytes c ++ l)%list (S n)
| col_stray : forall b l n, (forall c l', character c -> (b :: l)%list <> (utf8_bytes c ++ l')%list) -> columns l n -> columns (b :: l) (S n).

(** ** Tables *)

(** [cell] is [s] at the right end of [w] columns, or just [s] if it takes more *)
Definition in_cell (w : nat) (s cell : string) : Prop :=
  exists n, columns (bytes_of s) n /\ bytes_of cell = (repeat " "%char (w - n) ++ bytes_of s)%list.
(** A line: the cells with [sep] before, between and after them, and the end of line *)
Definition line_of (sep : string) (cells : list string) : string :=
  sep ++ String.concat "" (map (fun c => c ++ sep) cells) ++ String (ascii_of_N 10) "".
Definition row_of (sep : string) (ws : list nat) (fields : list string) (line : string) : Prop :=
  exists cells, length fields = length ws /\ length cells = length ws /\
    (forall i w f c, nth_error ws i = Some w -> nth_error fields i = Some f -> nth_error cells i = Some c -> in_cell w f c) /\
    line = line_of sep cells.
(** A line of dashes *)
Definition border_of (sep : string) (ws : list nat) : string := line_of sep (map (fun w => string_of (repeat "-"%char w)) ws).
(** The lines take the same number of columns *)
Definition aligned (lines : list string) : Prop := exists n, forall l, In l lines -> columns (bytes_of l) n.
Definition ordered (lines : list string) : Prop :=
  forall i j a b, (i < j)%nat -> nth_error lines i = Some a -> nth_error lines j = Some b -> String.leb a b = true.
(** The bytes of the longest text *)
Definition longest (l : list string) : nat := list_max (map String.length l).

(** A table: its border, its heading, and its rows *)
Definition table_text (border head : string) (rows : list string) : string :=
  border ++ head ++ border ++ String.concat "" rows ++ border.

(** ** The table of peers *)
Definition peer_widths_of (ps : list peer) : list nat :=
  [longest (map p_addr ps); 6; Nat.max 3 (longest (map p_eid ps)); 3; longest (map p_canrx ps); longest (map p_cantx ps); 32; 32]%nat.
(** What the row of a peer says: free space in gigabytes and times in UTC *)
Definition row_of_peer (ws : list nat) (p : peer) (line : string) : Prop :=
  exists cre upd, utc_text true (instant (p_created p)) cre /\ utc_text true (instant (p_updated p)) upd /\
    row_of "|" ws [p_addr p; itoa (p_freespace p / 2 ^ 20); p_eid p; p_maxdesc p; p_canrx p; p_cantx p; cre; upd] line.
(** [text] is a table with a row for each of [ps], in the order of the rows' texts *)
Definition peers_table (ps : list peer) (head : string) (rows : list string) (text : string) : Prop :=
  let ws := peer_widths_of ps in
  text = table_text (border_of "+" ws) head rows /\
  row_of "|" ws ["IP"; "GB"; "EID"; "Des"; "Rx"; "Tx"; "Created"; "Modified"] head /\
  ordered rows /\
  exists order, Permutation order ps /\ Forall2 (row_of_peer ws) order rows.

(** ** The table of transfers *)
Definition transfer_widths_of (ts : list transfer) : list nat :=
  [6; 8; longest (map (fun t => udpaddr_string (tr_peer t)) ts); longest (map tr_filename ts)]%nat.
(** The same with, in each row, [says t] of the transfer *)
Definition transfers_table (says : transfer -> list string) (ts : list transfer) (head : string) (rows : list string) (text : string) : Prop :=
  let ws := transfer_widths_of ts in
  text = table_text (border_of "|" ws) head rows /\
  row_of "|" ws ["Direct"; "Tran Typ"; "IP"; "Fname"] head /\
  ordered rows /\
  exists order, Permutation order ts /\ Forall2 (fun t => row_of "|" ws (says t)) order rows.
