(** Small hives and logs written byte by byte, for the examples beside the
    theorems and for the counterexamples. Nothing here models code. *)
From Verif Require Import Base LayoutSpec TxSpec.

(** A cell: its negative size, the content, zeros up to a multiple of 8. *)
Definition pad8 (b : list N) : list N := b ++ repeat 0 (N.to_nat ((8 - len b mod 8) mod 8)).
Definition cell (content : list N) : list N :=
  let n := len (pad8 (repeat 0 4 ++ content)) in
  enc 4 (2 ^ 32 - n) ++ skipn 4 (pad8 (repeat 0 4 ++ content)).
Definition free_cell (content : list N) : list N :=
  let n := len (pad8 (repeat 0 4 ++ content)) in
  enc 4 n ++ skipn 4 (pad8 (repeat 0 4 ++ content)).
Definition nk_content (flags parent nsub sublist nval vallist : N) (name : list N) : list N :=
  [110; 107] ++ enc 2 flags ++ enc 8 0 ++ enc 4 0 ++ enc 4 parent ++ enc 4 nsub ++ enc 4 0
  ++ enc 4 sublist ++ enc 4 (2 ^ 32 - 1) ++ enc 4 nval ++ enc 4 vallist ++ enc 4 0
  ++ enc 4 (2 ^ 32 - 1) ++ enc 4 0 ++ enc 4 0 ++ enc 4 0 ++ enc 4 0 ++ enc 4 0
  ++ enc 2 (len name) ++ enc 2 0 ++ name.
(** A value with its (at most 4 byte) data in the cell. *)
Definition vk_content (name : list N) (size data type : N) : list N :=
  [118; 107] ++ enc 2 (len name) ++ enc 4 (2 ^ 31 + size) ++ enc 4 data ++ enc 4 type
  ++ enc 2 1 ++ enc 2 0 ++ name.
Definition list_content (sig : list N) (offs : list N) : list N :=
  sig ++ enc 2 (len offs) ++ flat_map (fun o => enc 4 o ++ enc 4 0) offs.
Definition hbin_head (off size : N) : list N :=
  [104; 98; 105; 110] ++ enc 4 off ++ enc 4 size ++ repeat 0 20.
(** The header with a matching checksum. *)
Definition raw_header (primary secondary root size : N) : list N :=
  [114; 101; 103; 102] ++ enc 4 primary ++ enc 4 secondary ++ enc 8 0 ++ enc 4 1 ++ enc 4 5
  ++ enc 4 0 ++ enc 4 1 ++ enc 4 root ++ enc 4 size ++ enc 4 1 ++ repeat 0 460.
Definition header (primary secondary root size : N) : list N :=
  let h := raw_header primary secondary root size in
  h ++ enc 4 (header_checksum h) ++ repeat 0 3584.

(** A hive whose only key is the root "R" (flags 0x2C: root, no delete, ASCII),
    at offset 32 of the bin, with no values. *)
Definition root_cell : list N := cell (nk_content 0x2C 0 0 (2 ^ 32 - 1) 0 (2 ^ 32 - 1) [82]).
Definition small_hive (primary secondary : N) : list N :=
  header primary secondary 32 4096 ++ hbin_head 0 4096 ++ root_cell ++ repeat 0 16.
(** A log: the 512 header bytes and its entries. *)
Definition log_file (primary : N) (ws : list written) : list N :=
  firstn 512 (header primary primary 32 4096) ++ log_bytes ws.
(** An entry with one page of 4 bytes at offset 32 + 88 of the bins. *)
Definition demo_entry (seq : N) (b : N) : written := mkW 0 seq 4096 [(120, [b; b; b; b])] [].
Definition no_hash (b : list N) : N := 0.
Definition keep {A} (x : A) : A := x.
