(** The published layout of key and value cells, of value data and of sub-key
    lists. Only the records that hold the fields are taken from the model. *)
From Verif Require Import Base UtilSpec LayoutSpec Types.

Definition u16 (n : N) : Prop := n < 2 ^ 16.
Definition is_u32 (n : N) : Prop := n < 2 ^ 32.
Definition u64 (n : N) : Prop := n < 2 ^ 64.
Definition i32 (z : Z) : Prop := (- 2 ^ 31 <= z < 2 ^ 31)%Z.
(** Two's complement. *)
Definition enc_i32 (z : Z) : list N := enc 4 (Z.to_N (z mod 2 ^ 32)).
Definition abs_size (z : Z) : N := Z.to_N (Z.abs z).

(** A name of characters [text] as it is stored: one byte per character when it
    is compressed, else UTF-16. *)
Definition stored_name (compressed : bool) (name text : list N) : Prop :=
  if compressed then bytes_ok name /\ text = name
  else Forall scalar text /\ ~ In 0 text /\ name = utf16le text.

(** ** Key cells *)

(** The bytes of a key cell with the fields [d] (its slack included) and the
    stored name [name]. *)
Definition nk_bytes (d : nk_detail) (name : list N) : list N :=
  enc_i32 (kd_size d) ++ [110; 107] ++ enc 2 (kd_flags d) ++ enc 8 (kd_time d)
  ++ enc 4 (kd_access d) ++ enc_i32 (kd_parent d) ++ enc 4 (kd_nsub d) ++ enc 4 (kd_nvol d)
  ++ enc 4 (kd_sublist d) ++ enc_i32 (kd_vollist d) ++ enc 4 (kd_nvalues d)
  ++ enc_i32 (kd_vallist d) ++ enc 4 (kd_security d) ++ enc_i32 (kd_class d)
  ++ enc 4 (kd_max_name d) ++ enc 4 (kd_max_class d) ++ enc 4 (kd_max_value_name d)
  ++ enc 4 (kd_max_value_data d) ++ enc 4 (kd_work d) ++ enc 2 (kd_name_size d)
  ++ enc 2 (kd_class_size d) ++ name ++ kd_slack d.
Definition nk_fits (d : nk_detail) (name : list N) : Prop :=
  i32 (kd_size d) /\ u16 (kd_flags d) /\ u64 (kd_time d) /\ is_u32 (kd_access d)
  /\ i32 (kd_parent d) /\ is_u32 (kd_nsub d) /\ is_u32 (kd_nvol d) /\ is_u32 (kd_sublist d)
  /\ i32 (kd_vollist d) /\ is_u32 (kd_nvalues d) /\ i32 (kd_vallist d) /\ is_u32 (kd_security d)
  /\ i32 (kd_class d) /\ is_u32 (kd_max_name d) /\ is_u32 (kd_max_class d)
  /\ is_u32 (kd_max_value_name d) /\ is_u32 (kd_max_value_data d) /\ is_u32 (kd_work d)
  /\ u16 (kd_name_size d) /\ u16 (kd_class_size d)
  /\ kd_name_size d = len name
  /\ abs_size (kd_size d) = 80 + len name + len (kd_slack d).
(** Where each field is: (offset in the cell, length), in the order of the
    record; the last is the slack. *)
Definition nk_table (d : nk_detail) : list (N * N) :=
  [(0, 4); (4, 2); (6, 2); (8, 8); (16, 4); (20, 4); (24, 4); (28, 4); (32, 4); (36, 4); (40, 4);
   (44, 4); (48, 4); (52, 4); (56, 4); (60, 4); (64, 4); (68, 4); (72, 4); (76, 2); (78, 2);
   (80 + kd_name_size d, len (kd_slack d))].

(** ** Value cells *)
Definition vk_bytes (d : vk_detail) (name : list N) : list N :=
  enc_i32 (vd_size d) ++ [118; 107] ++ enc 2 (vd_name_size d) ++ enc 4 (vd_data_size_raw d)
  ++ enc 4 (vd_data_offset d) ++ enc 4 (vd_type_raw d) ++ enc 2 (vd_flags_raw d)
  ++ enc 2 (vd_padding d) ++ name ++ vd_slack d.
Definition vk_fits (d : vk_detail) (name : list N) : Prop :=
  i32 (vd_size d) /\ u16 (vd_name_size d) /\ is_u32 (vd_data_size_raw d)
  /\ is_u32 (vd_data_offset d) /\ is_u32 (vd_type_raw d) /\ u16 (vd_flags_raw d)
  /\ u16 (vd_padding d)
  /\ vd_name_size d = len name
  /\ abs_size (vd_size d) = 24 + len name + len (vd_slack d).
Definition vk_table (d : vk_detail) : list (N * N) :=
  [(0, 4); (4, 2); (6, 2); (8, 4); (12, 4); (16, 4); (20, 2); (22, 2); (24, vd_name_size d);
   (24 + vd_name_size d, len (vd_slack d)); (0, 0)].

(** ** The same layouts, by position in a buffer that starts with the cell *)
Definition nk_ok (b : list N) : Prop :=
  4 <= len b /\ 72 <= abs_size (i32_at b 0) <= len b /\ bytes_at b 4 2 = [110; 107]
  /\ 80 + num_at b 76 2 <= len b.
Definition nk_end (b : list N) : N := N.max (abs_size (i32_at b 0)) (80 + num_at b 76 2).
Definition nk_detail_at (full : bool) (b : list N) : nk_detail :=
  let slack := bytes_at b (80 + num_at b 76 2) (abs_size (i32_at b 0) - (80 + num_at b 76 2)) in
  {| kd_size := i32_at b 0; kd_flags := num_at b 6 2; kd_time := num_at b 8 8;
     kd_access := num_at b 16 4; kd_parent := i32_at b 20; kd_nsub := num_at b 24 4;
     kd_nvol := num_at b 28 4; kd_sublist := num_at b 32 4; kd_vollist := i32_at b 36;
     kd_nvalues := num_at b 40 4; kd_vallist := i32_at b 44; kd_security := num_at b 48 4;
     kd_class := i32_at b 52; kd_max_name := num_at b 56 4; kd_max_class := num_at b 60 4;
     kd_max_value_name := num_at b 64 4; kd_max_value_data := num_at b 68 4;
     kd_work := num_at b 72 4; kd_name_size := num_at b 76 2; kd_class_size := num_at b 78 2;
     kd_slack := slack;
     kd_full :=
       if full
       then Some [(0, 4); (4, 2); (6, 2); (8, 8); (16, 4); (20, 4); (24, 4); (28, 4); (32, 4);
                  (36, 4); (40, 4); (44, 4); (48, 4); (52, 4); (56, 4); (60, 4); (64, 4); (68, 4);
                  (72, 4); (76, 2); (78, 2); (80 + num_at b 76 2, len slack)]
       else None |}.

Definition vk_ok (b : list N) : Prop :=
  4 <= len b /\ 24 <= abs_size (i32_at b 0) <= len b /\ bytes_at b 4 2 = [118; 107]
  /\ 24 + num_at b 6 2 <= len b.
Definition vk_end (b : list N) : N := N.max (abs_size (i32_at b 0)) (24 + num_at b 6 2).
Definition vk_detail_at (full : bool) (b name : list N) : vk_detail :=
  let slack := bytes_at b (24 + num_at b 6 2) (abs_size (i32_at b 0) - (24 + num_at b 6 2)) in
  {| vd_size := i32_at b 0; vd_name_size := num_at b 6 2; vd_data_size_raw := num_at b 8 4;
     vd_data_offset := num_at b 12 4; vd_type_raw := num_at b 16 4; vd_flags_raw := num_at b 20 2;
     vd_padding := num_at b 22 2; vd_name := name; vd_slack := slack; vd_bytes := None;
     vd_full :=
       if full
       then Some [(0, 4); (4, 2); (6, 2); (8, 4); (12, 4); (16, 4); (20, 2); (22, 2);
                  (24, num_at b 6 2); (24 + num_at b 6 2, len slack); (0, 0)]
       else None |}.

(** ** Where things are stored *)

(** The bytes [bs] are at position [pos] of [buf]. *)
Definition stored (buf : list N) (pos : N) (bs : list N) : Prop :=
  exists pre post, buf = pre ++ bs ++ post /\ len pre = pos.

(** ** Value data *)

(** Number of bytes of the fixed-width types. *)
Definition fixed_width (t : N) : option N :=
  if t =? 0x101 then Some 1
  else if (t =? 0x102) || (t =? 0x103) then Some 2
  else if (t =? 4) || (t =? 5) || (t =? 0x104) || (t =? 0x105) then Some 4
  else if (t =? 0xB) || (t =? 0x10) || (t =? 0x106) || (t =? 0x107) then Some 8
  else None.
(** The data of a value of type [t]: of a fixed-width type only that many bytes
    count. *)
Definition value_data (t : N) (data : list N) : list N :=
  match fixed_width t with Some n => firstn (N.to_nat n) data | None => data end.

(** Data longer than 16344 bytes is cut into segments of 16344 bytes; the last
    one holds what is left. *)
Definition segmentation (segs : list (list N)) : Prop :=
  exists full last, segs = full ++ [last] /\ Forall (fun s => len s = 16344) full
  /\ 0 < len last <= 16344.
(** A cell that holds a segment: its size (at least the data; cells are padded),
    then the data. *)
Definition segment_cell (fi : file_info) (off : N) (seg : list N) : Prop :=
  exists size, i32 size /\ len seg <= abs_size size
  /\ stored (fi_buffer fi) (fi_hbin fi + off) (enc_i32 size ++ seg).
(** A big-data cell with its list of segment offsets. *)
Definition big_data_cell (fi : file_info) (off : N) (offs : list N) : Prop :=
  exists size list_off list_size,
    i32 size /\ is_u32 list_off /\ len list_size = 4 /\ u16 (len offs) /\ Forall is_u32 offs
    /\ stored (fi_buffer fi) (fi_hbin fi + off)
         (enc_i32 size ++ [100; 98] ++ enc 2 (len offs) ++ enc 4 list_off)
    /\ stored (fi_buffer fi) (fi_hbin fi + list_off) (list_size ++ flat_map (enc 4) offs).

(** ** Sub-key lists: the keys listed at [off], by their positions in the file.
    lf and lh items carry four more bytes each (name hint or hash). *)
Inductive key_list (fi : file_info) : N -> list N -> Prop :=
| lf_list off size items : i32 size -> u16 (len items) ->
    Forall (fun x => fst x + fi_hbin fi < 2 ^ 32 /\ len (snd x) = 4) items ->
    stored (fi_buffer fi) (fi_hbin fi + off)
      (enc_i32 size ++ [108; 102] ++ enc 2 (len items)
       ++ flat_map (fun x => enc 4 (fst x) ++ snd x) items) ->
    key_list fi off (map (fun x => fi_hbin fi + fst x) items)
| lh_list off size items : i32 size -> u16 (len items) ->
    Forall (fun x => fst x + fi_hbin fi < 2 ^ 32 /\ len (snd x) = 4) items ->
    stored (fi_buffer fi) (fi_hbin fi + off)
      (enc_i32 size ++ [108; 104] ++ enc 2 (len items)
       ++ flat_map (fun x => enc 4 (fst x) ++ snd x) items) ->
    key_list fi off (map (fun x => fi_hbin fi + fst x) items)
| li_list off size items : i32 size -> u16 (len items) ->
    Forall (fun x => x + fi_hbin fi < 2 ^ 32) items ->
    stored (fi_buffer fi) (fi_hbin fi + off)
      (enc_i32 size ++ [108; 105] ++ enc 2 (len items) ++ flat_map (enc 4) items) ->
    key_list fi off (map (fun x => fi_hbin fi + x) items)
| ri_list off size subs keys : i32 size -> u16 (len subs) -> Forall is_u32 subs ->
    stored (fi_buffer fi) (fi_hbin fi + off)
      (enc_i32 size ++ [114; 105] ++ enc 2 (len subs) ++ flat_map (enc 4) subs) ->
    key_lists fi subs keys ->
    key_list fi off keys
with key_lists (fi : file_info) : list N -> list N -> Prop :=
| no_list : key_lists fi [] []
| more_lists o os ks kss : key_list fi o ks -> key_lists fi os kss ->
    key_lists fi (o :: os) (ks ++ kss).

(** At [off] there is an index root (an ri cell) one of whose entries is [sub]. *)
Definition index_entry (fi : file_info) (off sub : N) : Prop :=
  let b := fi_buffer fi in
  let p := fi_hbin fi + off in
  p + 8 + 4 * num_at b (p + 6) 2 <= len b /\ bytes_at b (p + 4) 2 = [114; 105]
  /\ exists i, i < num_at b (p + 6) 2 /\ num_at b (p + 8 + 4 * i) 4 = sub.
(** One or more steps. *)
Inductive index_path (fi : file_info) : N -> N -> Prop :=
| path_one a b : index_entry fi a b -> index_path fi a b
| path_more a b c : index_entry fi a b -> index_path fi b c -> index_path fi a c.

(** ** Security cells: at [off] a cell whose next cell is at [next] and whose
    descriptor is [sd]. *)
Definition security_cell (buf : list N) (hbin off next : N) (sd : list N) : Prop :=
  exists size reserved prev refs,
    i32 size /\ u16 reserved /\ is_u32 next /\ is_u32 prev /\ is_u32 refs /\ is_u32 (len sd)
    /\ stored buf (hbin + off)
         (enc_i32 size ++ [115; 107] ++ enc 2 reserved ++ enc 4 next ++ enc 4 prev ++ enc 4 refs
          ++ enc 4 (len sd) ++ sd).

(** At [off] there is a security cell whose next cell is [next]. *)
Definition security_next (buf : list N) (hbin off next : N) : Prop :=
  hbin + off + 24 <= len buf /\ bytes_at buf (hbin + off + 4) 2 = [115; 107]
  /\ num_at buf (hbin + off + 8) 4 = next.
(** One or more steps to cells other than [start]. *)
Inductive security_path (buf : list N) (hbin start : N) : N -> N -> Prop :=
| sec_one a b : security_next buf hbin a b -> b <> start -> security_path buf hbin start a b
| sec_more a b c : security_next buf hbin a b -> b <> start -> security_path buf hbin start b c ->
    security_path buf hbin start a c.
(** The cells of a circular list, from the one at [off] to the one before
    [start], with their descriptors. *)
Inductive security_ring (buf : list N) (hbin start : N) : N -> list (list N) -> Prop :=
| ring_end off sd : security_cell buf hbin off start sd -> security_ring buf hbin start off [sd]
| ring_more off next sd sds : security_cell buf hbin off next sd -> next <> start ->
    security_ring buf hbin start next sds -> security_ring buf hbin start off (sd :: sds).

(** The type of a value as it is shown: the low twelve bits, if they are a number the format defines (0 to
    11, 16 and 257 to 287), or else 999, "unknown". *)
Definition shown_type (raw : N) : N :=
  let t := raw mod 4096 in
  if (t <=? 11) || (t =? 16) || ((257 <=? t) && (t <=? 287)) then t else 999.
