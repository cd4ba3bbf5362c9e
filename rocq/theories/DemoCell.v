(** Small buffers for the examples and counterexamples about cells. Nothing here
    models code. *)
From Verif Require Import Base LayoutSpec Types CellSpec Demo.

Definition plain_state : state := mkState 0 false [] no_hash [] [] [] [].
Definition full_state : state := mkState 0 true [] no_hash [] [] [] [].
(** A key "Ké" stored compressed, with four bytes of slack, and a key "K€" stored
    in UTF-16. *)
Definition demo_nk (flags nsize : N) (slack : list N) : nk_detail :=
  {| kd_size := (- Z.of_N (80 + nsize + len slack))%Z; kd_flags := flags; kd_time := 0x1D0123456789ABC; kd_access := 2;
     kd_parent := (-5)%Z; kd_nsub := 3; kd_nvol := 1; kd_sublist := 0x1000; kd_vollist := (-1)%Z;
     kd_nvalues := 2; kd_vallist := 0x2000%Z; kd_security := 0x78; kd_class := (-1)%Z;
     kd_max_name := 10; kd_max_class := 11; kd_max_value_name := 12; kd_max_value_data := 13;
     kd_work := 14; kd_name_size := nsize; kd_class_size := 0; kd_slack := slack; kd_full := None |}.
Definition demo_vk (flags nsize size data type : N) (slack : list N) : vk_detail :=
  {| vd_size := (- Z.of_N (24 + nsize + len slack))%Z; vd_name_size := nsize; vd_data_size_raw := size;
     vd_data_offset := data; vd_type_raw := type; vd_flags_raw := flags; vd_padding := 7;
     vd_name := []; vd_slack := slack; vd_bytes := None; vd_full := None |}.
(** A value of type [t] with [size] bytes of data at [off]. *)
Definition demo_kv (size off t : N) : key_value :=
  mkKV 4096 (demo_vk 1 0 size off t []) t 1 [] Allocated [] [] None None None.
Definition kv_holding (t : N) (b : list N) : key_value :=
  mkKV 4096 (mkVD 0%Z 0 (len b) 0 t 1 0 [] [] (Some b) None) t 1 [] Allocated [] [] None None None.
(** Data of 16345 bytes in two segments. *)
Definition seg1 : list N := repeat 7 16344.
Definition big_file : list N :=
  enc_i32 (-16)%Z ++ [100; 98] ++ enc 2 2 ++ enc 4 16 ++ repeat 0 4   (* at 0 *)
  ++ repeat 0 4 ++ enc 4 32 ++ enc 4 16384 ++ repeat 0 4               (* at 16 *)
  ++ enc_i32 (-16352)%Z ++ seg1 ++ repeat 0 4                           (* at 32 *)
  ++ enc_i32 (-8)%Z ++ [9] ++ repeat 0 3.                                (* at 16384 *)
(** Two leaves under an index root, and an index root that lists itself. *)
Definition list_file : list N :=
  enc_i32 (-16)%Z ++ [114; 105] ++ enc 2 2 ++ enc 4 16 ++ enc 4 32                        (* at 0 *)
  ++ enc_i32 (-16)%Z ++ [108; 104] ++ enc 2 1 ++ enc 4 100 ++ enc 4 0                    (* at 16 *)
  ++ enc_i32 (-24)%Z ++ [108; 102] ++ enc 2 2 ++ enc 4 200 ++ enc 4 0 ++ enc 4 300 ++ enc 4 0. (* at 32 *)
Definition self_list : list N := enc_i32 (-16)%Z ++ [114; 105] ++ enc 2 1 ++ enc 4 0 ++ enc 4 0.
(** Security cells of 32 bytes; the next cells of those at 0, 32, 64, ... *)
Definition sk (next : N) : list N :=
  enc_i32 (-32)%Z ++ [115; 107] ++ enc 2 0 ++ enc 4 next ++ enc 4 0 ++ enc 4 1 ++ enc 4 4 ++ [1; 2; 3; next]
  ++ repeat 0 4.
Definition sk_file (nexts : list N) : list N := flat_map sk nexts.
(** A key with two values of which the first is garbage; the second is good. *)
Definition bad_value_file : list N :=
  cell (nk_content 0x20 0 0 (2 ^ 32 - 1) 2 88 [75])        (* at 0, 88 bytes *)
  ++ cell (enc 4 8 ++ enc 4 104)                            (* at 88, 16 bytes *)
  ++ cell (vk_content [86] 4 1 4).                           (* at 104 *)
(** A key with three sub-keys of which the second is garbage. *)
Definition bad_key_file : list N :=
  cell (nk_content 0x20 0 3 88 0 (2 ^ 32 - 1) [75])                     (* at 0, 88 bytes *)
  ++ cell (list_content [108; 102] [120; 8; 208])                        (* at 88, 32 bytes *)
  ++ cell (nk_content 0x20 0 0 (2 ^ 32 - 1) 0 (2 ^ 32 - 1) [65])        (* at 120 *)
  ++ cell (nk_content 0x20 0 0 (2 ^ 32 - 1) 0 (2 ^ 32 - 1) [66]).       (* at 208 *)
