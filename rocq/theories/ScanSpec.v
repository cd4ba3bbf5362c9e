(** The recovery scan: which cells it goes over, and what an item recovered
    from one of them is. *)
From Verif Require Import Base LayoutSpec Types Value Node CellSpec.

Definition size_at (b : list N) (c : N) : N := abs_size (i32_at b c).
Definition bin_header (b : list N) (o : N) : Prop :=
  o + 32 <= len b /\ bytes_at b o 4 = [104; 98; 105; 110].
Definition bin_size (b : list N) (o : N) : N := num_at b (o + 8) 4.

(** The cells of a bin that ends at [e], from [c] on: each begins where the one
    before ends. They stop at [c'], at the end of the bin or of the file or at a
    cell of size 0. *)
Inductive cells (b : list N) (e : N) : N -> list N -> N -> Prop :=
| cells_end c : e <= c \/ i32_at b c = 0%Z \/ len b <= c -> cells b e c [] c
| cells_more c l c' : c < e -> c + 4 <= len b -> i32_at b c <> 0%Z ->
    cells b e (c + size_at b c) l c' -> cells b e c (c :: l) c'.
(** The cells of all bins from the one at [o] on; the next bin begins where the
    cells of the one before stop. [n] is where no bin begins any more. *)
Inductive sweep (b : list N) (n : N) : N -> list N -> Prop :=
| sweep_end o : n <= o -> sweep b n o []
| sweep_bin o l c' l' : o < n -> bin_header b o -> cells b (o + bin_size b o) (o + 32) l c' ->
    sweep b n c' l' -> sweep b n o (l ++ l').

(** The same cell, whatever an iteration has noted beside it. *)
Definition same_cell (k k0 : key_node) : Prop :=
  kn_offset k = kn_offset k0 /\ kn_detail k = kn_detail k0 /\ kn_name k = kn_name k0 /\ kn_path k = kn_path k0
  /\ kn_values k = kn_values k0 /\ kn_hash k = kn_hash k0 /\ kn_seq k = kn_seq k0.
(** A key recovered from the bytes between its offset and [hi]: what reading a
    key there gives, marked with the state [cs]. *)
Definition key_found (fi : file_info) (st : state) (hi : N) (cs : cell_state) (k : key_node) : Prop :=
  let s := bytes_at (fi_buffer fi) (kn_offset k) (hi - kn_offset k) in
  kn_offset k < hi /\ hi <= len (fi_buffer fi) /\ nk_ok s
  /\ exists k0 st', read_from_slice fi st s (mkOpt (kn_offset k) [] None true None false) = Ok (Some k0, st')
     /\ same_cell k k0 /\ kn_state k = cs /\ kn_deleted k = [].
Definition value_found (fi : file_info) (st : state) (hi : N) (cs : cell_state) (v : key_value) : Prop :=
  let s := bytes_at (fi_buffer fi) (kv_offset v) (hi - kv_offset v) in
  kv_offset v < hi /\ hi <= len (fi_buffer fi) /\ vk_ok s
  /\ exists v0 r, kv_from_bytes s (kv_offset v) None false = Ok (v0, r)
     /\ exists older, v = kv_set_versions older (kv_set_state cs (read_value_bytes fi st v0)).

(** Free cells of the list: the size is positive. *)
Definition free_at (b : list N) (l : list N) (c : N) : Prop := In c l /\ (0 < i32_at b c)%Z.
(** Bytes [o, hi) of a cell of the list, not its beginning (unless some cell is
    too small to hold a size and a signature). *)
Definition inside (b : list N) (l : list N) (o hi : N) : Prop :=
  exists c, In c l /\ c <= o /\ hi <= c + size_at b c
  /\ (Forall (fun x => 6 <= size_at b x) l -> c < o).
Definition key_reported (fi : file_info) (st : state) (l : list N) (k : key_node) : Prop :=
  let b := fi_buffer fi in
  (free_at b l (kn_offset k) /\ key_found fi st (len b) DeletedPrimaryFile k)
  \/ exists hi, inside b l (kn_offset k) hi /\ key_found fi st hi DeletedPrimaryFileSlack k.
Definition value_reported (fi : file_info) (st : state) (l : list N) (v : key_value) : Prop :=
  let b := fi_buffer fi in
  (free_at b l (kv_offset v) /\ value_found fi st (len b) DeletedPrimaryFile v)
  \/ exists hi, inside b l (kv_offset v) hi /\ value_found fi st hi DeletedPrimaryFileSlack v.

(** ** Well-formed bins: they follow each other up to [n], and their cells, of at
    least eight bytes, fill them. *)
Inductive filled (b : list N) : N -> N -> list N -> Prop :=
| filled_end c : filled b c c []
| filled_more c e l : 8 <= size_at b c -> filled b (c + size_at b c) e l -> filled b c e (c :: l).
Inductive tiled (b : list N) (n : N) : N -> list (N * list N) -> Prop :=
| tiled_end : tiled b n n []
| tiled_bin o l r : bin_header b o -> 32 < bin_size b o -> filled b (o + 32) (o + bin_size b o) l ->
    tiled b n (o + bin_size b o) r -> tiled b n o ((o, l) :: r).
