(** How to read a published on-disk layout: bytes, numbers and signed numbers
    at an offset. Nothing here mentions the model. *)
From Verif Require Import Base.

(** The [n] bytes at offset [off]. *)
Definition bytes_at (b : list N) (off n : N) : list N :=
  firstn (N.to_nat n) (skipn (N.to_nat off) b).
(** The little-endian number of [n] bytes at offset [off]. *)
Definition num_at (b : list N) (off n : N) : N :=
  fold_right (fun x acc => x + 256 * acc) 0 (bytes_at b off n).
(** The signed 32-bit number at [off], in two's complement. *)
Definition i32_at (b : list N) (off : N) : Z :=
  let u := Z.of_N (num_at b off 4) in
  if (u <? 2 ^ 31)%Z then u else (u - 2 ^ 32)%Z.
(** What follows offset [off]. *)
Definition rest_at (b : list N) (off : N) : list N := skipn (N.to_nat off) b.

(** ** The header checksum: the exclusive or of the first 127 numbers of 4
    bytes, where 0 and 0xFFFFFFFF are replaced by 1 and 0xFFFFFFFE. *)
Definition xor_of_dwords (b : list N) : N :=
  fold_right N.lxor 0 (map (fun i => num_at b (4 * N.of_nat i) 4) (seq 0 127)).
Definition header_checksum (b : list N) : N :=
  let x := xor_of_dwords b in
  if x =? 0 then 1 else if x =? 2 ^ 32 - 1 then 2 ^ 32 - 2 else x.

(** ** Marvin32 *)
Definition rot (x k : N) : N := (x * 2 ^ k) mod 2 ^ 32 + x / 2 ^ (32 - k).
Definition sum32 (a b : N) : N := (a + b) mod 2 ^ 32.
Definition mix (lo hi : N) : N * N :=
  let hi := N.lxor hi lo in
  let lo := sum32 (rot lo 20) hi in
  let hi := N.lxor (rot hi 9) lo in
  let lo := sum32 (rot lo 27) hi in
  (lo, rot hi 19).
Definition absorb (s : N * N) (w : N) : N * N := mix (sum32 (fst s) w) (snd s).
(** The data, a byte 0x80, and zero bytes up to a multiple of 4. *)
Definition padded (data : list N) : list N :=
  data ++ [0x80] ++ repeat 0 (Nat.modulo (3 - Nat.modulo (length data) 4) 4).
Fixpoint words (b : list N) : list N :=
  match b with
  | x0 :: x1 :: x2 :: x3 :: r => x0 + 256 * x1 + 65536 * x2 + 16777216 * x3 :: words r
  | _ => []
  end.
Definition marvin32_spec (seed : N) (data : list N) : N :=
  let '(lo, hi) := fold_left absorb (words (padded data) ++ [0]) (seed mod 2 ^ 32, seed / 2 ^ 32) in
  hi * 2 ^ 32 + lo.
