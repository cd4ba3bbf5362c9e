(** Model of src/marvin32.rs. *)
From Verif Require Import Base.

(** [u32::rotate_left] (std). *)
Definition rotl32 (x k : N) : N :=
  N.lor (w32 (N.shiftl x k)) (N.shiftr x (32 - k)).

(** [u32::wrapping_add] (std). *)
Definition add32 (a b : N) : N := w32 (a + b).

(** The macro [BLOCK!], src/marvin32.rs:32-43. *)
Definition block (s : N * N) : N * N :=
  let (a, b) := s in
  let b := N.lxor b a in
  let a := rotl32 a 20 in
  let a := add32 a b in
  let b := rotl32 b 9 in
  let b := N.lxor b a in
  let a := rotl32 a 27 in
  let a := add32 a b in
  let b := rotl32 b 19 in
  (a, b).

(** The last word, src/marvin32.rs:59-69. *)
Definition marvin_tail (d : list N) : N :=
  match d with
  | [] => 0x80
  | [a] => N.lor 0x8000 a
  | [a; b] => N.lor 0x800000 (le [a; b])
  | a :: b :: c :: _ => N.lor (N.lor 0x80000000 (N.shiftl c 16)) (le [a; b])
  end.

(** The word loop, src/marvin32.rs:50-69, up to the addition of the last word.
    The callers pass [dlen = data.len()]. *)
Fixpoint marvin_loop (d : list N) (s : N * N) : N * N :=
  match d with
  | a :: b :: c :: e :: r =>
      let (s0, s1) := s in
      marvin_loop r (block (add32 s0 (le [a; b; c; e]), s1))
  | _ => let (s0, s1) := s in (add32 s0 (marvin_tail d), s1)
  end.

(** [marvin32], src/marvin32.rs:46-75. *)
Definition marvin32 (seed : N) (data : list N) : N :=
  let (s0, s1) := block (block (marvin_loop data (N.land seed 0xFFFFFFFF, N.shiftr seed 32))) in
  N.lor s0 (N.shiftl s1 32).
