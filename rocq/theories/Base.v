(** Basic vocabulary of the model: outcomes, byte slices, little-endian
    integers and the nom combinators the code uses. *)
From Coq Require Export List Arith NArith ZArith Bool Lia.
From Coq Require Export ZifyBool ZifyNat ZifyN.
Export ListNotations.
Global Open Scope N_scope.

(** Outcome of a modelled Rust function.
    [Err] is a Rust [Err(_)] value (the text of the error is not modelled),
    [Panic] is an abort of the program (index or slice out of range, [unwrap]
    on [None], capacity overflow, slicing inside a character), [OutOfFuel] is
    the model's own marker for a recursion that the code does not bound. *)
Inductive res (A : Type) : Type :=
| Ok (a : A)
| Err
| Panic
| OutOfFuel.
Arguments Ok {A} _.
Arguments Err {A}.
Arguments Panic {A}.
Arguments OutOfFuel {A}.

(** Sequencing of outcomes (the [?] operator; a panic or non-termination of
    the first part is one of the whole). *)
Notation "'let*' p ':=' e 'in' k" :=
  (match e with
   | Ok p => k
   | Err => Err
   | Panic => Panic
   | OutOfFuel => OutOfFuel
   end)
  (at level 200, p pattern, e at level 100, k at level 200, right associativity).

(** Sequencing of nom parsers ([None] is a nom error). *)
Notation "'let?' p ':=' e 'in' k" :=
  (match e with
   | Some p => k
   | None => None
   end)
  (at level 200, p pattern, e at level 100, k at level 200, right associativity).

(** [x.ok_or(...)?] *)
Definition ok_or {A} (o : option A) : res A :=
  match o with Some a => Ok a | None => Err end.

(** An indexing or slicing expression that panics when out of range. *)
Definition or_panic {A} (o : option A) : res A :=
  match o with Some a => Ok a | None => Panic end.

Definition is_ok {A} (r : res A) : bool :=
  match r with Ok _ => true | _ => false end.

(** [slice.len()] as a [usize]. *)
Definition len {A} (l : list A) : N := N.of_nat (length l).

(** A list of bytes. *)
Definition byte (b : N) : Prop := b < 256.
Definition bytes_ok (l : list N) : Prop := Forall byte l.

(** [slice.get(off..)]; the guard keeps huge offsets out of [nat]. *)
Definition get_from {A} (l : list A) (off : N) : option (list A) :=
  if off <=? len l then Some (skipn (N.to_nat off) l) else None.

(** [slice.get(a..b)]. *)
Definition get_range {A} (l : list A) (a b : N) : option (list A) :=
  if (a <=? b) && (b <=? len l)
  then Some (firstn (N.to_nat (b - a)) (skipn (N.to_nat a) l))
  else None.

(** [slice.get(i)]. *)
Definition get_at {A} (l : list A) (i : N) : option A :=
  if i <? len l then nth_error l (N.to_nat i) else None.

(** The little-endian number of a byte string ([from_le_bytes]). *)
Definition le (bs : list N) : N := fold_right (fun b acc => b + 256 * acc) 0 bs.

(** [to_le_bytes] of a [k]-byte number. *)
Fixpoint enc (k : nat) (n : N) : list N :=
  match k with
  | O => []
  | S k' => (n mod 256) :: enc k' (n / 256)
  end.

(** Reinterpretation of a 32-bit pattern as [i32], and back. *)
Definition to_i32 (n : N) : Z :=
  if n <? 2147483648 then Z.of_N n else (Z.of_N n - 4294967296)%Z.
Definition of_i32 (z : Z) : N := Z.to_N (z mod 4294967296)%Z.

(** [i32 as usize]: sign extension to 64 bits. *)
Definition i32_as_usize (z : Z) : N := Z.to_N (z mod 18446744073709551616)%Z.

(** [i32::unsigned_abs]. *)
Definition unsigned_abs (z : Z) : N := Z.to_N (Z.abs z).

(** Wrapping to 32 and 64 bits (release-build arithmetic). *)
Definition w32 (n : N) : N := n mod 4294967296.
Definition w64 (n : N) : N := n mod 18446744073709551616.

(** nom's [take]. *)
Definition take (k : N) (i : list N) : option (list N * list N) :=
  if k <=? len i then Some (firstn (N.to_nat k) i, skipn (N.to_nat k) i) else None.

(** nom's [le_u16], [le_u32], [le_u64], [le_i32]. *)
Definition le_u16 (i : list N) : option (N * list N) :=
  let? (b, i) := take 2 i in Some (le b, i).
Definition le_u32 (i : list N) : option (N * list N) :=
  let? (b, i) := take 4 i in Some (le b, i).
Definition le_u64 (i : list N) : option (N * list N) :=
  let? (b, i) := take 8 i in Some (le b, i).
Definition le_i32 (i : list N) : option (Z * list N) :=
  let? (b, i) := take 4 i in Some (to_i32 (le b), i).

(** Equality of byte strings. *)
Fixpoint beq (a b : list N) : bool :=
  match a, b with
  | [], [] => true
  | x :: a', y :: b' => (x =? y) && beq a' b'
  | _, _ => false
  end.

(** nom's [tag]. *)
Definition tag (t : list N) (i : list N) : option (list N * list N) :=
  let? (b, i') := take (len t) i in
  if beq b t then Some (b, i') else None.

(** nom's [count]. Every parser it is used with consumes at least one byte
    per item, so when fewer than [n] bytes are left the parse fails; testing
    this first keeps huge counts out of [nat]. *)
Fixpoint count_nat {A} (p : list N -> option (A * list N)) (n : nat) (i : list N)
  : option (list A * list N) :=
  match n with
  | O => Some ([], i)
  | S n' =>
      let? (x, i) := p i in
      let? (xs, i) := count_nat p n' i in
      Some (x :: xs, i)
  end.
Definition count {A} (p : list N -> option (A * list N)) (n : N) (i : list N)
  : option (list A * list N) :=
  if n <=? len i then count_nat p (N.to_nat n) i else None.

(** A nom result turned into the crate's [Result] by [?]. *)
Definition nom {A} (o : option A) : res A := ok_or o.
