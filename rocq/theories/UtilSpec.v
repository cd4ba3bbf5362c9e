(** Small specifications used by the util properties. Nothing here mentions the
    model; everything is a transcription of a published format. *)
From Verif Require Import Base.

(** ** Text *)

(** Unicode scalar values. *)
Definition scalar (c : N) : Prop := c < 0xD800 \/ (0xE000 <= c /\ c < 0x110000).

(** Strict UTF-8 reader: the characters a byte string spells. Every character has
    one encoding; a longer one, a surrogate and a number above 0x10FFFF are
    refused. *)
Definition trail (b : N) : bool := (0x80 <=? b) && (b <? 0xC0).
Fixpoint read_utf8 (s : list N) : option (list N) :=
  match s with
  | [] => Some []
  | a :: r =>
      if a <? 0x80 then option_map (cons a) (read_utf8 r)
      else if a <? 0xC2 then None
      else if a <? 0xE0 then
        match r with
        | b :: r =>
            if trail b then option_map (cons ((a - 0xC0) * 64 + (b - 0x80))) (read_utf8 r) else None
        | _ => None
        end
      else if a <? 0xF0 then
        match r with
        | b :: c :: r =>
            let x := (a - 0xE0) * 4096 + (b - 0x80) * 64 + (c - 0x80) in
            if trail b && trail c && (0x800 <=? x) && ((x <? 0xD800) || (0xE000 <=? x))
            then option_map (cons x) (read_utf8 r) else None
        | _ => None
        end
      else
        match r with
        | b :: c :: d :: r =>
            let x := (a - 0xF0) * 262144 + (b - 0x80) * 4096 + (c - 0x80) * 64 + (d - 0x80) in
            if trail b && trail c && trail d && (0x10000 <=? x) && (x <? 0x110000)
            then option_map (cons x) (read_utf8 r) else None
        | _ => None
        end
  end.

(** UTF-16 units of a character, and little-endian bytes of units. *)
Definition utf16_char (c : N) : list N :=
  if c <? 0x10000 then [c]
  else [0xD800 + (c - 0x10000) / 1024; 0xDC00 + (c - 0x10000) mod 1024].
Definition utf16 (text : list N) : list N := flat_map utf16_char text.
Definition unit_bytes (us : list N) : list N := flat_map (fun u => [u mod 256; u / 256]) us.
Definition utf16le (text : list N) : list N := unit_bytes (utf16 text).

(** A REG_MULTI_SZ value: each string NUL-terminated, then an empty string. *)
Definition multi_sz (l : list (list N)) : list N :=
  flat_map (fun s => utf16le s ++ [0; 0]) l ++ [0; 0].

(** Unicode White_Space. *)
Definition white_space (c : N) : Prop :=
  (9 <= c <= 13) \/ In c [32; 0x85; 0xA0; 0x1680; 0x2028; 0x2029; 0x202F; 0x205F; 0x3000]
  \/ (0x2000 <= c <= 0x200A).

(** ** FILETIME: nanoseconds since 1970 of 1601-01-01 + n * 100ns. There are
    134774 days between the two epochs. *)
Definition filetime_instant (n : N) : Z := (Z.of_N n * 100 - 134774 * 86400 * 1000000000)%Z.
Definition fits_i64 (z : Z) : Prop := (- 2 ^ 63 <= z < 2 ^ 63)%Z.

(** ** Hex dump reader: "XX XX ... XX", upper case, single blanks. *)
Definition hex_value (c : N) : option N :=
  if (48 <=? c) && (c <=? 57) then Some (c - 48)
  else if (65 <=? c) && (c <=? 70) then Some (c - 55)
  else None.
Definition nonempty {A} (l : list A) : bool := match l with [] => false | _ => true end.
Fixpoint read_hex (s : list N) : option (list N) :=
  match s with
  | [] => Some []
  | h :: l :: r =>
      match hex_value h, hex_value l with
      | Some a, Some b =>
          match r with
          | [] => Some [16 * a + b]
          | c :: r' =>
              if (c =? 32) && nonempty r'
              then option_map (cons (16 * a + b)) (read_hex r')
              else None
          end
      | _, _ => None
      end
  | _ => None
  end.

(** ** Tab-separated rows with quoted fields: a standard reader.
    A field starting with a quote runs to the next quote that is not doubled;
    any other field runs to the next tab or newline. A row ends at a newline. *)
Inductive rstate := Start | Plain | Quoted | QuoteInQuoted.
Fixpoint read_row_from (st : rstate) (cur : list N) (s : list N) : option (list (list N) * list N) :=
  match s with
  | [] => None
  | c :: r =>
      let next := fun fields_rest : option (list (list N) * list N) =>
                    match fields_rest with
                    | Some (fs, rest) => Some (rev cur :: fs, rest)
                    | None => None
                    end in
      match st with
      | Start | Plain =>
          if c =? 9 then next (read_row_from Start [] r)
          else if c =? 10 then Some ([rev cur], r)
          else if c =? 34 then
            match st with Start => read_row_from Quoted cur r | _ => None end
          else read_row_from Plain (c :: cur) r
      | Quoted => if c =? 34 then read_row_from QuoteInQuoted cur r
                  else read_row_from Quoted (c :: cur) r
      | QuoteInQuoted =>
          if c =? 34 then read_row_from Quoted (34 :: cur) r
          else if c =? 9 then next (read_row_from Start [] r)
          else if c =? 10 then Some ([rev cur], r)
          else None
      end
  end.
Definition read_row (s : list N) : option (list (list N) * list N) := read_row_from Start [] s.

(** A row as written: fields separated by tabs, newline at the end. *)
Fixpoint row_text (fields : list (list N)) : list N :=
  match fields with
  | [] => [10]
  | [f] => f ++ [10]
  | f :: fs => f ++ [9] ++ row_text fs
  end.

(** ** LZNT1 ([MS-XCA] 2.5) *)

(** A token is a literal byte or a reference [Ref disp n]: repeat [n] bytes
    starting [disp] bytes back. *)
Inductive token := Lit (b : N) | Ref (disp n : N).

(** A chunk is stored raw, or compressed: groups of eight tokens under a flag
    byte; the last group may have fewer. *)
Inductive chunk := Raw (bs : list N) | Comp (full : list (list token)) (last : list token).

(** Meaning: what a token appends to the output so far. *)
Fixpoint repeat_back (n : nat) (disp : nat) (out : list N) : list N :=
  match n with
  | O => out
  | S n' => repeat_back n' disp (out ++ [nth (length out - disp) out 0])
  end.
Definition token_out (out : list N) (t : token) : list N :=
  match t with
  | Lit b => out ++ [b]
  | Ref d n => repeat_back (N.to_nat n) (N.to_nat d) out
  end.
Definition chunk_out (out : list N) (c : chunk) : list N :=
  match c with
  | Raw bs => out ++ bs
  | Comp full last => fold_left token_out (concat full ++ last) out
  end.
Definition stream_out (cs : list chunk) : list N := fold_left chunk_out cs [].

(** Number of bits of a token's displacement part at position [p] of the chunk:
    the least number, at least 4, that can express every displacement up to [p]. *)
Definition disp_bits (p : N) : N := N.max 4 (N.log2_up p).

Definition token_size (t : token) : N := match t with Lit _ => 1 | Ref _ n => n end.

(** Encoding of one token at position [p]. *)
Definition token_bytes (p : N) (t : token) : list N :=
  match t with
  | Lit b => [b]
  | Ref d n => enc 2 ((d - 1) * 2 ^ (16 - disp_bits p) + (n - 3))
  end.
Fixpoint tokens_bytes (p : N) (ts : list token) : list N :=
  match ts with
  | [] => []
  | t :: r => token_bytes p t ++ tokens_bytes (p + token_size t) r
  end.
Definition tokens_size (ts : list token) : N := fold_right (fun t a => token_size t + a) 0 ts.

(** Flag byte: bit [i] is set when token [i] of the group is a reference. *)
Fixpoint flags (ts : list token) : N :=
  match ts with
  | [] => 0
  | t :: r => (match t with Lit _ => 0 | Ref _ _ => 1 end) + 2 * flags r
  end.
Definition group_bytes (p : N) (g : list token) : list N := flags g :: tokens_bytes p g.
Fixpoint groups_bytes (p : N) (gs : list (list token)) : list N :=
  match gs with
  | [] => []
  | g :: r => group_bytes p g ++ groups_bytes (p + tokens_size g) r
  end.
Definition comp_body (full : list (list token)) (last : list token) : list N :=
  groups_bytes 0 (full ++ [last]).

(** Chunk header: size - 1 in the low 12 bits, signature 3, flag bit 15. *)
Definition chunk_bytes (c : chunk) : list N :=
  match c with
  | Raw bs => enc 2 (0x3000 + (len bs - 1)) ++ bs
  | Comp full last =>
      let body := comp_body full last in enc 2 (0xB000 + (len body - 1)) ++ body
  end.
Definition stream_bytes (cs : list chunk) : list N := flat_map chunk_bytes cs.

(** Well-formedness: displacements stay inside the chunk, lengths are
    expressible, a chunk holds at most 4096 bytes of output. *)
Definition token_ok (p : N) (t : token) : Prop :=
  match t with
  | Lit b => b < 256 /\ p < 4096
  | Ref d n => 1 <= d /\ d <= p /\ 3 <= n /\ n - 3 < 2 ^ (16 - disp_bits p) /\ p + n <= 4096
  end.
Fixpoint tokens_ok (p : N) (ts : list token) : Prop :=
  match ts with
  | [] => True
  | t :: r => token_ok p t /\ tokens_ok (p + token_size t) r
  end.
Definition chunk_ok (c : chunk) : Prop :=
  match c with
  | Raw bs => 1 <= len bs /\ len bs <= 4096 /\ bytes_ok bs
  | Comp full last =>
      Forall (fun g => len g = 8) full /\ len last <= 8
      /\ tokens_ok 0 (concat full ++ last)
      /\ len (comp_body full last) <= 4096
  end.

(** ** Paths *)
Definition backslash : N := 92.
(** [\a\b\c] for the components a, b, c. *)
Definition path_of (components : list (list N)) : list N :=
  flat_map (fun c => backslash :: c) components.
(** [a\b\c]. *)
Definition joined (components : list (list N)) : list N := tl (path_of components).
