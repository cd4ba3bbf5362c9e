(** Model of src/util.rs. *)
From Verif Require Import Base.

(** ** UTF-8: how a Rust [String] stores its characters *)

(** [String::push]: the UTF-8 bytes of a code point (std). *)
Definition utf8_char (c : N) : list N :=
  if c <? 0x80 then [c]
  else if c <? 0x800 then [0xC0 + c / 64; 0x80 + c mod 64]
  else if c <? 0x10000 then [0xE0 + c / 4096; 0x80 + (c / 64) mod 64; 0x80 + c mod 64]
  else [0xF0 + c / 262144; 0x80 + (c / 4096) mod 64; 0x80 + (c / 64) mod 64; 0x80 + c mod 64].
Definition utf8 (cs : list N) : list N := flat_map utf8_char cs.

(** [str::is_char_boundary] at an index inside the string (std). *)
Definition is_cont (b : N) : bool := (0x80 <=? b) && (b <? 0xC0).

(** [&s[off..]]: panics past the end or inside a character (std). *)
Definition str_from (s : list N) (off : N) : res (list N) :=
  match get_from s off with
  | None => Panic
  | Some (b :: r) => if is_cont b && negb (off =? 0) then Panic else Ok (b :: r)
  | Some [] => Ok []
  end.

(** [char::to_ascii_lowercase], bytewise on UTF-8 (std). *)
Definition lower (b : N) : N := if (65 <=? b) && (b <=? 90) then b + 32 else b.
Definition to_lower (s : list N) : list N := map lower s.

(** [char::is_whitespace] (Unicode White_Space), used by [str::trim] (std). *)
Definition is_white (c : N) : bool :=
  ((9 <=? c) && (c <=? 13)) || (c =? 32) || (c =? 0x85) || (c =? 0xA0) || (c =? 0x1680)
  || ((0x2000 <=? c) && (c <=? 0x200A)) || (c =? 0x2028) || (c =? 0x2029)
  || (c =? 0x202F) || (c =? 0x205F) || (c =? 0x3000).

(** ** UTF-16 *)

Definition is_high (u : N) : bool := (0xD800 <=? u) && (u <? 0xDC00).
Definition is_low (u : N) : bool := (0xDC00 <=? u) && (u <? 0xE000).

(** The units [slice[2i], slice[2i+1]] for [i < count/2]; the caller's [count]
    may exceed the slice, then the index panics. src/util.rs:34-35.
    The iterator is lazy in the code: an out-of-range index is reached only if
    no NUL character is decoded before it; [None] marks such a unit. *)
Fixpoint units (n : nat) (s : list N) : list (option N) :=
  match n with
  | O => []
  | S n' =>
      match s with
      | a :: b :: r => Some (a + 256 * b) :: units n' r
      | _ => [None]
      end
  end.

(** The loop [decode_utf16(iter).map(..).take_while(..)] of
    src/util.rs:36-51, reading units lazily: returns the characters before the
    first NUL, the number of characters examined, and the number of conversion
    warnings, or panics when it reaches a unit outside the slice. A high
    surrogate makes the decoder look at the following unit. *)
Fixpoint decode_until_nul (us : list (option N)) (cs : list N) (cnt warn : N)
  : res (list N * N * N) :=
  match us with
  | [] => Ok (rev cs, cnt, warn)
  | None :: _ => Panic
  | Some u :: r =>
      if is_high u then
        match r with
        | Some v :: r' =>
            if is_low v
            then decode_until_nul r' ((0x10000 + (u - 0xD800) * 1024 + (v - 0xDC00)) :: cs) (cnt + 1) warn
            else decode_until_nul r (0xFFFD :: cs) (cnt + 1) (warn + 1)
        | None :: _ => Panic
        | [] => Ok (rev (0xFFFD :: cs), cnt + 1, warn + 1)
        end
      else if is_low u then decode_until_nul r (0xFFFD :: cs) (cnt + 1) (warn + 1)
      else if u =? 0 then Ok (rev cs, cnt + 1, warn)
      else decode_until_nul r (u :: cs) (cnt + 1) warn
  end.

(** [from_utf16_le_string_single], src/util.rs:28-57: the characters (code
    points, UTF-8 encoding is applied by the callers), the character count and
    the number of [WarningConversion] logs added. The guard on [count] keeps a
    huge count out of [nat]; any unit beyond the slice is the same panic. *)
Definition from_utf16_le_string_single (slice : list N) (cnt : N) : res (list N * N * N) :=
  let n := N.to_nat (N.min (cnt / 2) (len slice + 1)) in
  let* (cs, char_count, warn) := decode_until_nul (units n slice) [] 0 0 in
  Ok (cs, if 0 <? char_count then char_count - 1 else char_count, warn).

(** [from_utf16_le_string], src/util.rs:60-69 ([assert!] panics). *)
Definition from_utf16_le_string (slice : list N) (cnt : N) : res (list N * N) :=
  if cnt <=? len slice then
    let* (cs, _, warn) := from_utf16_le_string_single slice cnt in Ok (utf8 cs, warn)
  else Panic.

(** The [while offset < count] loop of [from_utf16_le_strings],
    src/util.rs:81-90. [fuel] bounds the iterations; the offset grows by at
    least 2 each time, see [multi_fuel_enough]. *)
Fixpoint utf16_strings_loop (fuel : nat) (slice : list N) (cnt offset : N)
  (acc : list (list N)) (warn : N) : res (list (list N) * N) :=
  match fuel with
  | O => OutOfFuel
  | S fuel' =>
      if offset <? cnt then
        let* s := or_panic (get_from slice offset) in
        let* (decoded, size, w) := from_utf16_le_string_single s (cnt - offset) in
        if forallb is_white decoded then Ok (rev acc, warn + w)
        else utf16_strings_loop fuel' slice cnt (offset + size * 2 + 2)
               (utf8 decoded :: acc) (warn + w)
      else Ok (rev acc, warn)
  end.

(** [from_utf16_le_strings], src/util.rs:72-92. *)
Definition from_utf16_le_strings (slice : list N) (cnt : N) : res (list (list N) * N) :=
  utf16_strings_loop (S (length slice)) slice cnt 0 [] 0.

(** [from_ascii], src/util.rs:95-118: every byte is pushed as the character
    with that code (the non-ASCII branch decodes the UTF-16 unit [b,0], which is
    never a surrogate, so no warning can be added). *)
Definition from_ascii (slice : list N) : list N := utf8 slice.

(** [string_from_bytes], src/util.rs:120-132: text and number of warnings. *)
Definition string_from_bytes (is_ascii : bool) (slice : list N) (cnt : N) : res (list N * N) :=
  if is_ascii then Ok (from_ascii slice, 0) else from_utf16_le_string slice cnt.

(** [parser_eat_remaining], src/util.rs:135-146. *)
Definition parser_eat_remaining (input : list N) (cell_size consumed : N)
  : option (list N * list N) :=
  if consumed <? cell_size then take (cell_size - consumed) input else Some ([], input).

(** [get_date_time_from_filetime], src/util.rs:149-163: nanoseconds since
    1970-01-01. [as i64] keeps the low 64 bits. The addition to the 1970 date
    cannot overflow chrono's range (an [i64] of nanoseconds is about 292 years). *)
Definition as_i64 (z : Z) : Z :=
  let m := (z mod 18446744073709551616)%Z in
  if (m <? 9223372036854775808)%Z then m else (m - 18446744073709551616)%Z.
Definition get_date_time_from_filetime (filetime : N) : Z :=
  as_i64 (Z.of_N filetime * 100 - 11644473600 * 1000000000)%Z.

(** [get_pretty_name], src/util.rs:197-203; the literal is "(default)". *)
Definition get_pretty_name (name : list N) : list N :=
  match name with
  | [] => [40; 100; 101; 102; 97; 117; 108; 116; 41]
  | _ => name
  end.

(** [{:02X}]: an upper-case hex digit. *)
Definition hex_digit (d : N) : N := if d <? 10 then 48 + d else 55 + d.

(** [to_hex_string], src/util.rs:206-214: "XX " per byte, trailing blank trimmed
    (a digit is never blank, so [trim_end] removes exactly the last blank). *)
Definition to_hex_string (bs : list N) : list N :=
  removelast (flat_map (fun b => [hex_digit (b / 16); hex_digit (b mod 16); 32]) bs).

(** [escape_string], src/util.rs:216-223. *)
Definition needs_quotes (b : N) : bool :=
  (b =? 9) || (b =? 13) || (b =? 10) || (b =? 44) || (b =? 34).
Definition escape_string (s : list N) : list N :=
  if existsb needs_quotes s
  then [34] ++ flat_map (fun b => if b =? 34 then [34; 34] else [b]) s ++ [34]
  else s.

(** [decode_rot13], src/util.rs:243-251; the characters it changes are ASCII,
    so it acts bytewise on the UTF-8 text. *)
Definition rot13_char (c : N) : N :=
  if ((65 <=? c) && (c <=? 77)) || ((97 <=? c) && (c <=? 109)) then c + 13
  else if ((78 <=? c) && (c <=? 90)) || ((110 <=? c) && (c <=? 122)) then c - 13
  else c.
Definition decode_rot13 (s : list N) : list N := map rot13_char s.

(** [calc_compression_bits], src/util.rs:225-240: the table is built entry by
    entry; [n] entries remain, the next one is number [x]. *)
Fixpoint calc_bits_loop (n : nat) (x y offset_bits : N) : list N :=
  match n with
  | O => []
  | S n' =>
      (4 + offset_bits) ::
      (if x =? y then calc_bits_loop n' (x + 1) (N.shiftl y 1) (offset_bits + 1)
       else calc_bits_loop n' (x + 1) y offset_bits)
  end.
Definition COMPRESSION_BITS : list N := calc_bits_loop (N.to_nat 4096) 0 0x10 0.

(** A two-byte little-endian read by indexing; panics out of range. *)
Definition read_u16 (s : list N) (i : N) : res N :=
  let* b := or_panic (get_range s i (i + 2)) in Ok (le b).

(** The copy loop of a phrase token, src/util.rs:322-326. *)
Fixpoint lz_copy (n : nat) (out : list N) (dest back : N) : res (list N * N) :=
  match n with
  | O => Ok (out, dest)
  | S n' =>
      let* b := or_panic (get_at out back) in
      lz_copy n' (out ++ [b]) (dest + 1) (back + 1)
  end.

(** The eight tokens under one tag byte, src/util.rs:297-329.
    [si] is [source_index], [soff] is [source_offset]. [dest - x - 1] below is
    unsigned: it panics in a debug build and wraps to an index that is out of
    range in a release build; both abort. *)
Fixpoint lz_tokens (n : nat) (source : list N) (soff sub_start sub_end : N)
  (tagb si dest : N) (out : list N) : res (N * N * list N) :=
  match n with
  | O => Ok (si, dest, out)
  | S n' =>
      if sub_end <=? si then Ok (si, dest, out)
      else if (N.land tagb 1) =? 0 then
        let* b := or_panic (get_at source (soff + si)) in
        lz_tokens n' source soff sub_start sub_end (N.shiftr tagb 1) (si + 1) (dest + 1) (out ++ [b])
      else
        let* bits := or_panic (get_at COMPRESSION_BITS (dest - sub_start)) in
        let length_bits := 16 - bits in
        let length_mask := N.shiftl 1 length_bits - 1 in
        let* token := read_u16 source (si + soff) in
        let disp := N.shiftr token length_bits in
        let length := N.land token length_mask + 3 in
        if dest <? disp + 1 then Panic
        else
          let* (out, dest) := lz_copy (N.to_nat length) out dest (dest - disp - 1) in
          lz_tokens n' source soff sub_start sub_end (N.shiftr tagb 1) (si + 2) dest out
  end.

(** The tag-byte loop of one compressed chunk, src/util.rs:293-330. *)
Fixpoint lz_chunk (fuel : nat) (source : list N) (soff sub_start sub_end si dest : N)
  (out : list N) : res (N * N * list N) :=
  match fuel with
  | O => OutOfFuel
  | S fuel' =>
      if si <? sub_end then
        let* tagb := or_panic (get_at source (soff + si)) in
        let* (si, dest, out) := lz_tokens 8 source soff sub_start sub_end tagb (si + 1) dest out in
        lz_chunk fuel' source soff sub_start sub_end si dest out
      else Ok (si, dest, out)
  end.

(** The chunk loop, src/util.rs:268-332. *)
Fixpoint lz_loop (fuel : nat) (source : list N) (soff slen si dest : N) (out : list N)
  : res (list N) :=
  match fuel with
  | O => OutOfFuel
  | S fuel' =>
      if si + soff <? slen then
        let* header := read_u16 source (si + soff) in
        let si := si + 2 in
        if header =? 0 then Ok out
        else if N.land header 0x8000 =? 0 then
          let block_size := N.land header 0x0fff + 1 in
          let* b := or_panic (get_range source (soff + si) (soff + si + block_size)) in
          lz_loop fuel' source soff slen (si + block_size) (dest + block_size) (out ++ b)
        else
          let* (si, dest, out) :=
            lz_chunk (S (length source)) source soff dest
              (si + N.land header 0x0fff + 1) si dest out in
          lz_loop fuel' source soff slen si dest out
      else Ok out
  end.

(** [decode_lznt1], src/util.rs:254-334. Index arithmetic is on unbounded
    numbers: it could only wrap for a [source_offset] near 2^64, where the first
    access is out of range anyway. *)
Definition decode_lznt1 (source : list N) (soff slen : N) : res (list N) :=
  lz_loop (S (length source)) source soff slen 0 0 [].

(** Index of the first occurrence of a byte ([str::find]). *)
Fixpoint find_byte (b : N) (s : list N) : option N :=
  match s with
  | [] => None
  | x :: r => if x =? b then Some 0 else option_map N.succ (find_byte b r)
  end.

(** [get_root_path_offset], src/util.rs:336-345; 92 is the backslash. *)
Definition get_root_path_offset (path : list N) : N :=
  match path with
  | b :: p =>
      if b =? 92 then
        match find_byte 92 p with
        | Some i => i + 2
        | None => 0
        end
      else 0
  | [] => 0
  end.
