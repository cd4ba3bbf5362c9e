(** Properties C01-C10: text, time, hex, TSV, ROT13, LZNT1 and root-less paths. *)
From Verif Require Import Base BaseFacts Util UtilSpec UtilText UtilLz.

(** C01. The bytes are the UTF-16LE text, then either nothing counted (or half a
    unit), or a NUL unit and anything. *)
Theorem C01_utf16_round_trip : forall text tail cnt,
  Forall scalar text -> ~ In 0 text ->
  cnt <= len (utf16le text ++ tail) ->
  (len (utf16le text) <= cnt <= len (utf16le text) + 1 \/
   (exists junk, tail = 0 :: 0 :: junk) /\ len (utf16le text) + 2 <= cnt) ->
  exists s, from_utf16_le_string (utf16le text ++ tail) cnt = Ok (s, 0)
            /\ read_utf8 s = Some text.
Proof. exact utf16_string_text. Qed.
Print Assumptions C01_utf16_round_trip.
Example C01_example :
  Forall scalar [0x41; 0x1F600; 0xFFFD] /\ ~ In 0 [0x41; 0x1F600; 0xFFFD]
  /\ from_utf16_le_string (utf16le [0x41; 0x1F600; 0xFFFD] ++ [0; 0; 7; 7]) 12
     = Ok ([0x41; 0xF0; 0x9F; 0x98; 0x80; 0xEF; 0xBF; 0xBD], 0).
Proof. split; [|split; [cbn; lia|vm_compute; reflexivity]]. repeat constructor; unfold scalar; lia. Qed.

Theorem C01_utf16_total : forall s cnt, cnt <= len s ->
  exists t w, from_utf16_le_string s cnt = Ok (t, w).
Proof. exact utf16_string_total. Qed.
Print Assumptions C01_utf16_total.

(** A warning is recorded exactly when the units before the terminator are not
    the UTF-16 of any text (there is an unpaired surrogate). *)
Theorem C01_warning_iff_unpaired_surrogate : forall us tail s w,
  Forall (fun u => 0 < u /\ u < 65536) us ->
  (len tail <= 1 \/ exists junk, tail = 0 :: 0 :: junk) ->
  from_utf16_le_string (unit_bytes us ++ tail) (len (unit_bytes us ++ tail)) = Ok (s, w) ->
  (w = 0 <-> exists text, Forall scalar text /\ us = utf16 text).
Proof. exact utf16_warning_iff. Qed.
Print Assumptions C01_warning_iff_unpaired_surrogate.
Example C01_warning_example :
  from_utf16_le_string (unit_bytes [0x41; 0xD83D; 0x42] ++ [0; 0]) 8
  = Ok ([0x41; 0xEF; 0xBF; 0xBD; 0x42], 1).
Proof. vm_compute. reflexivity. Qed.

(** C02. [bmp c]: a character of the basic plane other than NUL. *)
Theorem C02_multi_sz_round_trip_partial : forall l junk,
  Forall (fun s => Forall bmp s /\ ~ Forall white_space s) l ->
  (len junk <= 1 \/ exists j, junk = 0 :: 0 :: j) ->
  let stored := flat_map (fun s => utf16le s ++ [0; 0]) l ++ junk in
  exists r, from_utf16_le_strings stored (len stored) = Ok (r, 0)
            /\ map read_utf8 r = map Some l.
Proof. exact multi_round_trip. Qed.
Print Assumptions C02_multi_sz_round_trip_partial.
Example C02_example :
  from_utf16_le_strings (multi_sz [[0x61; 0x62]; [0x20; 0x63]; [0xE9]])
    (len (multi_sz [[0x61; 0x62]; [0x20; 0x63]; [0xE9]]))
  = Ok ([[0x61; 0x62]; [0x20; 0x63]; [0xC3; 0xA9]], 0).
Proof. vm_compute. reflexivity. Qed.

(** The claim without the restrictions is false: a supplementary character
    makes the next string start in the middle, and a blank string ends the list. *)
Theorem C02_multi_sz_surrogate_refuted : exists l r,
  Forall (Forall scalar) l /\ Forall (fun s => ~ In 0 s /\ ~ Forall white_space s) l
  /\ from_utf16_le_strings (multi_sz l) (len (multi_sz l)) = Ok (r, 0)
  /\ map read_utf8 r <> map Some l.
Proof.
  exists [[0x1F600]; [0x61]], [[0xF0; 0x9F; 0x98; 0x80]].
  split; [repeat constructor; unfold scalar; lia|].
  split; [|split; [vm_compute; reflexivity|discriminate]].
  repeat constructor; try (cbn; lia); intros H; inversion H; subst; cbn in *;
    match goal with W : white_space _ |- _ => unfold white_space in W; cbn in W; lia end.
Qed.
Print Assumptions C02_multi_sz_surrogate_refuted.
Theorem C02_multi_sz_blank_refuted : exists l r,
  Forall (Forall bmp) l /\ ~ In [] l
  /\ from_utf16_le_strings (multi_sz l) (len (multi_sz l)) = Ok (r, 0)
  /\ map read_utf8 r <> map Some l.
Proof.
  exists [[0x20]; [0x61]], []. split; [repeat constructor; unfold scalar; lia|].
  split; [cbn; intuition discriminate|]. split; [vm_compute; reflexivity|discriminate].
Qed.
Print Assumptions C02_multi_sz_blank_refuted.
Theorem C02_multi_sz_total : forall slice cnt, cnt <= len slice ->
  exists r w, from_utf16_le_strings slice cnt = Ok (r, w).
Proof. exact multi_total. Qed.
Print Assumptions C02_multi_sz_total.

(** C03. *)
Theorem C03_latin1 : forall s cnt, bytes_ok s ->
  exists t, string_from_bytes true s cnt = Ok (t, 0) /\ read_utf8 t = Some s.
Proof.
  intros s cnt H. exists (from_ascii s). split; [reflexivity|].
  apply read_utf8_utf8, byte_scalar, H.
Qed.
Print Assumptions C03_latin1.
Theorem C03_latin1_injective : forall a b, bytes_ok a -> bytes_ok b ->
  string_from_bytes true a (len a) = string_from_bytes true b (len b) -> a = b.
Proof.
  intros a b Ha Hb [= E]. apply utf8_inj; [apply byte_scalar, Ha|apply byte_scalar, Hb|exact E].
Qed.
Print Assumptions C03_latin1_injective.
Example C03_example : string_from_bytes true [0x41; 0xE9; 0x00] 3 = Ok ([0x41; 0xC3; 0xA9; 0x00], 0).
Proof. reflexivity. Qed.

(** C04. *)
Theorem C04_filetime_exact_iff_representable : forall n,
  get_date_time_from_filetime n = filetime_instant n <-> fits_i64 (filetime_instant n).
Proof. exact filetime_exact. Qed.
Print Assumptions C04_filetime_exact_iff_representable.
Example C04_example : fits_i64 (filetime_instant 132655520530000000)
  /\ get_date_time_from_filetime 132655520530000000 = 1621078453000000000%Z.
Proof. split; [unfold fits_i64; vm_compute; split; congruence|reflexivity]. Qed.
(** Filetime 0 (1601) is shown as an instant in 2185. *)
Theorem C04_filetime_zero_refuted : exists n, n < 2 ^ 64
  /\ get_date_time_from_filetime n <> filetime_instant n
  /\ (filetime_instant n < 0 < get_date_time_from_filetime n)%Z.
Proof. exists 0. vm_compute. repeat split; congruence. Qed.
Print Assumptions C04_filetime_zero_refuted.

(** C05. *)
Theorem C05_hex_round_trip : forall bs, bytes_ok bs -> read_hex (to_hex_string bs) = Some bs.
Proof. exact hex_round_trip. Qed.
Print Assumptions C05_hex_round_trip.
Theorem C05_hex_length : forall bs, len (to_hex_string bs) = 3 * len bs - 1.
Proof. exact hex_len. Qed.
Print Assumptions C05_hex_length.
Example C05_example : to_hex_string [0xDE; 0xAD; 0x07]
  = [68; 69; 32; 65; 68; 32; 48; 55].
Proof. reflexivity. Qed.

(** C06. Any row of one or more fields, whatever they contain, followed by
    anything. *)
Theorem C06_row_round_trip : forall f fs rest,
  read_row (row_text (map escape_string (f :: fs)) ++ rest) = Some (f :: fs, rest).
Proof. exact row_round_trip. Qed.
Print Assumptions C06_row_round_trip.
Example C06_example :
  row_text (map escape_string [[97; 34; 98]; [10; 9]; []])
  = [34; 97; 34; 34; 98; 34; 9; 34; 10; 9; 34; 9; 10].
Proof. reflexivity. Qed.

(** C07. *)
Theorem C07_rot13_involution : forall s, decode_rot13 (decode_rot13 s) = s.
Proof. exact rot13_involution. Qed.
Print Assumptions C07_rot13_involution.
Theorem C07_rot13_letters : forall a i z, i < 26 ->
  decode_rot13 (a ++ [65 + i] ++ z) = decode_rot13 a ++ [65 + (i + 13) mod 26] ++ decode_rot13 z
  /\ decode_rot13 (a ++ [97 + i] ++ z) = decode_rot13 a ++ [97 + (i + 13) mod 26] ++ decode_rot13 z.
Proof.
  intros a i z H. unfold decode_rot13. rewrite !map_app. cbn [map].
  now rewrite rot13_upper, rot13_lower.
Qed.
Print Assumptions C07_rot13_letters.
Theorem C07_rot13_others : forall c, ~ (65 <= c <= 90) -> ~ (97 <= c <= 122) -> decode_rot13 [c] = [c].
Proof. intros c H1 H2. unfold decode_rot13. cbn [map]. now rewrite rot13_other. Qed.
Print Assumptions C07_rot13_others.
Example C07_example : decode_rot13 [72; 101; 108; 108; 111; 33] = [85; 114; 121; 121; 98; 33].
Proof. reflexivity. Qed.

(** C08. The stream starts after [pad]; it ends at [slen] or with a zero header. *)
Theorem C08_lznt1_decodes : forall pad cs rest slen,
  Forall chunk_ok cs ->
  (slen = len (pad ++ stream_bytes cs) \/
   len (pad ++ stream_bytes cs) < slen /\ exists j, rest = 0 :: 0 :: j) ->
  decode_lznt1 (pad ++ stream_bytes cs ++ rest) (len pad) slen = Ok (stream_out cs).
Proof. exact lznt1_decodes. Qed.
Print Assumptions C08_lznt1_decodes.
Definition C08_chunks : list chunk :=
  [Comp [] [Lit 65; Lit 66; Ref 2 5; Lit 67]; Raw [1; 2; 3]].
Example C08_example : Forall chunk_ok C08_chunks
  /\ stream_out C08_chunks = [65; 66; 65; 66; 65; 66; 65; 67; 1; 2; 3]
  /\ decode_lznt1 (stream_bytes C08_chunks) 0 (len (stream_bytes C08_chunks))
     = Ok [65; 66; 65; 66; 65; 66; 65; 67; 1; 2; 3].
Proof.
  split; [|split; vm_compute; reflexivity].
  repeat constructor; try (vm_compute; congruence).
Qed.

(** C09. Decompression always terminates, but malformed input aborts it. *)
Theorem C09_lznt1_terminates : forall source soff slen, decode_lznt1 source soff slen <> OutOfFuel.
Proof. exact lznt1_terminates. Qed.
Print Assumptions C09_lznt1_terminates.
Theorem C09_lznt1_total_refuted : exists source,
  bytes_ok source /\ decode_lznt1 source 0 (len source) = Panic.
Proof. exists [0x05]. split; [repeat constructor|vm_compute; reflexivity]. Qed.
Print Assumptions C09_lznt1_total_refuted.

(** C10. *)
Theorem C10_pretty_path : forall r c cs, component r -> Forall component (c :: cs) ->
  str_from (path_of (map utf8 (r :: c :: cs)))
    (get_root_path_offset (path_of (map utf8 (r :: c :: cs))))
  = Ok (joined (map utf8 (c :: cs))).
Proof. exact pretty_path_sub. Qed.
Print Assumptions C10_pretty_path.
Theorem C10_pretty_path_root : forall r, component r ->
  str_from (path_of [utf8 r]) (get_root_path_offset (path_of [utf8 r])) = Ok (path_of [utf8 r]).
Proof. intros r H. rewrite root_offset_root by exact H. apply str_from_0. Qed.
Print Assumptions C10_pretty_path_root.
Theorem C10_pretty_path_total : forall t, Forall scalar t ->
  exists s, str_from (utf8 t) (get_root_path_offset (utf8 t)) = Ok s.
Proof. exact pretty_path_total. Qed.
Print Assumptions C10_pretty_path_total.
Example C10_example :
  component [82] /\ component [0xE9] /\
  str_from [92; 82; 92; 0xC3; 0xA9; 92; 98] (get_root_path_offset [92; 82; 92; 0xC3; 0xA9; 92; 98])
  = Ok [0xC3; 0xA9; 92; 98].
Proof.
  repeat split; try (repeat constructor; unfold scalar; lia); try (cbn; unfold backslash; lia).
Qed.
