(** What the decoders should give: how texts, lists of texts and compressed bytes
    lie in bytes. *)
From Verif Require Import Base Util UtilSpec Types Value Python.

(** The letter 13 places on. *)
Definition turned (c : N) : N :=
  if (65 <=? c) && (c <=? 90) then 65 + (c - 65 + 13) mod 26
  else if (97 <=? c) && (c <=? 122) then 97 + (c - 97 + 13) mod 26 else c.

(** A character of the basic plane other than NUL. *)
Definition plain (c : N) : Prop := scalar c /\ c < 0x10000 /\ c <> 0.
(** [decoded f off a b]: from [off], [a] holds [b] in the format [f]. *)
Inductive decoded : decode_format -> N -> cell_value -> cell_value -> Prop :=
| decoded_text pre text tail : Forall scalar text -> ~ In 0 text -> (len tail <= 1 \/ exists junk, tail = 0 :: 0 :: junk) ->
    decoded Utf16 (len pre) (CBinary (pre ++ utf16le text ++ tail)) (CString (utf8 text))
| decoded_texts pre l tail : Forall (fun s => Forall plain s /\ ~ Forall white_space s) l ->
    (pre = [] /\ len tail <= 1 \/ exists junk, tail = 0 :: 0 :: junk) ->
    decoded Utf16Multiple (len pre) (CBinary (pre ++ flat_map (fun s => utf16le s ++ [0; 0]) l ++ tail)) (CMultiString (map utf8 l))
| decoded_bytes pre chunks tail : Forall chunk_ok chunks -> (tail = [] \/ exists junk, tail = 0 :: 0 :: junk) ->
    decoded Lznt1 (len pre) (CBinary (pre ++ stream_bytes chunks ++ tail)) (CBinary (stream_out chunks))
| decoded_turned off text : Forall scalar text -> decoded Rot13 off (CString (utf8 text)) (CString (utf8 (map turned text)))
| decoded_all_turned off l : Forall (Forall scalar) l ->
    decoded Rot13 off (CMultiString (map utf8 l)) (CMultiString (map utf8 (map (map turned) l))).
(** One decoder after another. *)
Inductive decoded_by : list (decode_format * N) -> cell_value -> cell_value -> Prop :=
| decoded_no_more c : decoded_by [] c c
| decoded_then f off steps a b c : decoded f off a b -> decoded_by steps b c -> decoded_by ((f, off) :: steps) a c.

(** A Python program: [decode] on a value, then on what it gave, any number of
    times, and [content] at the end. *)
Fixpoint decode_on (c : cell_value) (steps : list (decode_format * N)) : res cell_value :=
  match steps with
  | [] => Ok c
  | (f, off) :: r => let* d := py_content_decode c f off in decode_on d r
  end.
Definition decode_value (v : key_value) (f : decode_format) (off : N) (steps : list (decode_format * N)) : res py_object :=
  let* c := py_decode v f off in let* d := decode_on c steps in Ok (py_content_content d).
