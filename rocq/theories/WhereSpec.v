(** Where the bytes of a value lie in the file (C81). *)
From Verif Require Import Base Types CellSpec.

(** A value without bytes; a value with one position, where its bytes are; or a
    value of more than 16344 bytes cut into pieces, where each position is counted
    from the start of the bins and is that of the size of the cell before a piece. *)
Definition lies_in (file : list N) (bins : N) (v : key_value) : Prop :=
  exists bytes, vd_bytes (kv_detail v) = Some bytes
  /\ (bytes = []
      \/ (exists p, kv_data_offsets v = [p] /\ stored file p bytes)
      \/ (16344 < vd_data_size_raw (kv_detail v) /\ exists pieces rest,
            concat pieces = bytes ++ rest /\ (List.length pieces <= List.length (kv_data_offsets v))%nat
            /\ Forall2 (fun o s => stored file (bins + o + 4) s) (firstn (List.length pieces) (kv_data_offsets v)) pieces)).
