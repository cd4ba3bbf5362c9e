(** Specification of transaction logs: how they are written, which entries may
    be applied and what applying pages means. Only the byte layout vocabulary
    and the entry record of the model are used. *)
From Verif Require Import Base LayoutSpec Types Parser TxLog.

(** ** A log as written *)

(** The content of an entry: pages are (offset, bytes); [w_pad] is what follows
    the last page up to the size of the entry. *)
Record written := mkW {
  w_flags : N;
  w_seq : N;
  w_hbins : N;
  w_pages : list (N * list N);
  w_pad : list N
}.
Definition seed : N := 0x82EF4D887A4E55C5.
Definition page_table (pages : list (N * list N)) : list N :=
  flat_map (fun p => enc 4 (fst p) ++ enc 4 (len (snd p))) pages.
Definition w_body (w : written) : list N :=
  page_table (w_pages w) ++ flat_map snd (w_pages w) ++ w_pad w.
Definition w_size (w : written) : N := 40 + len (w_body w).
Definition w_head (w : written) : list N :=
  [72; 118; 76; 69] ++ enc 4 (w_size w) ++ enc 4 (w_flags w) ++ enc 4 (w_seq w)
  ++ enc 4 (w_hbins w) ++ enc 4 (len (w_pages w)).
Definition w_hash1 (w : written) : N := marvin32_spec seed (w_body w).
Definition w_hash2 (w : written) : N := marvin32_spec seed (w_head w ++ enc 8 (w_hash1 w)).
Definition entry_bytes (w : written) : list N :=
  w_head w ++ enc 8 (w_hash1 w) ++ enc 8 (w_hash2 w) ++ w_body w.
Definition log_bytes (ws : list written) : list N := flat_map entry_bytes ws.

(** The values fit their fields and the pages are bytes. *)
Definition u32 (n : N) : Prop := n < 2 ^ 32.
Definition w_ok (w : written) : Prop :=
  u32 (w_flags w) /\ u32 (w_seq w) /\ u32 (w_hbins w) /\ u32 (w_size w)
  /\ Forall (fun p => u32 (fst p) /\ bytes_ok (snd p)) (w_pages w) /\ bytes_ok (w_pad w).

(** A parsed entry says what was written, at the offset where it was written,
    and is hash-valid. *)
Definition entry_says (off : N) (w : written) (e : log_entry) : Prop :=
  le_file_offset e = off /\ le_size e = w_size w /\ le_flags e = w_flags w
  /\ le_seq e = w_seq w /\ le_hbins_size e = w_hbins w /\ le_page_count e = len (w_pages w)
  /\ le_hash1 e = w_hash1 w /\ le_hash2 e = w_hash2 w
  /\ map (fun p => (dp_offset p, dp_bytes p)) (le_pages e) = w_pages w
  /\ le_valid_hashes e = true.
Fixpoint entries_say (off : N) (ws : list written) (es : list log_entry) : Prop :=
  match ws, es with
  | [], [] => True
  | w :: ws, e :: es => entry_says off w e /\ entries_say (off + w_size w) ws es
  | _, _ => False
  end.

(** The entries of [ws] that end at or before byte [n] of [log_bytes ws]. *)
Fixpoint complete (ws : list written) (n : N) : list written :=
  match ws with
  | [] => []
  | w :: r => if w_size w <=? n then w :: complete r (n - w_size w) else []
  end.

(** ** Which entries are applied *)

(** The entries before the first one whose hashes are wrong. *)
Fixpoint trusted (es : list log_entry) : list log_entry :=
  match es with
  | e :: r => if le_valid_hashes e then e :: trusted r else []
  | [] => []
  end.
(** Those not older than the hive, whose secondary sequence number is [sec]. *)
Definition fresh (sec : N) (es : list log_entry) : list log_entry :=
  List.filter (fun e => sec <=? le_seq e) (trusted es).
(** Each sequence number is one more than the one before. *)
Fixpoint consecutive (l : list log_entry) : Prop :=
  match l with
  | a :: (b :: _) as r => le_seq b = le_seq a + 1 /\ consecutive r
  | _ => True
  end.
Definition size_ok (e : log_entry) : Prop := le_hbins_size e mod 4096 = 0.
(** [l] is the longest run of fresh entries that can be applied. *)
Definition applied (sec : N) (es l : list log_entry) : Prop :=
  exists rest, fresh sec es = l ++ rest
  /\ Forall size_ok l /\ consecutive l
  /\ match rest with
     | [] => True
     | e :: _ => ~ size_ok e \/ ~ consecutive (l ++ [e])
     end.
(** The sequence number of the last entry, 0 if there is none. *)
Definition last_seq (l : list log_entry) : N := List.last (map le_seq l) 0.

(** ** What applying means, byte by byte *)

(** The byte a page puts at position [i] of the file, if it covers it. *)
Definition page_byte (hbin i : N) (p : dirty_page) : option N :=
  if hbin + dp_offset p <=? i
  then nth_error (dp_bytes p) (N.to_nat (i - (hbin + dp_offset p)))
  else None.
(** The byte at [i] after the pages are written one after the other over a
    file whose byte there is [d]. *)
Definition byte_after (hbin i : N) (pages : list dirty_page) (d : N) : N :=
  fold_left (fun d p => match page_byte hbin i p with Some b => b | None => d end) pages d.
(** The total growth: each entry adds the difference to the original size. *)
Definition growth (hbins : N) (l : list log_entry) : N :=
  fold_right (fun e n => (le_hbins_size e - hbins) + n) 0 l.
Definition all_pages (l : list log_entry) : list dirty_page := flat_map le_pages l.
(** [b'] is [b] grown with zeros and overlaid with the pages of [l]. *)
Definition overlaid (hbin hbins : N) (l : list log_entry) (b b' : list N) : Prop :=
  len b' = len b + growth hbins l
  /\ forall i, i < len b' ->
       nth (N.to_nat i) b' 0
       = byte_after hbin i (all_pages l) (nth (N.to_nat i) b 0).

(** Each entry's pages lie inside the file, grown so far. *)
Fixpoint fits (hbin hbins n : N) (l : list log_entry) : Prop :=
  match l with
  | [] => True
  | e :: r =>
      let n := n + (le_hbins_size e - hbins) in
      Forall (fun p => hbin + dp_offset p + len (dp_bytes p) <= n) (le_pages e)
      /\ fits hbin hbins n r
  end.

(** ** Several logs *)

(** A log is used if it is not older than the hive and, once entries have been
    applied, the number in its header is the next one. *)
Definition eligible (sec last : N) (l : transaction_log) : Prop :=
  sec <= log_primary l /\ (last = 0 \/ log_primary l = (last + 1) mod 2 ^ 32).
(** [log_chain sec last logs es last']: [es] are the entries applied from the
    logs, in this order, and [last'] is the number of the last entry of the
    last log used (0 if that log had no entry to apply). *)
Inductive log_chain (sec : N) : N -> list transaction_log -> list log_entry -> N -> Prop :=
| chain_end n : log_chain sec n [] [] n
| chain_skip n l ls es m :
    ~ eligible sec n l -> log_chain sec n ls es m -> log_chain sec n (l :: ls) es m
| chain_use n l ls a es m :
    eligible sec n l -> applied sec (tl_entries l) a ->
    log_chain sec (last_seq a) ls es m -> log_chain sec n (l :: ls) (a ++ es) m.

(** The header of [b'] is that of [b] with both sequence numbers [n] and a
    matching checksum; nothing else differs. *)
Definition patched (n : N) (b b' : list N) : Prop :=
  len b' = len b
  /\ num_at b' 4 4 = n /\ num_at b' 8 4 = n /\ num_at b' 508 4 = header_checksum b'
  /\ forall i, i < 4 \/ (12 <= i /\ i < 508) \/ 512 <= i ->
       nth (N.to_nat i) b' 0 = nth (N.to_nat i) b 0.

(** ** Whole hives *)
(** The file type in the header is one of those the format defines. *)
Definition known_file_type (b : list N) : Prop :=
  num_at b 28 4 = 0 \/ num_at b 28 4 = 1 \/ num_at b 28 4 = 6.
(** The checksum in the header is that of the header. *)
Definition checksum_right (b : list N) : Prop := num_at b 508 4 = header_checksum b.
(** The bytes after recovery: the pages of [es] laid over [b], then the header
    patched with the number [m]. *)
Definition recovered (hbins : N) (es : list log_entry) (m : N) (b b' : list N) : Prop :=
  fits 4096 hbins (len b) es
  /\ exists b1, overlaid 4096 hbins es b b1 /\ patched m b1 b'.
(** [b0] is the hive [b] with the header replaced by that of the log file [f]. *)
Definition header_of (f b b0 : list N) : Prop :=
  len b0 = len b /\ bytes_at b0 0 512 = bytes_at f 0 512
  /\ forall i, 512 <= i -> nth (N.to_nat i) b0 0 = nth (N.to_nat i) b 0.
(** Two parsers that differ at most in the warnings they have collected. *)
Definition same_parser (p q : parser) : Prop :=
  ps_file p = ps_file q /\ ps_base_block p = ps_base_block q /\ ps_hbin_header p = ps_hbin_header q
  /\ ps_root p = ps_root q /\ ps_recover p = ps_recover q
  /\ set_info [] (ps_state p) = set_info [] (ps_state q).
