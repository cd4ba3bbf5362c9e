(** What the console may say (C82). *)
From Coq Require Import String.
From Verif Require Import Base Types TxLog Log Export ExportSpec.
Open Scope string_scope.
Open Scope N_scope.
Open Scope list_scope.

(** The entries of a log that are looked at, one after the other: [k] of them, the
    last number applied being [n] after them, if it was [m] before. Those of which the
    hive has no need are passed over; the first that cannot follow ends it. *)
Definition fits (m : N) (e : log_entry) : Prop :=
  le_hbins_size e mod 4096 = 0 /\ (m = 0 \/ le_seq e = (m + 1) mod 2 ^ 32).
Inductive looked_at (sec : N) : N -> list log_entry -> N -> N -> Prop :=
| no_more m : looked_at sec m [] 0 m
| damaged m e r : le_valid_hashes e = false -> looked_at sec m (e :: r) 1 m
| unfit m e r : le_valid_hashes e = true -> sec <= le_seq e -> ~ fits m e -> looked_at sec m (e :: r) 1 m
| passed m e r k n : le_valid_hashes e = true -> le_seq e < sec -> looked_at sec m r k n -> looked_at sec m (e :: r) (1 + k) n
| applied m e r k n : le_valid_hashes e = true -> sec <= le_seq e -> fits m e -> looked_at sec (le_seq e) r k n ->
    looked_at sec m (e :: r) (1 + k) n.

(** The messages that entries [i] to [i + k - 1] of [total] are processed, each between
    the sequences that save and restore the position. *)
Inductive counted (total : N) : N -> N -> list N -> Prop :=
| counted_none i : counted total i 0 []
| counted_one i k a b t : numeral a i -> numeral b total -> counted total (i + 1) k t ->
    counted total i (1 + k) ([27; 55] ++ text "Processing transaction log entry " ++ a ++ text " of " ++ b ++ [27; 56] ++ t).
(** What is said of logs, of which the first is number [i] of [total]: nothing of those
    that are left out; of each other a line, and the messages for its entries, with a
    line feed if there is an entry. *)
Inductive narrated (sec total : N) : N -> N -> list transaction_log -> list N -> Prop :=
| told_end i m : narrated sec total i m [] []
| told_left_out i m l r s : log_primary l < sec \/ (m <> 0 /\ log_primary l <> (m + 1) mod 2 ^ 32) ->
    narrated sec total (i + 1) m r s -> narrated sec total i m (l :: r) s
| told_log i m l r a b k n t s : sec <= log_primary l -> m = 0 \/ log_primary l = (m + 1) mod 2 ^ 32 ->
    numeral a i -> numeral b total -> looked_at sec 0 (tl_entries l) k n -> counted (len (tl_entries l)) 1 k t ->
    narrated sec total (i + 1) n r s ->
    narrated sec total i m (l :: r)
      (text "Applying transaction log " ++ a ++ text " of " ++ b ++ [10] ++ t ++ (match k with 0 => [] | _ => [10] end) ++ s).

(** An opening that fails. Entry [k] is the one that cannot be applied although it fits;
    those before it were passed over or applied. *)
Inductive begun (sec : N) : N -> list log_entry -> N -> Prop :=
| begun_here m e r : le_valid_hashes e = true -> sec <= le_seq e -> fits m e -> begun sec m (e :: r) 1
| begun_passed m e r k : le_valid_hashes e = true -> le_seq e < sec -> begun sec m r k -> begun sec m (e :: r) (1 + k)
| begun_applied m e r k : le_valid_hashes e = true -> sec <= le_seq e -> fits m e -> begun sec (le_seq e) r k -> begun sec m (e :: r) (1 + k).
(** What is said is broken off after that entry, with a line feed. *)
Inductive broken_off (sec total : N) : N -> N -> list transaction_log -> list N -> Prop :=
| broken_here i m l r a b k t : sec <= log_primary l -> m = 0 \/ log_primary l = (m + 1) mod 2 ^ 32 ->
    numeral a i -> numeral b total -> begun sec 0 (tl_entries l) k -> counted (len (tl_entries l)) 1 k t ->
    broken_off sec total i m (l :: r) (text "Applying transaction log " ++ a ++ text " of " ++ b ++ [10] ++ t ++ [10])
| broken_left_out i m l r s : log_primary l < sec \/ (m <> 0 /\ log_primary l <> (m + 1) mod 2 ^ 32) ->
    broken_off sec total (i + 1) m r s -> broken_off sec total i m (l :: r) s
| broken_later i m l r a b k n t s : sec <= log_primary l -> m = 0 \/ log_primary l = (m + 1) mod 2 ^ 32 ->
    numeral a i -> numeral b total -> looked_at sec 0 (tl_entries l) k n -> counted (len (tl_entries l)) 1 k t ->
    broken_off sec total (i + 1) n r s ->
    broken_off sec total i m (l :: r)
      (text "Applying transaction log " ++ a ++ text " of " ++ b ++ [10] ++ t ++ (match k with 0 => [] | _ => [10] end) ++ s).
