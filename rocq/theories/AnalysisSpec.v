(** The comparison of the items before and after an applied log entry. *)
From Coq Require Import Permutation.
From Verif Require Import Base Types Value Node Recover Parser TxLog TxSpec StoreSpec.

(** What an iteration shows of the hive after the entry: every key, then its
    values; each with its hash and its offset. *)
Definition sightings (ks : list key_node) : list (item_key * (option N * N)) :=
  flat_map (fun k =>
    ((kn_path k, None), (kn_hash k, kn_offset k))
    :: map (fun v => ((kn_path k, Some (vd_name (kv_detail v))), (kv_hash v, kv_offset v))) (kn_values k)) ks.
Fixpoint first_seen (w : item_key) (l : list (item_key * (option N * N))) : option (option N * N) :=
  match l with [] => None | e :: r => if item_key_eqb w (fst e) then Some (snd e) else first_seen w r end.

(** The item before the entry, if it is there afterwards with another hash. *)
Definition changed (w : item_key) (prior : reg_items) (l : list (item_key * (option N * N))) : option item :=
  match aget item_key_eqb w prior, first_seen w l with
  | Some it, Some (Some h, _) => if h =? it_hash it then None else Some it
  | _, _ => None
  end.
(** The item before the entry, if it is not there afterwards. *)
Definition gone (w : item_key) (prior : reg_items) (l : list (item_key * (option N * N))) : option item :=
  match aget item_key_eqb w prior, first_seen w l with
  | Some it, None => Some it
  | _, _ => None
  end.

(** The key or the value of an item, as the file before the entry has it, marked
    with the number of the entry that replaced it; nothing if it cannot be
    read. *)
Definition old_key (fi : file_info) (st : state) (new_seq : N) (cs : cell_state) (path : list N) (it : item) : list key_node :=
  match kn_read fi st (mkOpt (it_offset it) (parent_of path) None false (Some (it_seq it)) false) with
  | Ok (Some k, _) => [kn_set_state cs (kn_set_values [] (kn_set_updated new_seq k))]
  | _ => []
  end.
Definition old_value (fi : file_info) (st : state) (new_seq : N) (cs : cell_state) (it : item) : list key_value :=
  match get_from (fi_buffer fi) (it_offset it) with
  | None => []
  | Some slice =>
      match kv_from_bytes slice (it_offset it) (Some (it_seq it)) (st_full st) with
      | Ok (v, _) => [kv_set_state cs (kv_set_updated new_seq (read_value_bytes fi st v))]
      | _ => []
      end
  end.
Definition or_nothing {A B} (f : A -> list B) (o : option A) : list B := match o with Some x => f x | None => [] end.
(** The values among the items of a key have, in the file before the entry, the
    names under which they are listed. *)
Definition names_agree (fi : file_info) (st : state) (prior : reg_items) (path : list N) : Prop :=
  forall name it, aget item_key_eqb (path, Some name) prior = Some it ->
  forall new_seq cs, Forall (fun v => vd_name (kv_detail v) = name) (old_value fi st new_seq cs it).
(** The keys among the items below a path have, in the file before the entry, the
    paths under which they are listed. *)
Definition paths_agree (fi : file_info) (st : state) (prior : reg_items) (above : list N) : Prop :=
  forall path it, parent_of path = above -> aget item_key_eqb (path, None) prior = Some it ->
  forall new_seq cs, Forall (fun k => kn_path k = path) (old_key fi st new_seq cs path it).

(** Every item before the entry that is not there afterwards, once. *)
Definition all_gone (prior : reg_items) (l : list (item_key * (option N * N))) (g : list (item_key * item)) : Prop :=
  NoDup (map fst g) /\ forall w it, In (w, it) g <-> gone w prior l = Some it.
Definition values_of (f : item -> list key_value) (path : list N) (g : list (item_key * item)) : list key_value :=
  flat_map (fun x => match snd (fst x) with Some _ => if beq path (fst (fst x)) then f (snd x) else [] | None => [] end) g.
Definition keys_of (f : list N -> item -> list key_node) (path : list N) (g : list (item_key * item)) : list key_node :=
  flat_map (fun x => match snd (fst x) with None => if beq path (parent_of (fst (fst x))) then f (fst (fst x)) (snd x) else [] | Some _ => [] end) g.
(** A deleted value or key is back: an item of the same name or path and hash. *)
Definition value_back (latest : reg_items) (path : list N) (v : key_value) : Prop :=
  exists it, aget item_key_eqb (path, Some (vd_name (kv_detail v))) latest = Some it /\ kv_hash v = Some (it_hash it).
Definition key_back (latest : reg_items) (k : key_node) : Prop :=
  exists it, aget item_key_eqb (kn_path k, None) latest = Some it /\ kn_hash k = Some (it_hash it).
(** [b] is [a] with only elements that satisfy [P] left out. *)
Inductive without {A} (P : A -> Prop) : list A -> list A -> Prop :=
| without_nil : without P [] []
| without_keep x a b : without P a b -> without P (x :: a) (x :: b)
| without_drop x a b : P x -> without P a b -> without P (x :: a) b.

(** ** What a build goes through *)
(** The states of a parser while it is built: made, scanned, after comparisons. *)
Inductive reached (order : reg_items -> reg_items) (fuel : nat) (full : bool) (hash : list N -> N) : state -> Prop :=
| reached_new : reached order fuel full hash (mkState 0 full [] hash [] [] [] [])
| reached_info i st : reached order fuel full hash st -> reached order fuel full hash (set_info i st)
| reached_scan fi st n st' : reached order fuel full hash st -> find_free_keys_and_values fi st n = Ok st' -> reached order fuel full hash st'
| reached_compare fi seq p prior latest p' logs : reached order fuel full hash (ps_state p) ->
    get_latest_reg_items order fuel fi seq p prior = Ok (latest, p', logs) -> reached order fuel full hash (ps_state p').
(** The items taken from a file, and the keys shown when they were taken. *)
Inductive taken (order : reg_items -> reg_items) (fuel : nat) (full : bool) (hash : list N -> N) : file_info -> list key_node -> reg_items -> Prop :=
| taken_first p p1 ks seq items p2 : reached order fuel full hash (ps_state p) -> ps_recover p = true ->
    init_root p = Ok p1 -> iterate fuel p1 None false true false = Ok ks -> get_reg_items fuel p seq = Ok (items, p2) ->
    taken order fuel full hash (ps_file p) ks items
| taken_next p p1 ks fi seq prior latest p' logs : reached order fuel full hash (ps_state p) -> NoDup (map fst prior) ->
    init_root p = Ok p1 -> iterate fuel p1 None false false false = Ok ks -> get_latest_reg_items order fuel fi seq p prior = Ok (latest, p', logs) ->
    taken order fuel full hash (ps_file p) ks latest.
(** Only live keys with only live values are shown under a path. *)
Definition live_at (ks : list key_node) (path : list N) : Prop :=
  forall k, In k ks -> kn_path k = path -> kn_state k = Allocated /\ Forall (fun v => kv_state v = Allocated) (kn_values k).
(** Only live keys, whose names have no backslash, are shown below a path. *)
Definition live_below (ks : list key_node) (above : list N) : Prop :=
  forall k, In k ks -> parent_of (kn_path k) = above -> kn_state k = Allocated /\ ~ In 92 (kn_name k).
(** One comparison of a build: the file before the entry, as long as the file
    after it; the keys shown and the items taken then; the number of the entry,
    the file after it and the state; the keys shown and the items and the state
    afterwards. *)
Inductive compares (order : reg_items -> reg_items) (fuel : nat) (full : bool) (hash : list N -> N)
  : file_info -> list key_node -> reg_items -> N -> file_info -> state -> list key_node -> reg_items -> state -> Prop :=
| compares_entry fi h zeros before prior seq p p1 after latest p' logs :
    taken order fuel full hash fi before prior -> reached order fuel full hash (ps_state p) ->
    init_root p = Ok p1 -> iterate fuel p1 None false false false = Ok after ->
    get_latest_reg_items order fuel (mkFI h (fi_buffer fi ++ zeros)) seq p prior = Ok (latest, p', logs) ->
    compares order fuel full hash (mkFI h (fi_buffer fi ++ zeros)) before prior seq (ps_file p) (ps_state p) after latest (ps_state p').

(** The items that are there before any entry: those shown, with the number 0. *)
Definition first_items (before : list key_node) (prior : reg_items) : Prop :=
  forall w, (aget item_key_eqb w prior = None <-> ~ In w (map fst (sightings before)))
  /\ forall it, aget item_key_eqb w prior = Some it -> it_seq it = 0 /\ In (w, (Some (it_hash it), it_offset it)) (sightings before).

(** ** All the entries of a build *)
(** What a build has after some entries: the file, the keys shown and the items
    taken from it, and the state. *)
Definition moment : Type := list N * list key_node * reg_items * state.
Definition grown_file (hbins : N) (e : log_entry) (b : list N) : list N :=
  b ++ repeat 0 (N.to_nat (le_hbins_size e - hbins)).
(** The file before the entry has every item that is gone or changed afterwards. *)
Definition nothing_lost (fi : file_info) (prior : reg_items) (seq : N) (st : state) (after : list key_node) : Prop :=
  forall w it, changed w prior (sightings after) = Some it \/ gone w prior (sightings after) = Some it ->
  match snd w with
  | None => old_key fi st seq Allocated (fst w) it <> []
  | Some _ => old_value fi st seq Allocated it <> []
  end.
(** Entries applied one after the other, each compared with the file just before
    it; [told] are the messages of the build at its end: they have a warning if an
    item was lost. Messages may be added to the state in between. *)
Inductive history (order : reg_items -> reg_items) (fuel : nat) (full : bool) (hash : list N -> N) (hbins : N) (told : list log_code)
  : moment -> list log_entry -> moment -> Prop :=
| history_none b before prior st i : history order fuel full hash hbins told (b, before, prior, st) [] (b, before, prior, set_info i st)
| history_entry b before prior st i e b1 after latest st1 es m :
    overlaid 4096 hbins [e] b b1 ->
    compares order fuel full hash (mkFI 4096 (grown_file hbins e b)) before prior (le_seq e) (mkFI 4096 b1) (set_info i st) after latest st1 ->
    ((forall m, Permutation (order m) m) ->
     nothing_lost (mkFI 4096 (grown_file hbins e b)) prior (le_seq e) (set_info i st) after \/ In WarningTransactionLog told) ->
    history order fuel full hash hbins told (b1, after, latest, st1) es m ->
    history order fuel full hash hbins told (b, before, prior, st) (e :: es) m.
(** The hive after an entry cannot be iterated. *)
Definition unreadable_after (fuel : nat) (hbins : N) (m : moment) (e : log_entry) : Prop :=
  let '(b, _, _, st) := m in
  exists p i, overlaid 4096 hbins [e] b (ps_buffer p) /\ ps_hbin p = 4096 /\ ps_state p = set_info i st
  /\ forall p1 after, init_root p = Ok p1 -> iterate fuel p1 None false false false <> Ok after.
