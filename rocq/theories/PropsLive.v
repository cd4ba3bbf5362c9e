(** The properties of turning recovery on: statements only, with a concrete case
    beside each. The specification is LiveSpec.v. *)
From Verif Require Import Base BaseFacts LayoutSpec Types Value Node Recover Parser TxLog TxSpec CellSpec
  ScanSpec ScanAll LiveSpec LiveView LiveOpen LivePlain Demo DemoCell DemoTree DemoScan PropsScan.

(** C37. [p] is built without recovery and [q] with it, from the same files; the
    orders in which hash maps are walked and the fuels need not be the same. *)
Theorem C37_same_hive : forall order order' fuel fuel' hash full buffer files p q,
  build order fuel hash false full buffer files = Ok p -> build order' fuel' hash true full buffer files = Ok q ->
  ps_file p = ps_file q /\ ps_base_block p = ps_base_block q /\ ps_hbin_header p = ps_hbin_header q.
Proof.
  intros order order' fuel fuel' hash full buffer files p q B C.
  destruct (build_twin full hash _ _ _ _ _ _ _ _ B C) as ((F & G & _) & H & _). auto.
Qed.
Print Assumptions C37_same_hive.
(** The keys of the iteration without recovery are the allocated keys of the one
    with recovery, without what is known of earlier versions, and in their order;
    for all filters, with or without ancestors and modified items. *)
Theorem C37_live_view : forall order order' fuel fuel' hash full buffer files p q,
  known_file_type buffer ->
  build order fuel hash false full buffer files = Ok p -> build order' fuel' hash true full buffer files = Ok q ->
  forall n n' f anc m ks ks', iterate n p f anc m false = Ok ks -> iterate n' q f anc m false = Ok ks' ->
  ks = live_keys ks'.
Proof.
  intros order order' fuel fuel' hash full buffer files p q K B C n n' f anc m ks ks' I J.
  rewrite <- (clean_keys ks) by exact (iterate_clean _ _ _ _ _ _ _ _ _ _ _ _ _ K B I).
  exact (twins_iterate full hash _ _ _ _ _ _ _ _ _ (build_twin full hash _ _ _ _ _ _ _ _ B C) I J).
Qed.
Print Assumptions C37_live_view.
(** A look-up by path finds the same key. *)
Theorem C37_get_key : forall order order' fuel fuel' hash full buffer files p q,
  known_file_type buffer ->
  build order fuel hash false full buffer files = Ok p -> build order' fuel' hash true full buffer files = Ok q ->
  forall n n' path has_root k k' p' q', get_key n p path has_root = Ok (k, p') -> get_key n' q path has_root = Ok (k', q') ->
  k = option_map live_key k'.
Proof.
  intros order order' fuel fuel' hash full buffer files p q K B C n n' path hr k k' p' q' I J.
  rewrite <- (twins_get_key full hash _ _ _ _ _ _ _ _ _ _ (build_twin full hash _ _ _ _ _ _ _ _ B C) I J).
  destruct k as [k|]; [|reflexivity]. cbn [option_map]. f_equal. symmetry. apply clean_live.
  refine (get_key_clean _ _ _ _ _ _ _ I). exact (proj1 (build_clean_root _ _ _ _ _ _ _ K B)).
Qed.
Print Assumptions C37_get_key.
(** What an iteration over a hive shows. *)
Definition view (recover post : bool) (buffer : list N) : option (list key_node) :=
  match build keep 0 no_hash recover false buffer [] with
  | Ok p => match iterate 20 p None false false post with Ok ks => Some ks | _ => None end
  | _ => None
  end.
Definition offsets (o : option (list key_node)) : option (list N) := option_map (map kn_offset) o.
Example C37_example :
  known_file_type scan_hive
  /\ offsets (view false false scan_hive) = Some [4128; 4216]
  /\ offsets (view true false scan_hive) = Some [4128; 4320; 4216]
  /\ view false false scan_hive = option_map live_keys (view true false scan_hive).
Proof. split; [exact scan_known|]. split; [vm_compute; reflexivity|]. split; vm_compute; reflexivity. Qed.
(** In post-order recovery changes the order of allocated keys: the root comes
    before its sub-key. *)
Theorem C37_postorder_refuted : exists buffer ks ks',
  known_file_type buffer /\ view false true buffer = Some ks /\ view true true buffer = Some ks'
  /\ map kn_offset ks = [4216; 4128] /\ map kn_offset (live_keys ks') = [4128; 4216].
Proof.
  exists scan_hive.
  assert (E : option_map (map kn_offset) (view false true scan_hive) = Some [4216; 4128]
    /\ option_map (fun ks => map kn_offset (live_keys ks)) (view true true scan_hive) = Some [4128; 4216])
    by (split; vm_compute; reflexivity).
  destruct E as [E F]. destruct (view false true scan_hive) as [ks|]; [|discriminate E].
  destruct (view true true scan_hive) as [ks'|]; [|discriminate F]. exists ks, ks'. injection E as E. injection F as F.
  split; [exact scan_known|]. auto.
Qed.
Print Assumptions C37_postorder_refuted.

(** C51. A hive without logs whose bins are filled with cells opens with recovery.
    What is missing: logs, and bins that are not filled with cells, where it is
    false. *)
Theorem C51_opens_with_recovery_partial : forall order fuel hash full buffer e bins,
  known_file_type buffer -> 4096 <= len buffer -> bytes_at buffer 0 4 = [114; 101; 103; 102] ->
  tiled buffer e 4096 bins -> e <= len buffer -> num_at buffer 40 4 <= e ->
  bin_header buffer 4096 -> nk_ok (rest_at buffer 4128) -> N.testbit (num_at buffer 4134 2) 2 = true ->
  exists p, build order fuel hash true full buffer [] = Ok p.
Proof.
  intros order fuel hash full buffer e bins A B C D E F G H I.
  destruct (covered buffer full hash order fuel e bins A B C D E F G H I) as (p & P & _). now exists p.
Qed.
Print Assumptions C51_opens_with_recovery_partial.
Example C51_example :
  tiled scan_hive 12288 4096 scan_bins
  /\ exists p, build keep 0 no_hash true false scan_hive [] = Ok p.
Proof.
  destruct C39_example as (A & B & C & D & E & F & G & H & I & _). split; [exact D|].
  exact (C51_opens_with_recovery_partial keep 0 no_hash false _ _ _ A B C D E F G H I).
Qed.
(** A hive that opens, and shows two keys, does not open with recovery. *)
Theorem C51_unfilled_bin_refuted : exists buffer ks, known_file_type buffer
  /\ view false false buffer = Some ks /\ length ks = 2%nat
  /\ build keep 0 no_hash true false buffer [] = Err.
Proof.
  exists zero_hive. assert (E : option_map (@length key_node) (view false false zero_hive) = Some 2%nat) by (vm_compute; reflexivity).
  destruct (view false false zero_hive) as [ks|]; [|discriminate E]. exists ks. injection E as E.
  split; [left; vm_compute; reflexivity|]. split; [reflexivity|]. split; [exact E|vm_compute; reflexivity].
Qed.
Print Assumptions C51_unfilled_bin_refuted.
