(** Which bytes of a hive matter (property C84). The specification is FillSpec.v
    with TreeSpec.v. *)
From Verif Require Import Base BaseFacts Util UtilSpec LayoutSpec Types Value Node Recover Parser TxLog TxSpec
  CellSpec TreeSpec TreeOpen TreeCount LiveSpec FillSpec FillFacts FillView FillField Demo DemoTree DemoExport DemoFill.

(** However the open places are filled, and whatever follows the end, the file is
    a hive of the same keys and values: all that is proved of hives holds of it. *)
Theorem C84_hive : forall sheet buf t, laid_out sheet t -> filled sheet buf -> bytes_ok buf -> hive buf t.
Proof. exact fill_hive. Qed.
Print Assumptions C84_hive.

(** Two files (with or without logs) that differ only in open places list the
    same keys with the same values, in either order. *)
Theorem C84_same : forall sheet t, laid_out sheet t -> forall order1 fuel1 hash1 full1 buffer1 files1 p1 order2 fuel2 hash2 full2 buffer2 files2 p2 n anc m post,
  known_file_type buffer1 -> bytes_ok buffer1 -> Forall bytes_ok files1 ->
  build order1 fuel1 hash1 false full1 buffer1 files1 = Ok p1 -> filled sheet (ps_buffer p1) ->
  known_file_type buffer2 -> bytes_ok buffer2 -> Forall bytes_ok files2 ->
  build order2 fuel2 hash2 false full2 buffer2 files2 = Ok p2 -> filled sheet (ps_buffer p2) ->
  (2 * length (positions t) < n)%nat ->
  exists ks1 ks2, iterate n p1 None anc m post = Ok ks1 /\ iterate n p2 None anc m post = Ok ks2 /\ Forall2 same_key ks1 ks2
  /\ shown ks1 (if post then postorder [] t else preorder [] t).
Proof. exact fill_same. Qed.
Print Assumptions C84_same.

(** The time, the flags, the counts, the offsets and all other fields of the keys
    are the same too. *)
Theorem C84_fields : forall sheet t, laid_out sheet t -> forall order1 fuel1 hash1 full1 buffer1 files1 p1 order2 fuel2 hash2 full2 buffer2 files2 p2 n anc m post ks1 ks2,
  known_file_type buffer1 -> bytes_ok buffer1 -> Forall bytes_ok files1 ->
  build order1 fuel1 hash1 false full1 buffer1 files1 = Ok p1 -> filled sheet (ps_buffer p1) ->
  known_file_type buffer2 -> bytes_ok buffer2 -> Forall bytes_ok files2 ->
  build order2 fuel2 hash2 false full2 buffer2 files2 = Ok p2 -> filled sheet (ps_buffer p2) ->
  (2 * length (positions t) < n)%nat -> iterate n p1 None anc m post = Ok ks1 -> iterate n p2 None anc m post = Ok ks2 ->
  Forall2 (fun a b => same_fields (kn_detail a) (kn_detail b)) ks1 ks2.
Proof. exact fill_fields. Qed.
Print Assumptions C84_fields.

(** Every look-up finds the same key in both, or nothing in both. *)
Theorem C84_found : forall sheet t, laid_out sheet t -> clean_names t -> forall order1 fuel1 hash1 full1 buffer1 files1 p1 order2 fuel2 hash2 full2 buffer2 files2 p2,
  known_file_type buffer1 -> bytes_ok buffer1 -> Forall bytes_ok files1 ->
  build order1 fuel1 hash1 false full1 buffer1 files1 = Ok p1 -> filled sheet (ps_buffer p1) -> num_at (ps_buffer p1) 36 4 = 32 ->
  known_file_type buffer2 -> bytes_ok buffer2 -> Forall bytes_ok files2 ->
  build order2 fuel2 hash2 false full2 buffer2 files2 = Ok p2 -> filled sheet (ps_buffer p2) -> num_at (ps_buffer p2) 36 4 = 32 ->
  forall path, Forall scalar path -> exists fuel, forall n, (fuel <= n)%nat -> exists o1 q1 o2 q2,
  get_key n p1 (utf8 path) false = Ok (o1, q1) /\ get_key n p2 (utf8 path) false = Ok (o2, q2)
  /\ match o1, o2 with Some a, Some b => same_key a b | None, None => True | _, _ => False end.
Proof. exact fill_found. Qed.
Print Assumptions C84_found.

(** The hive of DemoTree.v, and a file with 199 in all open places and two bytes
    behind the end: both open. *)
Example C84_example : laid_out demo_sheet demo_tree /\ clean_names demo_tree /\ noisy_hive <> demo_hive
  /\ List.filter (fun s => s =? open_byte) (skipn 4096 demo_sheet) <> []
  /\ known_file_type demo_hive /\ bytes_ok demo_hive /\ known_file_type noisy_hive /\ bytes_ok noisy_hive
  /\ exists p1 p2, build keep 0 no_hash false false demo_hive [] = Ok p1 /\ filled demo_sheet (ps_buffer p1) /\ num_at (ps_buffer p1) 36 4 = 32
     /\ build keep 0 no_hash false false noisy_hive [] = Ok p2 /\ filled demo_sheet (ps_buffer p2) /\ num_at (ps_buffer p2) 36 4 = 32.
Proof.
  destruct demo_header as (K & R & H & C). destruct noisy_header as (K' & R' & B'). pose proof demo_is_hive as HV.
  split; [exact demo_laid_out|]. split; [exact C|]. split; [intros E; apply (f_equal (@length N)) in E; revert E; vm_compute; discriminate|].
  split; [vm_compute; discriminate|]. split; [exact K|]. split; [apply HV|]. split; [exact K'|]. split; [exact B'|].
  destruct (hive_opens keep 0 no_hash false demo_hive demo_tree K R HV) as (p & E & B & _).
  destruct (hive_opens keep 0 no_hash false noisy_hive demo_tree K' R' (C84_hive _ _ _ demo_laid_out noisy_filled B')) as (q & E' & BQ & _).
  exists p, q. rewrite B, BQ. split; [exact E|]. split; [exact demo_filled|]. split; [exact H|]. split; [exact E'|]. split; [exact noisy_filled|].
  vm_compute. reflexivity.
Qed.

(** With recovery on, what is in the open places may show up as deleted items, but
    the live keys and their values are the same. *)
Theorem C84_live : forall sheet t, laid_out sheet t -> forall order1 order1' fuel1 fuel1' hash1 full1 buffer1 files1 p1 q1 order2 order2' fuel2 fuel2' hash2 full2 buffer2 files2 p2 q2
    n1 n2 anc m ks1 ks2,
  known_file_type buffer1 -> bytes_ok buffer1 -> Forall bytes_ok files1 ->
  build order1 fuel1 hash1 false full1 buffer1 files1 = Ok p1 -> filled sheet (ps_buffer p1) -> build order1' fuel1' hash1 true full1 buffer1 files1 = Ok q1 ->
  known_file_type buffer2 -> bytes_ok buffer2 -> Forall bytes_ok files2 ->
  build order2 fuel2 hash2 false full2 buffer2 files2 = Ok p2 -> filled sheet (ps_buffer p2) -> build order2' fuel2' hash2 true full2 buffer2 files2 = Ok q2 ->
  iterate n1 q1 None anc m false = Ok ks1 -> iterate n2 q2 None anc m false = Ok ks2 ->
  Forall2 same_key (live_keys ks1) (live_keys ks2) /\ shown (live_keys ks1) (preorder [] t).
Proof. exact fill_live_same. Qed.
Print Assumptions C84_live.
(** A deleted key in the free space is shown by one and not by the other. *)
Example C84_live_example : known_file_type ghost_hive /\ bytes_ok ghost_hive
  /\ (exists p, build keep 0 no_hash false false ghost_hive [] = Ok p /\ filled demo_sheet (ps_buffer p))
  /\ (exists q, build keep 0 no_hash true false demo_hive [] = Ok q
      /\ exists ks, iterate 20 q None false true false = Ok ks /\ map kn_state ks = [Allocated; Allocated; Allocated; Allocated])
  /\ (exists q, build keep 0 no_hash true false ghost_hive [] = Ok q
      /\ exists ks, iterate 20 q None false true false = Ok ks /\ map kn_state ks = [Allocated; DeletedPrimaryFile; Allocated; Allocated; Allocated]).
Proof.
  destruct ghost_header as (K & R & B). split; [exact K|]. split; [exact B|]. split; [|split].
  - destruct (hive_opens keep 0 no_hash false ghost_hive demo_tree K R (C84_hive _ _ _ demo_laid_out ghost_filled B)) as (p & E & BQ & _).
    exists p. rewrite BQ. split; [exact E|exact ghost_filled].
  - refine (checked _ (fun p => match iterate 20 p None false true false with
      | Ok ks => match map kn_state ks with [Allocated; Allocated; Allocated; Allocated] => true | _ => false end | _ => false end) _ _ _); [|vm_compute; reflexivity].
    intros p E. destruct (iterate 20 p None false true false) as [ks| | |]; try discriminate. exists ks. split; [reflexivity|].
    repeat match goal with H : context [match ?x with _ => _ end] |- _ => destruct x; try discriminate end. reflexivity.
  - refine (checked _ (fun p => match iterate 20 p None false true false with
      | Ok ks => match map kn_state ks with [Allocated; DeletedPrimaryFile; Allocated; Allocated; Allocated] => true | _ => false end | _ => false end) _ _ _); [|vm_compute; reflexivity].
    intros p E. destruct (iterate 20 p None false true false) as [ks| | |]; try discriminate. exists ks. split; [reflexivity|].
    repeat match goal with H : context [match ?x with _ => _ end] |- _ => destruct x; try discriminate end. reflexivity.
Qed.
