(** C76: what the looks of the spreadsheet tell. *)
From Coq Require Import Lia.
From Verif Require Import Base BaseFacts LayoutSpec CellSpec TreeSpec Types Value Node Parser TxLog TxSpec LivePlain Demo DemoTree DemoExport Export ExportSpec XlsxLook LookSpec LookFacts.
Open Scope N_scope.
Open Scope list_scope.

(** C76: in the sheet of the items each row is coloured after the state of its
    item, and what is new is set apart. *)
Theorem C76_looks : forall recovered_only ks,
  len (List.filter (kept recovered_only) (flat_map tsv_items ks)) < 2 ^ 32 ->
  tells_looks (List.filter (kept recovered_only) (flat_map tsv_items ks)) (xlsx_looks recovered_only ks).
Proof. exact export_looks. Qed.
Print Assumptions C76_looks.
(** Without recovery no row is coloured, whatever the file and the logs. *)
Theorem C76_plain : forall order fuel hash full buffer files p n f anc m post ks recovered_only, known_file_type buffer ->
  build order fuel hash false full buffer files = Ok p -> iterate n p f anc m post = Ok ks ->
  len (flat_map tsv_items ks) < 2 ^ 32 -> Forall (fun l => f_font (fst (snd l)) = None) (xlsx_looks recovered_only ks).
Proof. exact plain_looks. Qed.
Print Assumptions C76_plain.
Definition seen (l : N * (format * format)) : N * option N * bool * bool :=
  let '(n, (f, _)) := l in (n, f_font f, f_top f, match f_back f with Some _ => true | None => false end).
(** A key with an earlier version, a value with one, a value and a key from unused
    space, and a key: the versions are not set apart. *)
Example C76_example : len (List.filter (kept false) (flat_map tsv_items e_keys)) < 2 ^ 32
  /\ map seen (xlsx_looks false e_keys) =
    [(1, None, true, true); (2, Some 0x808080, false, true); (3, None, true, false); (4, Some 0x808080, false, false);
     (5, Some 0xA51B1B, true, true); (6, Some 0xA51B1B, true, false); (7, None, true, true)]
  /\ map seen (xlsx_looks true e_keys) =
    [(1, None, true, true); (2, Some 0x808080, false, true); (3, None, true, false); (4, Some 0x808080, false, false);
     (5, Some 0xA51B1B, true, true); (6, Some 0xA51B1B, true, false)].
Proof. split; [vm_compute; reflexivity|]. split; vm_compute; reflexivity. Qed.
Example C76_plain_example : known_file_type demo_hive /\ exists p, build (fun l => l) 0 no_hash false false demo_hive [] = Ok p
  /\ exists ks, iterate 20 p None false true false = Ok ks /\ (len (flat_map tsv_items ks) < 2 ^ 32 /\ List.length (xlsx_looks false ks) = 7%nat).
Proof.
  split; [exact (proj1 demo_header)|].
  apply (checked _ (fun p => match iterate 20 p None false true false with Ok ks => (len (flat_map tsv_items ks) <? 2 ^ 32) && Nat.eqb (List.length (xlsx_looks false ks)) 7 | _ => false end)).
  - intros q. destruct (iterate 20 q None false true false) as [ks| | |]; try discriminate 1. intros X. apply andb_true_iff in X as (X & Y). exists ks. split; [reflexivity|]. split; [now apply N.ltb_lt|now apply Nat.eqb_eq].
  - vm_compute. reflexivity.
Qed.
