(** C81: where the bytes of a value lie in the file. *)
From Verif Require Import Base BaseFacts LayoutSpec LayoutFacts Types Value Node Recover Parser TxLog TxSpec CellSpec CellFacts CellData TreeSpec TreeOpen Pure
  Demo DemoCell DemoTree DemoScan DemoLog DemoExport DemoCompare WhereSpec WhereFacts PropsCell PropsScan PropsVersion.

(** For every file and its logs, opened without recovery, and every value of every key
    that an iteration shows: the value has one position and its bytes are there, or
    it has more than 16344 bytes and its pieces are found from its positions. *)
Theorem C81_where : forall order fuel hash full buffer files p n f ancestors modified post ks k v, known_file_type buffer ->
  build order fuel hash false full buffer files = Ok p -> bytes_ok (ps_buffer p) -> ps_root p <> None ->
  iterate n p f ancestors modified post = Ok ks -> In k ks -> In v (kn_values k) -> lies_in (ps_buffer p) (fi_hbin (ps_file p)) v.
Proof. exact shown_lies. Qed.
Print Assumptions C81_where.
(** A hive with three values: one within its own cell, two in other cells. *)
Definition placed (p : parser) : list (list N * option (list N)) :=
  match iterate 20 p None false true false with Ok ks => map (fun v => (kv_data_offsets v, vd_bytes (kv_detail v))) (flat_map kn_values ks) | _ => [] end.
Example C81_example : known_file_type demo_hive /\ exists p, build keep 20 whole false false demo_hive [] = Ok p
  /\ bytes_ok (ps_buffer p) /\ ps_root p <> None
  /\ placed p = [([4548], Some [1; 0; 0; 0]); ([4620], Some [1; 2; 3; 4; 5; 6]); ([4644], Some [65; 0])].
Proof.
  split; [exact (proj1 demo_header)|].
  assert (X : exists p, build keep 20 whole false false demo_hive [] = Ok p /\ forallb (fun x => x <? 256) (ps_buffer p) = true
    /\ match ps_root p with Some _ => true | None => false end = true
    /\ placed p = [([4548], Some [1; 0; 0; 0]); ([4620], Some [1; 2; 3; 4; 5; 6]); ([4644], Some [65; 0])]).
  { refine (checked _ (fun p => forallb (fun x => x <? 256) (ps_buffer p) && match ps_root p with Some _ => true | None => false end
      && match placed p with [([a], Some x); ([b], Some y); ([c], Some z)] => (a =? 4548) && (b =? 4620) && (c =? 4644) && beq x [1; 0; 0; 0] && beq y [1; 2; 3; 4; 5; 6] && beq z [65; 0]
         | _ => false end) _ _ _); [|vm_compute; reflexivity].
    intros p H. rewrite !andb_true_iff in H. destruct H as ((H1 & H2) & H3). split; [exact H1|]. split; [exact H2|].
    destruct (placed p) as [|([|a [|]] & [x|]) [|([|b [|]] & [y|]) [|([|c [|]] & [z|]) [|]]]]; try discriminate H3. rewrite !andb_true_iff in H3.
    destruct H3 as (((((A & B) & C) & D) & E) & F). apply N.eqb_eq in A, B, C. apply beq_eq in D, E, F. now subst. }
  destruct X as (p & B & O & R & P). exists p. split; [exact B|]. split; [|split; [intros Z; rewrite Z in R; discriminate R|exact P]].
  apply Forall_forall. intros x I. rewrite forallb_forall in O. specialize (O x I). now apply N.ltb_lt.
Qed.
(** The same holds of the values recovered from the free space of any file, with or
    without logs: they lie in the file that was scanned, as it was before the logs. *)
Theorem C81_recovered : forall order fuel hash full buffer files p n f ancestors modified post ks k v, known_file_type buffer -> bytes_ok buffer ->
  build order fuel hash true full buffer files = Ok p -> iterate n p f ancestors modified post = Ok ks -> In k ks -> In v (kn_values k) ->
  is_deleted_primary_file (kv_state v) = true -> lies_in buffer 4096 v.
Proof.
  intros order fuel hash full buffer files p n f ancestors modified post ks k v K O B I IK IV D.
  destruct (C38_recovered_items order fuel hash full buffer files p K B) as (l & _ & H). destruct (H _ _ _ _ _ _ _ I IK) as (_ & V).
  exact (reported_lies (scanned buffer) _ l v O (V v IV D)).
Qed.
Print Assumptions C81_recovered.
(** The hive of [C38_example] shows two such values. *)
Definition recovered_at (p : parser) : list (list N * option (list N)) :=
  match iterate 20 p None false false false with
  | Ok ks => map (fun v => (kv_data_offsets v, vd_bytes (kv_detail v))) (List.filter (fun v => is_deleted_primary_file (kv_state v)) (flat_map kn_values ks))
  | _ => []
  end.
Example C81_recovered_example : known_file_type scan_hive /\ bytes_ok scan_hive
  /\ match build keep 0 no_hash true false scan_hive [] with Ok p => recovered_at p | _ => [] end
     = [([4420], Some [7; 0; 0; 0]); ([4464], Some [7; 0; 0; 0])].
Proof.
  split; [exact scan_known|]. split; [|vm_compute; reflexivity].
  apply Forall_forall. intros x I. apply N.ltb_lt. revert x I. apply forallb_forall. vm_compute. reflexivity.
Qed.
(** The positions of a value in pieces are not those of its bytes, although they
    are in the field for absolute offsets: they are counted from the start of the
    bins, and the sizes of the cells come first. *)
Definition moved_file : file_info := mkFI 8 (repeat 0 8 ++ big_file).
Theorem C81_pieces_refuted : forall st, let v := read_value_bytes moved_file st (demo_kv 16345 0 3) in
  vd_bytes (kv_detail v) = Some (seg1 ++ [9]) /\ kv_data_offsets v = [32; 16384]
  /\ (forall n, ~ stored (fi_buffer moved_file) 32 (firstn (S n) seg1)) /\ stored (fi_buffer moved_file) (8 + 32 + 4) seg1.
Proof.
  intros st v. destruct C24_example as (_ & _ & SG & F & BC & SZ).
  assert (M : forall off s, stored big_file (0 + off) s -> stored (fi_buffer moved_file) (8 + off) s).
  { intros off s (pre & post & E & L). exists (repeat 0 8 ++ pre), post. split; [cbn [moved_file fi_buffer]; now rewrite E, <- app_assoc|].
    rewrite len_app, L. reflexivity. }
  assert (F' : Forall2 (segment_cell moved_file) [32; 16384] [seg1; [9]]).
  { clear - F M. induction F as [|o s l1 l2 (z & Z1 & Z2 & Z3) F IH]; [constructor|]. constructor; [|exact IH]. exists z. split; [exact Z1|]. split; [exact Z2|]. exact (M _ _ Z3). }
  destruct (C24_big_data moved_file st (demo_kv 16345 0 3) [seg1; [9]] [32; 16384]) as (A & B & _); [exact SG|exact F'| |exact SZ| |].
  - destruct BC as (z & lo & ls & B1 & B2 & B3 & B4 & B5 & B6 & B7). exists z, lo, ls. repeat (split; [assumption|]). split; [exact (M _ _ B6)|exact (M _ _ B7)].
  - rewrite <- SZ. cbn. lia.
  - fold v in A, B. split; [exact A|]. split; [exact B|]. split.
    + intros n S. destruct S as (pre & post & E & L). assert (X : nth_error (fi_buffer moved_file) 32 = Some 7).
      { rewrite E. rewrite nth_error_app2 by (unfold len in L; lia). replace (32 - List.length pre)%nat with O by (unfold len in L; lia). reflexivity. }
      discriminate X.
    + inversion F' as [|? ? ? ? (z & Z1 & Z2 & pre & post & E & L)]; subst. exists (pre ++ enc_i32 z), post.
      split; [rewrite E; now rewrite <- !app_assoc|]. rewrite len_app, L. cbn [moved_file fi_hbin]. change (len (enc_i32 z)) with 4. reflexivity.
Qed.
Print Assumptions C81_pieces_refuted.
(** An earlier version of a value has the position of then. The file has other
    bytes there now. *)
Theorem C81_versions_refuted : exists p, build keep 20 whole true false dirty_hive [log_file 2 [change_one]] = Ok p
  /\ exists ks k v w x b, iterate 20 p None false true false = Ok ks /\ In k ks /\ In v (kn_values k) /\ In w (kv_versions v)
  /\ kv_data_offsets w = [x] /\ vd_bytes (kv_detail w) = Some b /\ b <> [] /\ ~ stored (ps_buffer p) x b.
Proof.
  refine (checked _ (fun p => match iterate 20 p None false true false with Ok [_; _; k; _] => match kn_values k with [v] => match kv_versions v with [w] =>
    match kv_data_offsets w, vd_bytes (kv_detail w) with [x], Some (c :: b) => negb (beq (bytes_at (ps_buffer p) x (len (c :: b))) (c :: b)) | _, _ => false end
    | _ => false end | _ => false end | _ => false end) _ _ _); [|vm_compute; reflexivity].
  intros p H. destruct (iterate _ _ _ _ _ _) as [ks| | |]; try discriminate H. destruct ks as [|k1 [|k2 [|k [|k4 [|]]]]]; try discriminate H.
  destruct (kn_values k) as [|v [|]] eqn:V; try discriminate H. destruct (kv_versions v) as [|w [|]] eqn:W; try discriminate H.
  destruct (kv_data_offsets w) as [|x [|]] eqn:X; try discriminate H; destruct (vd_bytes (kv_detail w)) as [[|c b]|] eqn:Y; try discriminate H.
  exists [k1; k2; k; k4], k, v, w, x, (c :: b). split; [reflexivity|]. split; [cbn; auto|]. rewrite V, W. split; [now left|]. split; [now left|].
  split; [exact X|]. split; [exact Y|]. split; [discriminate|]. intros S. apply stored_there in S. rewrite S in H.
  assert (Z : beq (c :: b) (c :: b) = true) by now apply beq_eq. now rewrite Z in H.
Qed.
Print Assumptions C81_versions_refuted.
