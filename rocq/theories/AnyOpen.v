(** Iterating over an opened file, whatever its contents. *)
From Verif Require Import Base BaseFacts Util UtilSpec UtilText UtilLz LayoutSpec LayoutFacts HeaderFacts BaseBlock Types Value Node Recover
  Parser TxLog TxSpec TxParse TxApply NodeFrame TxBuild CellSpec CellFacts CellData CellList CellRead TreeSpec TreeRead TreeIter TreeOpen AnyFile.

Lemma text_root n : is_text n -> is_text (92 :: n).
Proof. intros T. change (92 :: n) with ([92] ++ n). apply text_app; [apply text_slash|exact T]. Qed.
(** What opening any file leaves. *)
Record any_opened (p : parser) : Prop := {
  ao_bytes : bytes_ok (ps_buffer p);
  ao_quiet : quiet (ps_state p);
  ao_root : exists k, ps_root p = Some k /\ fresh_key (ps_file p) (mkOpt 4128 [] None true None true) k
              /\ cachedr (92 :: kn_name k) (ps_state p) }.
Lemma read_some fi st o st' : op_filter o = None -> kn_read fi st o <> Ok (None, st').
Proof.
  intros NF. unfold kn_read. destruct (get_from _ _); cbn [ok_or]; [|discriminate]. unfold read_from_slice.
  destruct (kn_from_bytes _ _ _ _ _) as [[n r]| | |]; try discriminate. cbv beta iota. rewrite NF. cbv beta iota.
  destruct (if _ && _ then _ else _) as [n1| | |]; try discriminate; cbv beta iota;
    destruct (if op_modified o then _ else _); discriminate.
Qed.
Lemma build_any order fuel hash full buffer files p : known_file_type buffer ->
  build order fuel hash false full buffer files = Ok p -> bytes_ok (ps_buffer p) ->
  any_opened p.
Proof.
  intros K E B. destruct (build_plain _ _ _ _ _ _ _ K E) as (P & _ & st & S & R).
  pose proof (plain_quiet _ _ _ P) as Q.
  assert (QS : quiet st) by (eapply quiet_info; [symmetry; exact S|exact Q]).
  assert (Z : st_root_offset (ps_state p) = 0).
  { destruct P as [_ P]. assert (X : st_root_offset (set_info [] (ps_state p)) = 0) by now rewrite P. exact X. }
  assert (ZS : st_root_offset st = 0).
  { assert (X : st_root_offset (set_info [] st) = 0) by (rewrite S; exact Z). exact X. }
  destruct (read_any (ps_file p) st (mkOpt 4128 [] None true None true) [92] B eq_refl text_nil (or_introl eq_refl) (or_introl ZS) (or_intror QS))
    as [F|(c & st' & F & _ & _ & FK)]; rewrite R in F; [discriminate|]. injection F as F _.
  destruct (ps_root p) as [k|] eqn:PR; [|now apply read_some in R]. split; try assumption. exists k. split; [exact PR|]. split; [now apply FK|].
  now left.
Qed.
Lemma any_iterate p n f anc m post : any_opened p -> no_list_cycle (ps_file p) -> (2 * S (N.to_nat (len (ps_buffer p))) < n)%nat ->
  exists ks, iterate n p f anc m post = Ok ks /\ NoDup (map kn_offset ks)
  /\ Forall (fun k => exists names, lineage (ps_file p) 4128 names (kn_offset k) /\ kn_path k = path_of names) ks.
Proof.
  intros [B Q (k & R & F & C)] NC L. unfold iterate.
  destruct F as (E1 & E2 & E3 & E4 & E5 & E6 & E7). cbn [op_offset op_path] in *.
  assert (PK : kn_path k = 92 :: kn_name k) by exact E3.
  assert (TO : top_offset (ps_file p) 4128 = len (ps_buffer p)) by (unfold top_offset; change (fi_buffer (ps_file p)) with (ps_buffer p) in *; lia).
  assert (G : good_cx (ps_file p) 4128 (92 :: kn_name k) (from_parser p m f anc)).
  { unfold from_parser. rewrite R. split; cbn [cx_modified cx_state cx_stack cx_return cx_offsets app map pend].
    - now right.
    - exact C.
    - constructor; [|constructor]. split; [rewrite PK; now apply text_root|]. split; [exists []; rewrite app_nil_r; auto|].
      split; [exact E6|]. split; [exact E7|]. exists [kn_name k]. rewrite E1. split.
      + apply from_root. rewrite <- E1. apply E7.
      + cbn. now rewrite app_nil_r.
    - unfold pend. cbn. repeat constructor. intros [].
    - unfold pend. cbn. intros x I. exact I.
    - repeat constructor. intros [].
    - constructor; [|constructor]. rewrite TO, E1. exact E2.
    - cbn. lia. }
  destruct (collect_any (ps_file p) 4128 (92 :: kn_name k) B eq_refl NC post n _ G) as (ks & E & ND & FG & _).
  - unfold potential, left_over. rewrite TO. unfold from_parser. rewrite R. cbn [cx_stack cx_offsets cx_return length]. lia.
  - exists ks. split; [exact E|]. split; [exact ND|]. eapply Forall_impl; [|exact FG]. cbv beta. intros x (_ & _ & _ & _ & X). exact X.
Qed.
(** Without a root key - a file of an unknown type - there is one empty key. *)
Lemma no_root_iterate p n f anc m post : ps_root p = None -> (2 < n)%nat -> f_is_valid f = false \/ anc = true ->
  iterate n p f anc m post = Ok [default_key].
Proof.
  intros R L V. unfold iterate, from_parser. rewrite R. destruct n as [|[|[|n]]]; try lia. cbn [collect].
  destruct post.
  - cbn. now destruct anc.
  - assert (X : visit (ps_file p) (cx_set_stack [] (mkCx (ps_state p) f [default_key] [0] [] m anc)) default_key
      = Ok (default_key, mkCx (ps_state p) f [] [0] [] m anc)) by reflexivity.
    cbn [next_key_preorder cx_stack]. change (kn_offset default_key) with 0. rewrite X. cbv beta iota. cbn [cx_ancestors cx_filter].
    replace (_ || _ || _) with true; [reflexivity|]. destruct V as [-> | ->]; [cbn; now rewrite orb_true_r|reflexivity].
Qed.
