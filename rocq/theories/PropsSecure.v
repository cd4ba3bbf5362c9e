(** C28: the security descriptors of the keys of a hive. *)
From Verif Require Import Base BaseFacts LayoutSpec LayoutFacts CellSpec CellFacts CellData CellList CellExtra Types Value Node Parser TreeSpec TxLog TxSpec
  Pure TreeSession NavRead DateTree TreeCount Secure Demo DemoCell DemoTree DemoExport PropsCell.
Open Scope N_scope.
Open Scope list_scope.

(** For every key that an iteration returns: if its cell names a circular list of
    security cells, their descriptors are returned, in that order. *)
Theorem C28_of_key : forall D (parse_sd : list N -> option D) buffer files t p ok p' n anc m post ks k sds ds,
  opens buffer files t p -> used ok p p' -> iterate n p' None anc m post = Ok ks -> In k ks ->
  let start := num_at (ps_buffer p) (kn_offset k + 48) 4 in
  security_ring (ps_buffer p) (fi_hbin (ps_file p)) start start sds -> Forall2 (fun sd d => parse_sd sd = Some d) sds ds ->
  get_security_descriptors parse_sd k p' = Ok ds.
Proof.
  intros D parse_sd buffer files t p ok p' n anc m post ks k sds ds O U I K start R F.
  pose proof (iterate_born _ _ _ _ _ _ _ _ _ _ _ O U I) as B. rewrite Forall_forall in B. destruct (B k K) as (_ & full & E).
  destruct (used_moved _ _ _ U) as (st & -> & _). unfold get_security_descriptors. cbn [ps_set_state ps_file]. rewrite E. cbn [nk_detail_at kd_security].
  apply (security_ring_read parse_sd _ _ _ sds ds); [|exact F]. unfold start in R.
  replace (num_at (rest_at (fi_buffer (ps_file p)) (kn_offset k)) 48 4) with (num_at (fi_buffer (ps_file p)) (kn_offset k + 48) 4); [exact R|].
  symmetry. unfold num_at, bytes_at, rest_at. rewrite skipn_skipn. do 3 f_equal. lia.
Qed.
Print Assumptions C28_of_key.
(** A hive of one key with two security cells. *)
Definition secured_nk : nk_detail :=
  {| kd_size := (-88)%Z; kd_flags := 0x2C; kd_time := 0; kd_access := 0; kd_parent := 0%Z; kd_nsub := 0; kd_nvol := 0; kd_sublist := 2 ^ 32 - 1; kd_vollist := (-1)%Z;
     kd_nvalues := 0; kd_vallist := (-1)%Z; kd_security := 120; kd_class := (-1)%Z; kd_max_name := 0; kd_max_class := 0; kd_max_value_name := 0; kd_max_value_data := 0;
     kd_work := 0; kd_name_size := 1; kd_class_size := 0; kd_slack := repeat 0 7; kd_full := None |}.
Definition secured_hive : list N := header 1 1 32 4096 ++ hbin_head 0 4096 ++ nk_bytes secured_nk n_root ++ sk 152 ++ sk 120 ++ repeat 0 16.
Lemma secured_is_hive : hive secured_hive (KeyTree 4128 n_root [] []).
Proof.
  split; [apply bytes_check; vm_compute; reflexivity|]. split; [vm_compute; reflexivity|]. split; [reflexivity|]. split.
  - apply (key_stored _ true 4128 n_root _ _ secured_nk n_root); [key_fits|reflexivity|split; [now apply bytes_check|reflexivity]|reflexivity|at_place| | |constructor];
      split; [reflexivity|now left|reflexivity|now left].
  - constructor; [intros []|constructor].
Qed.
Example C28_of_key_example : exists p k, opens secured_hive [] (KeyTree 4128 n_root [] []) p /\ iterate 20 p None false true false = Ok [k]
  /\ num_at (ps_buffer p) (kn_offset k + 48) 4 = 120
  /\ security_ring (ps_buffer p) (fi_hbin (ps_file p)) 120 120 [[1; 2; 3; 152]; [1; 2; 3; 120]].
Proof.
  assert (K : known_file_type secured_hive) by (left; vm_compute; reflexivity).
  destruct (hive_opens keep 0 no_hash false secured_hive _ K eq_refl secured_is_hive) as (p & E & B & _).
  assert (X : exists p, build keep 0 no_hash false false secured_hive [] = Ok p /\ exists k, iterate 20 p None false true false = Ok [k] /\ kn_offset k = 4128 /\ fi_hbin (ps_file p) = 4096).
  { apply (checked _ (fun p => match iterate 20 p None false true false with Ok [k] => (kn_offset k =? 4128) && (fi_hbin (ps_file p) =? 4096) | _ => false end)).
    - intros q. destruct (iterate 20 q None false true false) as [[|k [|]]| | |]; try discriminate 1. intros Y. apply andb_true_iff in Y as (Y & Z). exists k.
      split; [reflexivity|]. split; now apply N.eqb_eq.
    - vm_compute. reflexivity. }
  destruct X as (q & EQ & k & I & OF & H). rewrite E in EQ. injection EQ as <-. exists p, k.
  split; [split; [exact K|]; split; [rewrite B; exact secured_is_hive|]; exists keep, O, no_hash, false; exact E|]. split; [exact I|]. rewrite B, OF, H.
  split; [vm_compute; reflexivity|].
  assert (C : forall off next, In (off, next) [(120, 152); (152, 120)] -> security_cell secured_hive 4096 off next [1; 2; 3; next]).
  { intros off next J. exists (-32)%Z, 0, 0, 1.
    repeat destruct J as [J|J]; try contradiction; injection J as <- <-; (split; [unfold i32; lia|]; repeat (split; [reflexivity|])); at_place. }
  apply ring_more with 152; [apply C; cbn; tauto|discriminate|]. apply ring_end. apply C; cbn; tauto.
Qed.
