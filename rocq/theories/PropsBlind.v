(** What counts as a change: statements only, with a concrete case beside each. *)
From Coq Require Import Permutation String.
From Verif Require Import Base BaseFacts Util UtilSpec LayoutSpec Types Value Node Recover Parser TxSpec TxLog CellSpec TreeSpec Secure
  Compare CompareSpec CompareTree BlindFacts Demo DemoCell DemoTree DemoLog DemoExport DemoCompare DemoOrder PropsCell PropsCompare PropsSecure.
Open Scope N_scope.
Open Scope list_scope.

(** ** C79: which changes are reported *)
(** A comparison reports nothing exactly when both hives have the same keys with the
    same flags, times and access bits, and the same values with the same types, flags
    and data. *)
Theorem C79_no_change_iff : forall order n hash t1 t2 p1 p2 f,
  compared_hive hash t1 p1 -> compared_hive hash t2 p2 -> (forall q, f = Some q -> below_root q) ->
  (2 * List.length (positions t1) < n)%nat -> (2 * List.length (positions t2) < n)%nat -> (forall m, Permutation (order m) m) ->
  exists ks1 ks2 c, iterate n p1 f false true false = Ok ks1 /\ iterate n p2 f false true false = Ok ks2 /\ reg_compare order n p1 p2 f = Ok c
  /\ (no_collision hash ks1 ks2 -> (c = no_changes <-> (forall x, In x (contents ks1) <-> In x (contents ks2)))).
Proof. exact hives_same. Qed.
Print Assumptions C79_no_change_iff.
(** The conditions are those of C42_hives; its example is a case with changes. *)

(** What else is shown of a key is not compared: two hives of one key whose security
    descriptors are not the same. *)
Definition other_rights : list N := header 1 1 32 4096 ++ hbin_head 0 4096 ++ nk_bytes secured_nk n_root ++ sk 120 ++ sk 152 ++ repeat 0 16.
Theorem C79_security_refuted : exists ps k1 k2, opened_pair secured_hive other_rights = Ok ps
  /\ iterate 9 (fst ps) None false true false = Ok [k1] /\ iterate 9 (snd ps) None false true false = Ok [k2]
  /\ get_security_descriptors (fun b => Some b) k1 (fst ps) = Ok [[1; 2; 3; 152]; [1; 2; 3; 120]]
  /\ get_security_descriptors (fun b => Some b) k2 (snd ps) = Ok [[1; 2; 3; 120]]
  /\ reg_compare (fun m => m) 9 (fst ps) (snd ps) None = Ok no_changes.
Proof.
  assert (X : exists ps, opened_pair secured_hive other_rights = Ok ps /\ exists k1 k2,
    iterate 9 (fst ps) None false true false = Ok [k1] /\ iterate 9 (snd ps) None false true false = Ok [k2]
    /\ get_security_descriptors (fun b => Some b) k1 (fst ps) = Ok [[1; 2; 3; 152]; [1; 2; 3; 120]]
    /\ get_security_descriptors (fun b => Some b) k2 (snd ps) = Ok [[1; 2; 3; 120]]
    /\ reg_compare (fun m => m) 9 (fst ps) (snd ps) None = Ok no_changes).
  { apply (checked _ (fun ps => match iterate 9 (fst ps) None false true false, iterate 9 (snd ps) None false true false, reg_compare (fun m => m) 9 (fst ps) (snd ps) None with
      | Ok [k1], Ok [k2], Ok (mkChanges [] [] [] [] [] []) =>
          match get_security_descriptors (fun b => Some b) k1 (fst ps), get_security_descriptors (fun b => Some b) k2 (snd ps) with
          | Ok [a; b], Ok [c] => beq a [1; 2; 3; 152] && beq b [1; 2; 3; 120] && beq c [1; 2; 3; 120] | _, _ => false end
      | _, _, _ => false end)).
    - intros ps H. destruct (iterate 9 (fst ps) None false true false) as [[|k1 [|]]| | |]; try discriminate H.
      destruct (iterate 9 (snd ps) None false true false) as [[|k2 [|]]| | |]; try discriminate H.
      destruct (reg_compare _ _ _ _ _) as [[[|] [|] [|] [|] [|] [|]]| | |]; try discriminate H. exists k1, k2. split; [reflexivity|]. split; [reflexivity|].
      destruct (get_security_descriptors _ k1 _) as [[|a [|b [|]]]| | |]; try discriminate H.
      destruct (get_security_descriptors _ k2 _) as [[|c [|]]| | |]; try discriminate H.
      apply andb_true_iff in H as (H & H3). apply andb_true_iff in H as (H1 & H2). apply beq_eq in H1, H2, H3. subst. now repeat split.
    - vm_compute. reflexivity. }
  destruct X as (ps & E & k1 & k2 & H). exists ps, k1, k2. split; [exact E|exact H].
Qed.
Print Assumptions C79_security_refuted.
(** The same of the versions that logs leave: an entry that makes \R\A point to other
    security descriptors leaves no earlier version of it. *)
Fixpoint forallb2 {A B} (f : A -> B -> bool) (a : list A) (b : list B) : bool :=
  match a, b with x :: a, y :: b => f x y && forallb2 f a b | [], [] => true | _, _ => false end.
Definition other_owner : written := mkW 0 2 4096 [(168, [8; 7; 0; 0])] [].
Theorem C79_versions_refuted : exists p q ks ls, build keep 20 whole false false order_hive [] = Ok p
  /\ build keep 20 whole true false order_hive [log_file 2 [other_owner]] = Ok q
  /\ iterate 20 p None false true false = Ok ks /\ iterate 20 q None false true false = Ok ls
  /\ map kn_path ks = map kn_path ls
  /\ map (fun k => kd_security (kn_detail k)) ks = [0; 0; 0; 0; 0] /\ map (fun k => kd_security (kn_detail k)) ls = [0; 1800; 0; 0; 0]
  /\ Forall (fun k => kn_versions k = []) ls /\ st_modified_keys (ps_state q) = [].
Proof.
  assert (X : exists p, build keep 20 whole false false order_hive [] = Ok p /\ exists ks, iterate 20 p None false true false = Ok ks
    /\ map kn_path ks = map path_of [[]; [65]; [65; 66]; [65; 66; 67]; [65; 66; 68]] /\ map (fun k => kd_security (kn_detail k)) ks = [0; 0; 0; 0; 0]).
  { apply (checked _ (fun p => match iterate 20 p None false true false with Ok [a; b; c; d; e] =>
      forallb2 (fun k x => beq (kn_path k) (path_of x)) [a; b; c; d; e] [[]; [65]; [65; 66]; [65; 66; 67]; [65; 66; 68]]
      && beq (map (fun k => kd_security (kn_detail k)) [a; b; c; d; e]) [0; 0; 0; 0; 0] | _ => false end)).
    - intros p H. destruct (iterate 20 p None false true false) as [[|a [|b [|c [|d [|e [|]]]]]]| | |]; try discriminate H.
      apply andb_true_iff in H as (H1 & H2). apply beq_eq in H2. eexists. split; [reflexivity|]. split; [|exact H2].
      cbn [forallb2] in H1. repeat match goal with X : andb _ _ = true |- _ => apply andb_true_iff in X as [? ?] end.
      repeat match goal with X : beq (kn_path _) _ = true |- _ => apply beq_eq in X end. cbn [map]. congruence.
    - vm_compute. reflexivity. }
  assert (Y : exists q, build keep 20 whole true false order_hive [log_file 2 [other_owner]] = Ok q /\ exists ls, iterate 20 q None false true false = Ok ls
    /\ map kn_path ls = map path_of [[]; [65]; [65; 66]; [65; 66; 67]; [65; 66; 68]] /\ map (fun k => kd_security (kn_detail k)) ls = [0; 1800; 0; 0; 0]
    /\ Forall (fun k => kn_versions k = []) ls /\ st_modified_keys (ps_state q) = []).
  { apply (checked _ (fun q => match iterate 20 q None false true false with Ok [a; b; c; d; e] =>
      forallb2 (fun k x => beq (kn_path k) (path_of x)) [a; b; c; d; e] [[]; [65]; [65; 66]; [65; 66; 67]; [65; 66; 68]]
      && beq (map (fun k => kd_security (kn_detail k)) [a; b; c; d; e]) [0; 1800; 0; 0; 0]
      && forallb (fun k => match kn_versions k with [] => true | _ => false end) [a; b; c; d; e]
      && match st_modified_keys (ps_state q) with [] => true | _ => false end | _ => false end)).
    - intros q H. destruct (iterate 20 q None false true false) as [[|a [|b [|c [|d [|e [|]]]]]]| | |]; try discriminate H.
      apply andb_true_iff in H as (H & H4). apply andb_true_iff in H as (H & H3). apply andb_true_iff in H as (H1 & H2). apply beq_eq in H2. eexists. split; [reflexivity|].
      cbn [forallb2] in H1. repeat match goal with X : andb _ _ = true |- _ => apply andb_true_iff in X as [? ?] end.
      repeat match goal with X : beq (kn_path _) _ = true |- _ => apply beq_eq in X end. split; [cbn [map]; congruence|]. split; [exact H2|]. split.
      + apply Forall_forall. rewrite forallb_forall in H3. intros k K. specialize (H3 k K). now destruct (kn_versions k).
      + now destruct (st_modified_keys (ps_state q)).
    - vm_compute. reflexivity. }
  destruct X as (p & P & ks & I & A & B), Y as (q & Q & ls & J & C & D & E & F). exists p, q, ks, ls.
  split; [exact P|]. split; [exact Q|]. split; [exact I|]. split; [exact J|]. split; [now rewrite A, C|]. repeat (split; [assumption|]). assumption.
Qed.
Print Assumptions C79_versions_refuted.
