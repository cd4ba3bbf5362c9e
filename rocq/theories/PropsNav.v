(** C53: moving through a hive with keys in hand. *)
From Verif Require Import Base BaseFacts Util UtilSpec LayoutSpec Types Node Parser TxSpec TxLog TreeSpec Pure TreeIter TreeUse TreeCount TreeSession
  CellSpec TreeOpen Demo DemoCell DemoTree DemoExport NavSpec NavFacts NavRoot.

(** A key in hand shows exactly one key of the tree, and calls with it keep the
    parser in use. *)
Theorem C53_shown : forall buffer files t p0 p k, navigating buffer files t p0 p k ->
  key_of t k /\ exists names s, stands_at t k names s /\ key_shown k names s
  /\ forall names' s', stands_at t k names' s' -> names' = names /\ s' = s.
Proof. exact nav_shown. Qed.
Print Assumptions C53_shown.
(** Its sub keys, all at once, by index and one after the other: the ones of the
    tree, in that order. *)
Theorem C53_sub_keys : forall buffer files t p0 p k, navigating buffer files t p0 p k -> forall names s, stands_at t k names s ->
  exists k' ks, read_sub_keys (ps_file p) (ps_state p) k = Ok (k', ks, ps_state p) /\ shown ks (map (fun c => (names ++ [t_name c], c)) (t_subs s)).
Proof. exact nav_sub_keys. Qed.
Print Assumptions C53_sub_keys.
Theorem C53_by_index : forall buffer files t p0 p k, navigating buffer files t p0 p k -> forall names s, stands_at t k names s -> forall i,
  exists o, get_sub_key_by_index (ps_file p) (ps_state p) k i = Ok (k, o, ps_state p)
  /\ match nth_error (t_subs s) (N.to_nat i) with
     | Some c => exists kid, o = Some kid /\ key_shown kid (names ++ [t_name c]) c
     | None => o = None
     end.
Proof. exact nav_by_index. Qed.
Print Assumptions C53_by_index.
Theorem C53_next : forall buffer files t p0 p k, navigating buffer files t p0 p k -> forall names s, stands_at t k names s ->
  forall n, (length (t_subs s) < n)%nat ->
  exists ks, all_next n (ps_file p) (ps_state p) (kn_set_index 0 k) = Ok ks /\ shown ks (map (fun c => (names ++ [t_name c], c)) (t_subs s)).
Proof. exact nav_next. Qed.
Print Assumptions C53_next.
(** A sub key by its name, of any key but the root: the first one with that name
    but for case. *)
Theorem C53_by_name_partial : forall buffer files t p0 p k, navigating buffer files t p0 p k -> forall names s, stands_at t k names s ->
  forall name, kn_offset k <> t_pos t -> Forall scalar name -> ~ In 92 name -> name <> [] ->
  exists o p', get_sub_key p k (utf8 name) = Ok (o, p')
  /\ match find (fun c => same_name (t_name c) name) (t_subs s) with
     | Some c => exists kid, o = Some kid /\ key_shown kid (names ++ [t_name c]) c
     | None => o = None
     end.
Proof. exact nav_name. Qed.
Print Assumptions C53_by_name_partial.
(** A key below it by a path of names. *)
Theorem C53_by_path : forall buffer files t p0 p k, navigating buffer files t p0 p k -> forall names s, stands_at t k names s ->
  forall above segs b fuel, names = above ++ [t_name s] -> Forall (Forall scalar) segs -> Forall (fun n => ~ In 92 n) segs -> segs <> [] ->
  hd_error (rev segs) <> Some [] -> (length segs <= fuel)%nat ->
  exists o st', get_sub_key_by_path fuel (ps_file p) (ps_state p) k (utf8 (joined segs ++ repeat 92 b)) = Ok (o, st')
  /\ match hd_error (reached above segs s) with
     | None => o = None
     | Some y => exists k', o = Some k' /\ key_shown k' (fst y) (snd y)
     end.
Proof. exact nav_by_path. Qed.
Print Assumptions C53_by_path.
(** Its parent. *)
Theorem C53_parent : forall buffer files t p0 p k, navigating buffer files t p0 p k -> forall names s, stands_at t k names s ->
  forall names' s', In (names', s') (preorder [] t) -> In s (t_subs s') ->
  exists k', get_parent_key p k = Ok (Some k', p) /\ key_shown k' names' s'.
Proof. exact nav_parent. Qed.
Print Assumptions C53_parent.
(** The root has no parent, but its cell names one: if that is a key of the hive, it
    is returned, and shown as if it were the root. *)
Theorem C53_root_parent : forall buffer files t p0 p k, navigating buffer files t p0 p k -> forall s, stands_at t k [t_name t] s ->
  forall x', In x' (preorder [] t) -> num_at (ps_buffer p0) (t_pos t + 20) 4 < 0x80000000 -> num_at (ps_buffer p0) (t_pos t + 20) 4 + 4096 = t_pos (snd x') ->
  exists k', get_parent_key p k = Ok (Some k', p) /\ key_shown k' [t_name (snd x')] (snd x').
Proof. exact nav_root_parent. Qed.
Print Assumptions C53_root_parent.
(** Its values, one after the other. *)
Theorem C53_values : forall k n, (length (kn_values k) < n)%nat -> value_iter n k 0 = kn_values k.
Proof. intros k n L. apply (value_iter_from k n 0). lia. Qed.
Print Assumptions C53_values.

Lemma demo_parents : parents_stored demo_hive demo_tree.
Proof.
  intros x s I J. cbn in I. repeat (destruct I as [<-|I]; [cbn in J; repeat (destruct J as [<-|J]; [split; vm_compute; reflexivity|]); contradiction J|]). contradiction I.
Qed.
Lemma demo_start : exists p, opens demo_hive [] demo_tree p /\ num_at (ps_buffer p) 36 4 = 32 /\ parents_stored (ps_buffer p) demo_tree.
Proof.
  destruct demo_header as (K & R & H & C).
  destruct (hive_opens keep 0 no_hash false demo_hive demo_tree K R demo_is_hive) as (p & E & B & _).
  exists p. split; [split; [exact K|]; split; [rewrite B; exact demo_is_hive|]; exists keep, O, no_hash, false; exact E|].
  rewrite B. split; [exact H|exact demo_parents].
Qed.
(** The root in hand, and a sub key of it reached from there. *)
Example C53_example : exists p k c, navigating demo_hive [] demo_tree p p k /\ stands_at demo_tree k [n_root] demo_tree
  /\ navigating demo_hive [] demo_tree p p c /\ stands_at demo_tree c [n_root; n_alpha] t_alpha /\ kn_offset c <> t_pos demo_tree
  /\ In t_alpha (t_subs demo_tree) /\ t_subs t_alpha = [t_beta].
Proof.
  destruct demo_start as (p & OP & R & PS). assert (CN : clean_names demo_tree) by (repeat constructor; cbn; intuition discriminate).
  assert (U : used (key_of demo_tree) p p) by constructor.
  destruct (opened_read_root demo_tree p (opens_opened _ _ _ _ OP) R) as (k & GR & W). exists p, k.
  assert (NK : navigating demo_hive [] demo_tree p p k).
  { split; [exact OP|]. split; [exact CN|]. split; [exact R|]. split; [exact PS|]. split; [|exact U]. exact (by_root _ _ p k p U GR). }
  assert (AK : stands_at demo_tree k [n_root] demo_tree) by (split; [now left|]; apply (waits_shown _ _ _ W)).
  destruct (C53_by_index _ _ _ _ _ _ NK _ _ AK 0) as (o & E & c & -> & (KO & _)). exists c. split; [exact NK|]. split; [exact AK|].
  split; [|split; [split; [right; left; reflexivity|exact KO]|split; [rewrite KO; discriminate|split; [now left|reflexivity]]]].
  split; [exact OP|]. split; [exact CN|]. split; [exact R|]. split; [exact PS|]. split; [|exact U].
  apply (by_index _ _ p k 0 k (Some c) (ps_state p) c); [apply NK|exact U|exact E|now right].
Qed.
(** On the root itself the look-up by name finds nothing in a parser just opened,
    though the sub key is there, and panics once another look-up has been made. *)
Theorem C53_by_name_on_root_refuted : exists p, build keep 0 no_hash false false demo_hive [] = Ok p
  /\ exists k q, get_root_key p = Ok (Some k, q)
  /\ (exists p', get_sub_key p k n_alpha = Ok (None, p')) /\ (exists c p', get_key 5 p n_alpha false = Ok (Some c, p') /\ get_sub_key p' k n_alpha = Panic).
Proof.
  apply (checked _ (fun p => match get_root_key p with
    | Ok (Some k, _) => match get_sub_key p k n_alpha with Ok (None, _) => true | _ => false end
        && match get_key 5 p n_alpha false with Ok (Some c, p') => match get_sub_key p' k n_alpha with Panic => true | _ => false end | _ => false end
    | _ => false end)).
  - intros p. destruct (get_root_key p) as [[[k|] p1]| | |] eqn:E; try discriminate 1.
    intros X. apply andb_true_iff in X as (X & Y). exists k, p1. split; [reflexivity|]. split.
    + destruct (get_sub_key p k n_alpha) as [[[c|] p']| | |]; try discriminate X. now exists p'.
    + destruct (get_key 5 p n_alpha false) as [[[c|] p']| | |]; try discriminate Y. exists c, p'. split; [reflexivity|].
      destruct (get_sub_key p' k n_alpha); try discriminate Y. reflexivity.
  - vm_compute. reflexivity.
Qed.
Print Assumptions C53_by_name_on_root_refuted.
(** A hive whose root names its only sub key as its parent: the parent of the root
    is that sub key, at a path that no key of the hive has. *)
Definition turned_hive : list N :=
  header 1 1 32 4096 ++ hbin_head 0 4096
  ++ nk_bytes (tree_nk_in 120%Z 0x2C 1 208 0 (-1)%Z 1 7) n_root ++ nk_bytes (tree_nk_in 32%Z 0x20 0 (2 ^ 32 - 1) 0 (-1)%Z 5 3) n_alpha (* at 32, 120 *)
  ++ cell (list_content [108; 102] [120])                             (* at 208, 16 bytes *)
  ++ enc 4 3872 ++ repeat 0 3868.
Definition turned_leaf : key_tree := KeyTree 4216 n_alpha [] [].
Definition turned_tree : key_tree := KeyTree 4128 n_root [] [turned_leaf].
Lemma turned_is_hive : hive turned_hive turned_tree.
Proof.
  split; [apply bytes_check; vm_compute; reflexivity|]. split; [vm_compute; reflexivity|]. split; [reflexivity|].
  split; [|cbn; repeat (constructor; [cbn; intuition discriminate|]); constructor].
  apply (key_stored _ true 4128 n_root _ _ (tree_nk_in 120%Z 0x2C 1 208 0 (-1)%Z 1 7) n_root); [key_fits|reflexivity|split; [now apply bytes_check|reflexivity]|reflexivity|at_place| | |].
  - split; [reflexivity|]. now left.
  - split; [reflexivity|]. right. split; [discriminate|].
    apply (lf_list (mkFI 4096 turned_hive) 208 (-16)%Z [(120, [0; 0; 0; 0])]); [vm_compute; split; [discriminate|reflexivity]|reflexivity|repeat constructor; reflexivity|at_place].
  - constructor; [|constructor].
    apply (key_stored _ false 4216 n_alpha _ _ (tree_nk_in 32%Z 0x20 0 (2 ^ 32 - 1) 0 (-1)%Z 5 3) n_alpha);
      [key_fits|reflexivity|split; [now apply bytes_check|reflexivity]|reflexivity|at_place| | |constructor].
    + split; [reflexivity|]. now left.
    + split; [reflexivity|]. now left.
Qed.
Theorem C53_root_parent_refuted : exists buffer t p k k', navigating buffer [] t p p k /\ stands_at t k [t_name t] t
  /\ get_parent_key p k = Ok (Some k', p) /\ key_shown k' [n_alpha] turned_leaf
  /\ In ([n_root; n_alpha], turned_leaf) (preorder [] t) /\ ~ In [n_alpha] (map fst (preorder [] t)).
Proof.
  assert (K : known_file_type turned_hive) by (left; vm_compute; reflexivity).
  destruct (hive_opens keep 0 no_hash false turned_hive turned_tree K) as (p & E & B & _); [vm_compute; reflexivity|exact turned_is_hive|].
  exists turned_hive, turned_tree, p. assert (U : used (key_of turned_tree) p p) by constructor.
  assert (OP : opens turned_hive [] turned_tree p).
  { split; [exact K|]. split; [rewrite B; exact turned_is_hive|]. exists keep, O, no_hash, false. exact E. }
  assert (R : num_at (ps_buffer p) 36 4 = 32) by (rewrite B; vm_compute; reflexivity).
  destruct (opened_read_root turned_tree p (opens_opened _ _ _ _ OP) R) as (k & GR & W). exists k.
  assert (NK : navigating turned_hive [] turned_tree p p k).
  { split; [exact OP|]. split; [repeat constructor; cbn; intuition discriminate|]. split; [exact R|].
    split; [|split; [exact (by_root _ _ p k p U GR)|exact U]]. rewrite B.
    intros x s I J. cbn in I. repeat (destruct I as [<-|I]; [cbn in J; repeat (destruct J as [<-|J]; [split; vm_compute; reflexivity|]); contradiction J|]). contradiction I. }
  assert (AK : stands_at turned_tree k [t_name turned_tree] turned_tree) by (split; [now left|]; apply (waits_shown _ _ _ W)).
  destruct (C53_root_parent _ _ _ _ _ _ NK _ AK ([n_root; n_alpha], turned_leaf)) as (k' & G & S); [right; now left|rewrite B; vm_compute; reflexivity|rewrite B; vm_compute; reflexivity|].
  exists k'. split; [exact NK|]. split; [exact AK|]. split; [exact G|]. split; [exact S|]. split; [right; now left|].
  cbn. intros [X|[X|[]]]; discriminate X.
Qed.
Print Assumptions C53_root_parent_refuted.
