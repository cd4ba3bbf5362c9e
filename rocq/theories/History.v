(** What holds of an opened hive still holds after any history of calls. *)
From Verif Require Import Base BaseFacts Util UtilSpec UtilText UtilLz LayoutSpec LayoutFacts HeaderFacts BaseBlock Types Value Node Recover
  Parser TxLog TxSpec TxParse TxApply NodeFrame TxBuild CellSpec CellFacts CellData CellList CellRead
  TreeSpec TreeRead TreeIter TreeOpen TreeFilter TreeLook TreeUse AnyFile AnyOpen Pure.

Section Cached.
Context (rp : list N) (fi : file_info).
Hypothesis HD : hd_error rp = Some 92.
Lemma under_longer p s : under rp p -> under rp (p ++ [92] ++ s).
Proof.
  intros (r & -> & R). exists (r ++ [92] ++ s). split; [now rewrite <- app_assoc|]. right.
  destruct R as [-> |R]; [reflexivity|]. destruct r; [discriminate|exact R].
Qed.
Lemma read_cached st o c st' : op_filter o = None \/ under rp (op_path o) -> cachedr rp st -> op_modified o = false \/ quiet st ->
  kn_read fi st o = Ok (c, st') -> cachedr rp st' /\ forall k, c = Some k -> under rp (op_path o) -> under rp (kn_path k).
Proof.
  intros U C M. unfold kn_read. destruct (get_from _ _) as [s|]; [|discriminate]. cbn [ok_or]. unfold read_from_slice.
  destruct (kn_cases st s (op_offset o) (op_path o) (op_seq o)) as [(_ & name & w & _ & ->)|(_ & ->)]; [|discriminate]. cbv beta iota.
  set (k0 := kn_at st s (op_offset o) (op_path o) (op_seq o) name w).
  destruct (match op_filter o with Some f => check_cell f st k0 | None => Ok (IterateKeys, st) end) as [[fl s1]| | |] eqn:CC; try discriminate.
  cbv beta iota. assert (X : cachedr rp s1 /\ root_only st s1).
  { destruct (op_filter o) as [f|]; [|injection CC as _ <-; split; [exact C|apply root_only_refl]]. destruct U as [U|U]; [discriminate|].
    split; [|now apply check_cell_state in CC]. destruct (under_sub rp (op_path o) name U) as (x & PX).
    eapply check_cell_cached; [exact HD| |exact C|exact CC]. exact PX. }
  destruct X as (C1 & R1).
  assert (Y : forall k1 k3, (if (0 <? kd_nvalues (kn_detail k0)) && should_read_values (op_filter o) fl (op_self_match o)
    then let* (k, ok) := read_values fi s1 (op_seq o) k0 in Ok (if ok : bool then k else kn_add_log WarningParse k)
    else Ok k0) = Ok k1 -> (if op_modified o then update_modified_lists (uml_fuel s1) s1 k1 else Ok k1) = Ok k3 -> kn_path k3 = kn_path k0).
  { intros k1 k3 E1 E3. assert (kn_path k1 = kn_path k0) as <-.
    { destruct (_ && _); [|now injection E1 as <-]. destruct (read_values _ _ _ _) as [[k' ok]| | |] eqn:RV; try discriminate.
      apply read_values_keeps in RV as (_ & P & _). injection E1 as <-. destruct ok; exact P. }
    destruct (op_modified o); [|now injection E3 as <-]. destruct M as [M|M]; [discriminate|].
    unfold uml_fuel in E3. rewrite uml_quiet in E3 by (eapply quiet_root_only'; eassumption). now injection E3 as <-. }
  assert (Q : forall k, kn_path k = kn_path k0 -> under rp (op_path o) -> under rp (kn_path k)).
  { intros k -> UP. unfold k0. rewrite kn_path_at. now apply under_longer. }
  destruct fl; [now intros [= <- <-]| |];
    (destruct (if _ && _ then _ else _) as [k1| | |] eqn:E1; try discriminate; cbv beta iota zeta;
     match goal with |- context [if op_modified o then update_modified_lists ?n ?s ?k else _] =>
       destruct (if op_modified o then update_modified_lists n s k else Ok k) as [k3| | |] eqn:E3; try discriminate end;
     intros [= <- <-]; split; [exact C1|]; intros k [= <-]; apply Q).
  - now apply (Y k1).
  - assert (E4 : exists k4, (if op_modified o then update_modified_lists (uml_fuel s1) s1 k1 else Ok k1) = Ok k4 /\ kn_path k4 = kn_path k3).
    { destruct (op_modified o); [|injection E3 as <-; now exists k1]. destruct M as [M|M]; [discriminate|].
      unfold uml_fuel in *. rewrite uml_quiet in * by (eapply quiet_root_only'; eassumption). injection E3 as <-. now exists k1. }
    destruct E4 as (k4 & E4 & <-). now apply (Y k1).
Qed.
Lemma children_cached path sm f sf seq m offs : under rp path -> forall st cs found logs st', cachedr rp st -> m = false \/ quiet st ->
  read_children fi st path sm f sf seq m offs = Ok (cs, found, logs, st') -> cachedr rp st' /\ Forall (fun k => under rp (kn_path k)) cs.
Proof.
  intros U. induction offs as [|o r IH]; intros st cs found logs st' C M; cbn [read_children]; [intros [= <- _ _ <-]; split; [exact C|constructor]|].
  destruct (kn_read fi st _) as [[c s1]| | |] eqn:E; try discriminate.
  - assert (R1 := kn_read_state _ _ _ _ _ E). apply read_cached in E as (C1 & UK); [|now right|exact C|exact M]. cbn [op_path] in UK.
    assert (M1 : m = false \/ quiet s1) by (destruct M; [now left|right; eapply quiet_root_only'; eassumption]).
    destruct c as [c|]; [|now apply IH].
    destruct (read_children fi s1 path sm f sf seq m r) as [[[[cs' fd] lg] s2]| | |] eqn:E2; try discriminate.
    apply IH in E2 as (C2 & F2); [|exact C1|exact M1]. intros [= <- _ _ <-]. split; [exact C2|]. constructor; [|exact F2].
    specialize (UK c eq_refl U). unfold child_filter_state. destruct (kn_filter c); [exact UK|]. destruct sm; [exact UK|]. destruct (f_is_valid f); exact UK.
  - destruct (read_children fi st path sm f sf seq m r) as [[[[cs' fd] lg] s2]| | |] eqn:E2; try discriminate.
    apply IH in E2; [|exact C|exact M]. now intros [= <- _ _ <-].
Qed.
Lemma sub_keys_cached st k f seq m k' cs b st' : under rp (kn_path k) -> cachedr rp st -> m = false \/ quiet st ->
  read_sub_keys_internal fi st k f seq m = Ok (k', cs, b, st') -> cachedr rp st' /\ Forall (fun k => under rp (kn_path k)) cs.
Proof.
  intros U C M. unfold read_sub_keys_internal. destruct (is_allocated _); [|intros [= _ <- _ <-]; split; [exact C|constructor]].
  destruct (_ <? _); [intros [= _ <- _ <-]; split; [exact C|constructor]|].
  destruct (_ <? _); [|intros [= _ <- _ <-]; split; [exact C|constructor]].
  destruct (parse_sub_key_list _ _ _) as [offs| | |]; try discriminate; [|intros [= _ <- _ <-]; split; [exact C|constructor]].
  destruct (read_children _ _ _ _ _ _ _ _ _) as [[[[cs' fd] lg] s2]| | |] eqn:E2; try discriminate. cbv beta iota zeta.
  apply children_cached in E2; auto. now intros [= _ <- _ <-].
Qed.
Lemma gsk_cached f seq : forall fuel st k o st', under rp (kn_path k) -> cachedr rp st ->
  get_sub_key_internal fuel fi st k f seq = Ok (o, st') -> cachedr rp st'.
Proof.
  induction fuel as [|fuel IH]; intros st k o st' U C; [discriminate|]. cbn [get_sub_key_internal].
  destruct (read_sub_keys_internal fi st k f seq false) as [[[[n cs] found] s]| | |] eqn:E; try discriminate.
  apply sub_keys_cached in E as (C1 & F); auto. cbv beta iota. destruct found; [intros [= _ <-]; exact C1|].
  revert s C1. induction F as [|c r Uc F I]; intros s C1; [intros [= _ <-]; exact C1|].
  destruct (get_sub_key_internal fuel fi s c f seq) as [[o2 s2]| | |] eqn:G; try discriminate. apply IH in G; auto.
  cbv beta iota. destruct o2; [intros [= _ <-]; exact G|]. now apply I.
Qed.
Lemma by_path_cached fuel st k path o st' : under rp (kn_path k) -> cachedr rp st ->
  get_sub_key_by_path fuel fi st k path = Ok (o, st') -> cachedr rp st'.
Proof. intros U C. unfold get_sub_key_by_path. destruct path; [intros [= _ <-]; auto|]. now apply gsk_cached. Qed.
Lemma by_index_cached st k i k' c st' : cachedr rp st -> quiet st ->
  get_sub_key_by_index fi st k i = Ok (k', c, st') -> cachedr rp st'.
Proof.
  intros C Q. unfold get_sub_key_by_index. destruct (_ <? _); [|intros [= _ _ <-]; auto].
  destruct (parse_sub_key_list _ _ _); try discriminate; [|intros [= _ _ <-]; auto].
  destruct (get_at _ _); [|intros [= _ _ <-]; auto].
  destruct (kn_read _ _ _) as [[c2 s]| | |] eqn:E; try discriminate; [|intros [= _ _ <-]; auto].
  apply read_cached in E as (X & _); [|now left|exact C|now right]. now intros [= _ _ <-].
Qed.
Lemma under_offset path st o st' : under rp path -> cachedr rp st -> st_get_root_path_offset st path = (o, st') -> cachedr rp st'.
Proof.
  intros (r & -> & R) C. unfold st_get_root_path_offset. destruct (_ =? _); [|now intros [= _ <-]]. intros [= _ <-].
  destruct R as [-> |R].
  - rewrite app_nil_r. unfold cachedr. cbn [set_root_offset st_root_offset].
    destruct rp as [|c n]; [discriminate|]. injection HD as ->. unfold rv, get_root_path_offset. cbn [app]. change (92 =? 92) with true. cbv beta iota.
    assert (X : find_byte 92 n = None \/ find_byte 92 n = find_byte 92 (n ++ [92])).
    { clear. induction n as [|c n IH]; [now left|]. cbn [app find_byte]. destruct (c =? 92); [now right|].
      destruct IH as [-> | ->]; [now left|now right]. }
    destruct X as [-> | ->]; [now left|now right].
  - destruct r as [|c r]; [discriminate|]. injection R as ->. right. cbn [set_root_offset st_root_offset]. now apply rv_child.
Qed.
End Cached.

(** ** Histories *)
Lemma used_cached rp p p' : hd_error rp = Some 92 -> quiet (ps_state p) -> cachedr rp (ps_state p) ->
  (forall q k q', moved p q -> get_root_key q = Ok (Some k, q') -> kn_path k = rp) ->
  used (fun k => under rp (kn_path k)) p p' -> quiet (ps_state p') /\ cachedr rp (ps_state p').
Proof.
  intros HD Q C RA U.
  assert (QQ : forall q, moved p q -> quiet (ps_state q)) by (intros q (s & -> & R); cbn; eapply quiet_root_only'; eassumption).
  assert (RK : forall q k q', moved p q -> cachedr rp (ps_state q) -> get_root_key q = Ok (k, q') -> cachedr rp (ps_state q')).
  { intros q k q' MV CQ. unfold get_root_key. destruct (ps_base_block q); [|now intros [= _ <-]].
    destruct (kn_read _ _ _) as [[r s]| | |] eqn:E; try discriminate. intros [= _ <-]. cbn.
    eapply (read_cached rp) in E as (X & _); [exact X|exact HD|now left|exact CQ|right; now apply QQ]. }
  split; [apply QQ; eapply used_moved; exact U|].
  induction U as [|p1 p2 k U IH E|p1 p2 fuel path hr k U IH E|p1 p2 parent name k U IH KO E|p1 p2 child k U IH KO E
    |p1 parent k ks st U IH KO E|p1 fuel parent path k st U IH KO E|p1 parent i k c st U IH KO E|p1 parent k c st U IH KO E];
    try (pose proof (used_moved _ _ _ U) as MV); try (pose proof (QQ _ MV) as Q1).
  - exact C.
  - eapply RK; eassumption.
  - unfold get_key in E. destruct (get_root_key p1) as [[[r|] p3]| | |] eqn:G; try discriminate.
    + pose proof (RK _ _ _ MV IH G) as C3.
      destruct (get_sub_key_by_path _ _ _ _ _) as [[o s]| | |] eqn:B; try discriminate. injection E as _ <-. cbn.
      eapply (by_path_cached rp); [exact HD| |exact C3|exact B]. rewrite (RA _ _ _ MV G). exists []. rewrite app_nil_r. auto.
    + injection E as _ <-. eapply RK; eassumption.
    + injection E as _ <-. exact IH.
  - unfold get_sub_key in E. destruct (st_get_root_path_offset _ _) as [o s] eqn:R.
    assert (RS := R). apply root_path_offset_state in RS.
    apply (under_offset rp HD) in R; [|exact KO|exact IH].
    destruct (str_from _ _); try discriminate. cbv beta iota zeta in E.
    destruct (read_sub_keys_internal _ _ _ _ _ _) as [[[[n cs] found] s2]| | |] eqn:G; try discriminate.
    apply (sub_keys_cached rp) in G as (G & _); auto. injection E as _ <-. exact G.
  - unfold get_parent_key in E. cbv zeta in E.
    destruct (kn_read _ _ _) as [[r s]| | |] eqn:G; try discriminate. injection E as _ <-. cbn.
    eapply (read_cached rp) in G as (X & _); [exact X|exact HD|now left|exact IH|now right].
  - unfold read_sub_keys in E. destruct (read_sub_keys_internal _ _ _ _ _ _) as [[[[n cs] found] s2]| | |] eqn:G; try discriminate.
    apply (sub_keys_cached rp) in G as (G & _); auto. injection E as _ _ <-. exact G.
  - cbn. eapply (by_path_cached rp); eassumption.
  - cbn. eapply (by_index_cached rp); eassumption.
  - cbn. unfold next_sub_key in E. destruct (get_sub_key_by_index _ _ _ _) as [[[n [c2|]] s2]| | |] eqn:G; try discriminate;
    injection E as _ _ <-; eapply (by_index_cached rp); eassumption.
Qed.

(** ** An opened hive stays one *)
Lemma cachedr_cached root st : ~ In 92 root -> Forall scalar root -> cachedr (utf8 (spelled [root])) st <-> cached root st.
Proof.
  intros NI S. unfold cachedr, cached. replace (rv (utf8 (spelled [root]))) with (root_part root); [reflexivity|].
  unfold rv, root_part. cbn [spelled flat_map]. rewrite app_nil_r. change (utf8 (92 :: root)) with (92 :: utf8 root). cbn [app].
  unfold get_root_path_offset. change (92 =? 92) with true. cbv beta iota.
  rewrite find_byte_first; [reflexivity|]. now apply utf8_no_slash.
Qed.
Lemma opened_used t p p' : opened t p -> num_at (ps_buffer p) 36 4 = 32 -> clean_names t ->
  used (fun k => under (utf8 (spelled [t_name t])) (kn_path k)) p p' -> opened t p'.
Proof.
  intros O R CL U. destruct (opened_clean _ _ O CL) as (NI & S).
  destruct (used_cached (utf8 (spelled [t_name t])) p p') as (Q & C); auto.
  - apply O.
  - apply cachedr_cached; auto. apply O.
  - intros q k q' (st & -> & RO) G.
    assert (Q : quiet st) by (eapply quiet_root_only'; [exact RO|apply O]).
    unfold get_root_key in G. destruct (od_header _ _ O) as (name & BB).
    change (ps_base_block (ps_set_state st p)) with (ps_base_block p) in G. rewrite BB in G.
    change (ps_file (ps_set_state st p)) with (ps_file p) in G. change (ps_hbin (ps_set_state st p)) with (ps_hbin p) in G.
    change (ps_state (ps_set_state st p)) with st in G.
    replace (w64 _) with (t_pos t) in G.
    2:{ destruct (od_hive _ _ O) as (_ & _ & TP & _). rewrite (od_hbin _ _ O), TP. cbn [base_block_at bb_base header_at bb_root_offset].
        rewrite <- to_i32_at, R. reflexivity. }
    destruct (opened_facts _ _ O) as (B & H & T).
    destruct (key_load (ps_file p) st true t [] true true B H T (or_intror Q)) as (k2 & K & LD).
    rewrite K in G. injection G as <- _. destruct LD as (? & ? & ? & BK & _).
    destruct BK as (_ & _ & BP & _). rewrite BP. cbn [spelled flat_map]. now rewrite app_nil_r.
  - destruct (used_moved _ _ _ U) as (st & -> & RO). apply opened_state; auto. apply cachedr_cached; auto.
Qed.
