(** Proofs about the recovery scan. *)
From Verif Require Import Base BaseFacts LayoutSpec LayoutFacts HeaderFacts BaseBlock Util Types Value Node Recover NodeFrame
  CellSpec CellFacts CellData CellList CellRead ScanSpec.

Definition part (b : list N) (o : N) (s : list N) : Prop := o + len s <= len b /\ s = bytes_at b o (len s).
Lemma bytes_at_app_rest b o n : bytes_at b o n = firstn (N.to_nat n) (rest_at b o). Proof. reflexivity. Qed.
Lemma part_bytes b o n : o + n <= len b -> part b o (bytes_at b o n).
Proof. intros H. split; rewrite len_bytes_at; [lia|]. f_equal. lia. Qed.
Lemma part_rest b o : o <= len b -> part b o (rest_at b o).
Proof.
  intros H. split; rewrite len_rest_at; [lia|]. unfold bytes_at, rest_at. symmetry. apply firstn_len_all. rewrite len_skipn. lia.
Qed.
Lemma bytes_at_bytes b o n x y : x + y <= n -> bytes_at (bytes_at b o n) x y = bytes_at b (o + x) y.
Proof.
  intros H. unfold bytes_at. rewrite skipn_firstn_comm, firstn_firstn. f_equal; [lia|].
  rewrite skipn_skipn. f_equal. lia.
Qed.
Lemma part_sub b o s x y : part b o s -> x + y <= len s -> part b (o + x) (bytes_at s x y) /\ bytes_at s x y = bytes_at b (o + x) y.
Proof.
  intros (L & E) H. rewrite E, bytes_at_bytes by exact H. split; [|reflexivity]. apply part_bytes. lia.
Qed.
Lemma part_skip b o s x : part b o s -> x <= len s -> part b (o + x) (skipn (N.to_nat x) s).
Proof.
  intros P H. destruct (part_sub b o s x (len s - x) P) as [Q _]; [lia|].
  replace (skipn (N.to_nat x) s) with (bytes_at s x (len s - x)); [exact Q|].
  unfold bytes_at. apply firstn_len_all. rewrite len_skipn. lia.
Qed.
Lemma part_num b o s x n : part b o s -> x + n <= len s -> num_at s x n = num_at b (o + x) n.
Proof. intros P H. rewrite !num_at_le. destruct (part_sub b o s x n P H) as [_ E]. now rewrite E. Qed.
Lemma part_i32 b o s : part b o s -> 4 <= len s -> i32_at s 0 = i32_at b o.
Proof. intros P H. rewrite <- !to_i32_at. rewrite (part_num b o s 0 4 P) by lia. now rewrite N.add_0_r. Qed.

(** ** What the scan adds to the state *)
Definition push_all {A} (l : list A) (m : amap (list N) (list A)) : amap (list N) (list A) :=
  fold_left (fun m x => map_push beq [] x m) l m.
Definition grown (st st' : state) (ks : list key_node) (vs : list key_value) : Prop :=
  exists w, st' = mkState (st_root_offset st) (st_full st) (st_info st ++ repeat WarningRecovery w) (st_hasher st)
    (push_all ks (st_deleted_keys st)) (st_modified_keys st) (push_all vs (st_deleted_values st)) (st_modified_values st).
Lemma grown_refl st : grown st st [] [].
Proof. exists O. cbn [repeat push_all fold_left]. rewrite app_nil_r. now destruct st. Qed.
Lemma grown_trans a b c ks vs ks' vs' : grown a b ks vs -> grown b c ks' vs' -> grown a c (ks ++ ks') (vs ++ vs').
Proof.
  intros (w & ->) (w' & ->). exists (w + w')%nat. unfold push_all. rewrite !fold_left_app, repeat_app, app_assoc. reflexivity.
Qed.
Lemma grown_key st k : grown st (set_deleted_keys (map_push beq [] k (st_deleted_keys st)) st) [k] [].
Proof. exists O. cbn [repeat push_all fold_left]. rewrite app_nil_r. reflexivity. Qed.
Lemma grown_value st v : grown st (set_deleted_values (map_push beq [] v (st_deleted_values st)) st) [] [v].
Proof. exists O. cbn [repeat push_all fold_left]. rewrite app_nil_r. reflexivity. Qed.
Lemma grown_info st : grown st (add_info WarningRecovery st) [] [].
Proof. exists 1%nat. reflexivity. Qed.
Lemma grown_agree st0 st st' ks vs : agree false st0 st -> grown st st' ks vs -> agree false st0 st'.
Proof. intros (A & B & C & _) (w & ->). split; [exact A|]. split; [exact B|]. split; [exact C|]. discriminate. Qed.

(** Reading a key in the scan. *)
Definition scan_opt (o : N) : read_options := mkOpt o [] None true None false.
Lemma scan_read fi st0 st s o : agree false st0 st ->
  (nk_ok s /\ exists k, read_from_slice fi st s (scan_opt o) = Ok (Some k, st)
     /\ (exists st', read_from_slice fi st0 s (scan_opt o) = Ok (Some k, st'))
     /\ kn_detail k = nk_detail_at (st_full st) s /\ kn_offset k = o /\ kn_deleted k = [])
  \/ (~ nk_ok s /\ read_from_slice fi st s (scan_opt o) = Err).
Proof.
  intros A. destruct (kn_cases st s o [] None) as [(O & n & w & _ & E)|(O & E)].
  - left. split; [exact O|].
    assert (R : exists k, read_from_slice fi st s (scan_opt o) = Ok (Some k, st) /\ kn_detail k = nk_detail_at (st_full st) s /\ kn_offset k = o /\ kn_deleted k = []).
    { unfold read_from_slice. cbn [scan_opt op_offset op_path op_seq op_filter op_self_match op_modified]. rewrite E. cbv beta iota.
      destruct (_ && _).
      - destruct (read_values_total fi st None (kn_at st s o [] None n w)) as (k' & ok & V). rewrite V. cbv beta iota.
        eexists. split; [reflexivity|].
        assert (D : kn_detail k' = nk_detail_at (st_full st) s /\ kn_offset k' = o /\ kn_deleted k' = []).
        { unfold read_values in V. destruct (_ && _) in V; [|now injection V as <- _].
          destruct (1048576 <? _) in V; [now injection V as <- _|]. destruct (parse_key_values _ _ _) in V; [|now injection V as <- _].
          destruct (read_values_loop _ _ _ _ _) as [[[vs' logs'] ok']| | |] in V; try discriminate. now injection V as <- _. }
        destruct ok; exact D.
      - eexists. split; [reflexivity|]. split; [reflexivity|]. split; reflexivity. }
    destruct R as (k & R & D & KO & KD). exists k. split; [exact R|]. split; [|now split].
    pose proof (read_from_slice_agree false st st0 fi s (scan_opt o) eq_refl) as S.
    assert (A' : agree false st st0).
    { destruct A as (A1 & A2 & A3 & _). split; [now symmetry|]. split; [now symmetry|]. split; [now symmetry|]. discriminate. }
    specialize (S A'). rewrite R in S. unfold same in S. destruct (read_from_slice fi st0 s (scan_opt o)) as [[k' st']| | |]; try contradiction.
    destruct S as (-> & _). now exists st'.
  - right. split; [exact O|]. unfold read_from_slice. cbn [scan_opt op_offset op_path op_seq]. now rewrite E.
Qed.

(** ** One cell *)
Section Scan.
Variable fi : file_info.
Variable st0 : state.
Let b := fi_buffer fi.
Definition slack_key (lo hi : N) (k : key_node) : Prop :=
  lo <= kn_offset k /\ exists h, h <= hi /\ key_found fi st0 h DeletedPrimaryFileSlack k.
Definition slack_value (lo hi : N) (v : key_value) : Prop :=
  lo <= kv_offset v /\ exists h, h <= hi /\ value_found fi st0 h DeletedPrimaryFileSlack v.
Lemma slack_key_weaken lo hi lo' hi' k : lo' <= lo -> hi <= hi' -> slack_key lo hi k -> slack_key lo' hi' k.
Proof. intros A B (C & h & D & E). split; [lia|]. exists h. split; [lia|exact E]. Qed.
Lemma slack_value_weaken lo hi lo' hi' k : lo' <= lo -> hi <= hi' -> slack_value lo hi k -> slack_value lo' hi' k.
Proof. intros A B (C & h & D & E). split; [lia|]. exists h. split; [lia|exact E]. Qed.

Definition scans (scan : state -> list N -> N -> res state) (n : N) : Prop :=
  forall st s p, agree false st0 st -> part b p s -> len s < n ->
  exists st' ks vs, scan st s p = Ok st' /\ grown st st' ks vs
  /\ Forall (slack_key p (p + len s)) ks /\ Forall (slack_value p (p + len s)) vs.

Lemma part_bytes_eq o s : part b o s -> bytes_at b o (o + len s - o) = s.
Proof. intros (_ & E). rewrite E at 2. f_equal. lia. Qed.

Lemma recover_key_ok scan st s o cs force : agree false st0 st -> part b o s -> scans scan (len s) ->
  exists st' n ks vs, recover_key scan fi st s o cs force = Ok (st', n) /\ grown st st' ks vs /\ 1 <= n
  /\ Forall (fun k => slack_key (o + 1) (o + N.min (size_at b o) (len s)) k
       \/ (kn_offset k = o /\ (force = true \/ (0 < i32_at b o)%Z) /\ key_found fi st0 (o + len s) cs k)) ks
  /\ Forall (slack_value (o + 1) (o + N.min (size_at b o) (len s))) vs
  /\ (nk_ok s -> force = true \/ (0 < i32_at b o)%Z ->
      exists k, In k ks /\ kn_offset k = o /\ key_found fi st0 (o + len s) cs k).
Proof.
  intros A P S. unfold recover_key. fold (scan_opt o).
  destruct (scan_read fi st0 st s o A) as [(O & k & R & (stz & R0) & D & KO & KD)|(O & R)]; rewrite R; cbv beta iota.
  2:{ exists (add_info WarningRecovery st), 1, [], []. split; [reflexivity|]. split; [apply grown_info|]. split; [lia|].
      split; [constructor|]. split; [constructor|]. intros NK. now destruct O. }
  pose proof O as (L4 & SZ & SG & NM).
  assert (I32 : i32_at s 0 = i32_at b o) by (apply part_i32; assumption).
  assert (SA : size_at b o = abs_size (i32_at s 0)) by (unfold size_at; now rewrite I32).
  set (nl := 80 + num_at s 76 2) in *.
  assert (CS : kn_cell_size k = abs_size (i32_at s 0)) by (unfold kn_cell_size; now rewrite D).
  assert (SL : exists x y, kd_slack (kn_detail k) = bytes_at s x y /\ x + y <= len s /\ x + y <= size_at b o
     /\ kn_slack_offset k = o + x /\ 1 <= x).
  { unfold kn_slack_offset. rewrite D, KO, CS. cbn [nk_detail_at kd_slack]. fold nl. rewrite len_bytes_at.
    destruct (N.le_gt_cases nl (abs_size (i32_at s 0))).
    - exists nl, (abs_size (i32_at s 0) - nl). rewrite SA. repeat split; lia.
    - exists (abs_size (i32_at s 0)), 0. rewrite SA. replace (abs_size (i32_at s 0) - nl) with 0 by lia.
      split; [reflexivity|]. repeat split; lia. }
  destruct SL as (x & y & E1 & XY & XS & E2 & X1). rewrite E1, E2.
  destruct (part_sub b o s x y P XY) as [PS EQ].
  assert (LY : len (bytes_at s x y) = y) by (rewrite len_bytes_at; lia).
  destruct (S st (bytes_at s x y) (o + x) A PS) as (st' & ks & vs & E & G & FK & FV); [lia|].
  rewrite E. cbv beta iota. rewrite LY in FK, FV.
  assert (FK' : Forall (slack_key (o + 1) (o + N.min (size_at b o) (len s))) ks).
  { eapply Forall_impl; [|exact FK]. intros a. apply slack_key_weaken; lia. }
  assert (FV' : Forall (slack_value (o + 1) (o + N.min (size_at b o) (len s))) vs).
  { eapply Forall_impl; [|exact FV]. intros a. apply slack_value_weaken; lia. }
  assert (FR : kn_is_free k = (0 <? i32_at b o)%Z) by (unfold kn_is_free; now rewrite D, <- I32).
  assert (KF : key_found fi st0 (o + len s) cs (kn_set_state cs k)).
  { unfold key_found. cbn [kn_set_state kn_offset]. rewrite KO. fold b. rewrite part_bytes_eq by exact P.
    split; [lia|]. split; [apply P|]. split; [exact O|]. exists k, stz. split; [exact R0|]. split; [repeat split|]. split; [reflexivity|exact KD]. }
  assert (FC : force = true \/ (0 < i32_at b o)%Z <-> force || kn_is_free k = true).
  { rewrite FR, orb_true_iff, Z.ltb_lt. reflexivity. }
  destruct (force || kn_is_free k) eqn:Fo.
  - exists (set_deleted_keys (map_push beq [] (kn_set_state cs k) (st_deleted_keys st')) st'), (kn_cell_size k),
      (ks ++ [kn_set_state cs k]), vs.
    split; [reflexivity|]. split; [rewrite <- (app_nil_r vs); exact (grown_trans _ _ _ _ _ _ _ G (grown_key _ _))|].
    split; [lia|]. split.
    { apply Forall_app. split; [eapply Forall_impl; [|exact FK']; intros a; now left|].
      constructor; [|constructor]. right. split; [exact KO|]. split; [now apply FC|exact KF]. }
    split; [exact FV'|]. intros _ _. exists (kn_set_state cs k). split; [apply in_or_app; right; now left|]. split; [exact KO|exact KF].
  - exists st', 1, ks, vs. split; [reflexivity|]. split; [exact G|]. split; [lia|].
    split; [eapply Forall_impl; [|exact FK']; intros a; now left|]. split; [exact FV'|]. intros _ Q. apply FC in Q. discriminate.
Qed.

Lemma recover_value_ok scan st s o cs force : agree false st0 st -> part b o s -> scans scan (len s) ->
  exists st' n ks vs, recover_value scan fi st s o cs force = Ok (st', n) /\ grown st st' ks vs /\ 1 <= n
  /\ Forall (fun v => slack_value (o + 1) (o + N.min (size_at b o) (len s)) v
       \/ (kv_offset v = o /\ (force = true \/ (0 < i32_at b o)%Z) /\ value_found fi st0 (o + len s) cs v)) vs
  /\ Forall (slack_key (o + 1) (o + N.min (size_at b o) (len s))) ks
  /\ (vk_ok s -> force = true \/ (0 < i32_at b o)%Z ->
      exists v, In v vs /\ kv_offset v = o /\ value_found fi st0 (o + len s) cs v).
Proof.
  intros A P S. unfold recover_value.
  destruct (kv_cases s o None false) as [(O & name & w & _ & R)|(O & R)]; rewrite R; cbv beta iota.
  2:{ exists (add_info WarningRecovery st), 1, [], []. split; [reflexivity|]. split; [apply grown_info|]. split; [lia|].
      split; [constructor|]. split; [constructor|]. intros NK. now destruct O. }
  pose proof O as (L4 & SZ & SG & NM).
  assert (I32 : i32_at s 0 = i32_at b o) by (apply part_i32; assumption).
  assert (SA : size_at b o = abs_size (i32_at s 0)) by (unfold size_at; now rewrite I32).
  set (nl := 24 + num_at s 6 2) in *.
  set (v := kv_at false s o None name w) in *.
  assert (CS : kv_cell_size v = abs_size (i32_at s 0)) by reflexivity.
  assert (SL : exists x y, vd_slack (kv_detail v) = bytes_at s x y /\ x + y <= len s /\ x + y <= size_at b o
     /\ kv_slack_offset v = o + x /\ 1 <= x).
  { unfold kv_slack_offset. rewrite CS. unfold v. cbn [kv_at kv_detail kv_offset vk_detail_at vd_slack]. fold nl. rewrite len_bytes_at.
    destruct (N.le_gt_cases nl (abs_size (i32_at s 0))).
    - exists nl, (abs_size (i32_at s 0) - nl). rewrite SA. repeat split; lia.
    - exists (abs_size (i32_at s 0)), 0. rewrite SA. replace (abs_size (i32_at s 0) - nl) with 0 by lia.
      split; [reflexivity|]. repeat split; lia. }
  destruct SL as (x & y & E1 & XY & XS & E2 & X1). rewrite E1, E2.
  destruct (part_sub b o s x y P XY) as [PS EQ].
  assert (LY : len (bytes_at s x y) = y) by (rewrite len_bytes_at; lia).
  destruct (S st (bytes_at s x y) (o + x) A PS) as (st' & ks & vs & E & G & FK & FV); [lia|].
  rewrite E. cbv beta iota. rewrite LY in FK, FV.
  assert (FK' : Forall (slack_key (o + 1) (o + N.min (size_at b o) (len s))) ks).
  { eapply Forall_impl; [|exact FK]. intros a. apply slack_key_weaken; lia. }
  assert (FV' : Forall (slack_value (o + 1) (o + N.min (size_at b o) (len s))) vs).
  { eapply Forall_impl; [|exact FV]. intros a. apply slack_value_weaken; lia. }
  assert (FR : kv_is_free v = (0 <? i32_at b o)%Z) by (unfold kv_is_free, v; cbn [kv_at kv_detail vk_detail_at vd_size]; now rewrite <- I32).
  assert (RV : read_value_bytes fi st' v = read_value_bytes fi st0 v).
  { symmetry. apply (read_value_bytes_agree false). eapply grown_agree; eassumption. }
  assert (OFF : forall s', kv_offset (read_value_bytes fi s' v) = o).
  { intros s'. unfold read_value_bytes. destruct (read_value_bytes_direct _ _ _ _ _) as [[? ?] ?]. reflexivity. }
  assert (SZV : kv_cell_size (read_value_bytes fi st' v) = abs_size (i32_at s 0)).
  { unfold read_value_bytes. destruct (read_value_bytes_direct _ _ _ _ _) as [[? ?] ?]. reflexivity. }
  assert (KF : value_found fi st0 (o + len s) cs (kv_set_state cs (read_value_bytes fi st' v))).
  { unfold value_found. cbn [kv_set_state kv_offset]. rewrite OFF. fold b. rewrite part_bytes_eq by exact P.
    split; [lia|]. split; [apply P|]. split; [exact O|]. exists v. eexists. split; [exact R|]. exists []. rewrite <- RV.
    unfold read_value_bytes. destruct (read_value_bytes_direct _ _ _ _ _) as [[? ?] ?]. reflexivity. }
  assert (KO : kv_offset (kv_set_state cs (read_value_bytes fi st' v)) = o) by (cbn [kv_set_state kv_offset]; apply OFF).
  assert (FC : force = true \/ (0 < i32_at b o)%Z <-> force || kv_is_free v = true).
  { rewrite FR, orb_true_iff, Z.ltb_lt. reflexivity. }
  destruct (force || kv_is_free v) eqn:Fo.
  - eexists _, _, ks, (vs ++ [kv_set_state cs (read_value_bytes fi st' v)]).
    split; [reflexivity|]. split; [rewrite <- (app_nil_r ks); exact (grown_trans _ _ _ _ _ _ _ G (grown_value _ _))|].
    split; [lia|]. split.
    { apply Forall_app. split; [eapply Forall_impl; [|exact FV']; intros a; now left|].
      constructor; [|constructor]. right. split; [exact KO|]. split; [now apply FC|exact KF]. }
    split; [exact FK'|]. intros _ _. eexists. split; [apply in_or_app; right; left; reflexivity|]. split; [exact KO|exact KF].
  - exists st', 1, ks, vs. split; [reflexivity|]. split; [exact G|]. split; [lia|].
    split; [eapply Forall_impl; [|exact FV']; intros a; now left|]. split; [exact FK'|]. intros _ Q. apply FC in Q. discriminate.
Qed.

(** ** A slack area *)
Lemma slack_scan_ok fuel : forall st s start off, agree false st0 st -> part b start s ->
  (N.to_nat (len s - off) < fuel)%nat ->
  exists st' ks vs, slack_scan fuel fi st s start off = Ok st' /\ grown st st' ks vs
  /\ Forall (slack_key (start + off) (start + len s)) ks /\ Forall (slack_value (start + off) (start + len s)) vs.
Proof.
  induction fuel as [|fuel IH]; intros st s start off A P F; [lia|].
  cbn [slack_scan]. destruct (N.ltb_spec off (len s)) as [LT|GE].
  2:{ exists st, [], []. split; [reflexivity|]. split; [apply grown_refl|]. split; constructor. }
  assert (PC : part b (start + off) (skipn (N.to_nat off) s)) by (apply part_skip; [exact P|lia]).
  set (cell := skipn (N.to_nat off) s) in *.
  assert (LC : len cell = len s - off) by (unfold cell; apply len_skipn).
  destruct (le_i32_cases cell) as [(L4 & E)|(L4 & E)]; rewrite E.
  2:{ exists st, [], []. split; [reflexivity|]. split; [apply grown_refl|]. split; constructor. }
  set (scan := fun st s o => slack_scan fuel fi st s o 0).
  assert (SC : scans scan (len cell)).
  { intros st' s' p A' P' L'. unfold scan. destruct (IH st' s' p 0 A' P') as (st2 & ks & vs & Q); [lia|].
    rewrite N.add_0_r in Q. now exists st2, ks, vs. }
  assert (NEXT : forall st' n ks vs, 1 <= n -> grown st st' ks vs ->
     Forall (slack_key (start + off) (start + len s)) ks -> Forall (slack_value (start + off) (start + len s)) vs ->
     exists st2 ks2 vs2, slack_scan fuel fi st' s start (off + n) = Ok st2 /\ grown st st2 ks2 vs2
     /\ Forall (slack_key (start + off) (start + len s)) ks2 /\ Forall (slack_value (start + off) (start + len s)) vs2).
  { intros st' n ks vs N1 G FK FV.
    destruct (IH st' s start (off + n) (grown_agree _ _ _ _ _ A G) P) as (st2 & ks2 & vs2 & R & G2 & FK2 & FV2); [lia|].
    exists st2, (ks ++ ks2), (vs ++ vs2). split; [exact R|]. split; [eapply grown_trans; eassumption|].
    split; apply Forall_app; (split; [assumption|]); (eapply Forall_impl; [|eassumption]); intros a;
      [apply slack_key_weaken|apply slack_value_weaken]; lia. }
  assert (HI : start + off + len cell = start + len s) by lia.
  destruct (tag NK (rest_at cell 4)) as [[? ?]|].
  - destruct (recover_key_ok scan st cell (start + off) DeletedPrimaryFileSlack true A PC SC)
      as (st' & n & ks & vs & R & G & N1 & FK & FV & _). rewrite R. cbv beta iota.
    apply (NEXT st' n ks vs N1 G).
    + eapply Forall_impl; [|exact FK]. intros a [H|(H1 & _ & H2)]; [eapply slack_key_weaken; [| |exact H]; lia|].
      split; [lia|]. exists (start + off + len cell). split; [lia|exact H2].
    + eapply Forall_impl; [|exact FV]. intros a. apply slack_value_weaken; lia.
  - destruct (tag VK (rest_at cell 4)) as [[? ?]|].
    + destruct (recover_value_ok scan st cell (start + off) DeletedPrimaryFileSlack true A PC SC)
        as (st' & n & ks & vs & R & G & N1 & FV & FK & _). rewrite R. cbv beta iota.
      apply (NEXT st' n ks vs N1 G).
      * eapply Forall_impl; [|exact FK]. intros a. apply slack_key_weaken; lia.
      * eapply Forall_impl; [|exact FV]. intros a [H|(H1 & _ & H2)]; [eapply slack_value_weaken; [| |exact H]; lia|].
        split; [lia|]. exists (start + off + len cell). split; [lia|exact H2].
    + apply (NEXT st 1 [] []); [lia|apply grown_refl|constructor|constructor].
Qed.
Lemma find_slack_ok n : scans (find_cells_in_slack fi) n.
Proof.
  intros st s p A P _. unfold find_cells_in_slack. destruct (slack_scan_ok (S (length s)) st s p 0 A P) as (st2 & ks & vs & Q).
  { unfold len. lia. }
  rewrite N.add_0_r in Q. now exists st2, ks, vs.
Qed.

(** ** The cells of a bin *)
Definition visit_cell (st : state) (i : list N) (off size_abs : N) : res state :=
  match tag VK i, tag NK i with
  | Some _, _ =>
      match read_checked (fi_buffer fi) off with
      | Some s =>
          let* (st, _) := recover_value (find_cells_in_slack fi) fi st s off DeletedPrimaryFile false in
          Ok st
      | None => Ok st
      end
  | None, Some _ =>
      match read_checked (fi_buffer fi) off with
      | Some s =>
          let* (st, _) := recover_key (find_cells_in_slack fi) fi st s off DeletedPrimaryFile false in
          Ok st
      | None => Ok st
      end
  | None, None =>
      match read_range_checked (fi_buffer fi) off size_abs with
      | Some s => find_cells_in_slack fi st s off
      | None => Ok st
      end
  end.
Lemma unused_eq fuel st input off e : unused_cells_loop (S fuel) fi st input off e =
  if off <? e then
    let* (size, i) := nom (le_i32 input) in
    if (size =? 0)%Z then Ok (off, st)
    else
      let* st := visit_cell st i off (abs_size size) in
      match read_range_checked (fi_buffer fi) (off + abs_size size) (abs_size size) with
      | Some data => unused_cells_loop fuel fi st data (off + abs_size size) e
      | None => Ok (off + abs_size size, st)
      end
  else Ok (off, st).
Proof. reflexivity. Qed.

Definition seen (off : N) (input : list N) : Prop := N.min 6 (len b - off) <= len input.
Definition cell_key (off : N) (input : list N) (k : key_node) : Prop :=
  (kn_offset k = off /\ (0 < i32_at b off)%Z /\ key_found fi st0 (len b) DeletedPrimaryFile k)
  \/ (slack_key off (off + size_at b off) k /\ (seen off input -> off < kn_offset k)).
Definition cell_value (off : N) (input : list N) (v : key_value) : Prop :=
  (kv_offset v = off /\ (0 < i32_at b off)%Z /\ value_found fi st0 (len b) DeletedPrimaryFile v)
  \/ (slack_value off (off + size_at b off) v /\ (seen off input -> off < kv_offset v)).
Lemma read_checked_rest off : off < len b -> read_checked b off = Some (rest_at b off).
Proof. intros H. unfold read_checked. destruct (N.ltb_spec off (len b)); [|lia]. apply get_from_rest. lia. Qed.
Lemma read_range_part off n : off < len b ->
  exists s, read_range_checked b off n = Some s /\ part b off s /\ len s = N.min n (len b - off).
Proof.
  intros H. unfold read_range_checked. destruct (N.ltb_spec off (len b)); [|lia].
  rewrite get_range_at by lia. eexists. split; [reflexivity|]. split; [apply part_bytes; lia|]. rewrite len_bytes_at. lia.
Qed.
Lemma tag_part off input t : part b off input -> 4 <= len input -> len t = 2 -> 6 <= len input ->
  tag t (rest_at input 4) = if beq (bytes_at b (off + 4) 2) t then Some (t, rest_at input 6) else None.
Proof.
  intros P L T S. rewrite tag_rest by lia. rewrite T. destruct (part_sub b off input 4 2 P) as [_ E]; [lia|]. rewrite E. reflexivity.
Qed.
Lemma tag_sig off input t x : part b off input -> len t = 2 -> 4 <= len input -> tag t (rest_at input 4) = Some x ->
  bytes_at b (off + 4) 2 = t.
Proof.
  intros P T L E. assert (S : 6 <= len input).
  { destruct (N.le_gt_cases 6 (len input)); [easy|]. rewrite tag_short in E; [discriminate|]. rewrite len_rest_at. lia. }
  rewrite (tag_part off) in E by assumption. destruct (beq _ _) eqn:B; [now apply beq_eq in B|discriminate].
Qed.
Lemma visit_cell_ok st input off : agree false st0 st -> part b off input -> 4 <= len input ->
  exists st' ks vs, visit_cell st (rest_at input 4) off (size_at b off) = Ok st' /\ grown st st' ks vs
  /\ Forall (cell_key off input) ks /\ Forall (cell_value off input) vs
  /\ (seen off input -> (0 < i32_at b off)%Z ->
       (nk_ok (rest_at b off) -> exists k, In k ks /\ kn_offset k = off /\ key_found fi st0 (len b) DeletedPrimaryFile k)
       /\ (vk_ok (rest_at b off) -> exists v, In v vs /\ kv_offset v = off /\ value_found fi st0 (len b) DeletedPrimaryFile v)).
Proof.
  intros A P L4. assert (LB : off < len b) by (destruct P; lia).
  assert (PR : part b off (rest_at b off)) by (apply part_rest; lia).
  assert (LR : off + len (rest_at b off) = len b) by (rewrite len_rest_at; lia).
  assert (SIG : forall t, len t = 2 -> seen off input -> bytes_at (rest_at b off) 4 2 = t -> exists x, tag t (rest_at input 4) = Some x).
  { intros t T V E. rewrite bytes_at_rest in E. unfold seen in V.
    assert (B6 : off + 6 <= len b).
    { assert (X := len_bytes_at b (off + 4) 2). rewrite E, T in X. lia. }
    rewrite (tag_part off) by (assumption || lia). rewrite E, beq_refl. eauto. }
  unfold visit_cell. fold b.
  destruct (tag VK (rest_at input 4)) as [xv|] eqn:TV; [|destruct (tag NK (rest_at input 4)) as [xn|] eqn:TN].
  - rewrite read_checked_rest by exact LB.
    destruct (recover_value_ok (find_cells_in_slack fi) st _ off DeletedPrimaryFile false A PR (find_slack_ok _))
      as (st' & n & ks & vs & R & G & _ & FV & FK & C). rewrite R. cbv beta iota. rewrite LR in FV, C.
    exists st', ks, vs. split; [reflexivity|]. split; [exact G|]. split; [|split].
    + eapply Forall_impl; [|exact FK]. intros a H. right. split; [eapply slack_key_weaken; [| |exact H]; lia|]. destruct H. lia.
    + eapply Forall_impl; [|exact FV]. intros a [H|(H1 & [H2|H2] & H3)]; [|discriminate|left; auto].
      right. split; [eapply slack_value_weaken; [| |exact H]; lia|]. destruct H. lia.
    + intros V F. split.
      * intros (_ & _ & SG & _). apply tag_sig with (off := off) in TV; [|assumption|reflexivity|assumption].
        rewrite bytes_at_rest, TV in SG. discriminate SG.
      * intros VK'. apply C; [exact VK'|now right].
  - rewrite read_checked_rest by exact LB.
    destruct (recover_key_ok (find_cells_in_slack fi) st _ off DeletedPrimaryFile false A PR (find_slack_ok _))
      as (st' & n & ks & vs & R & G & _ & FK & FV & C). rewrite R. cbv beta iota. rewrite LR in FK, C.
    exists st', ks, vs. split; [reflexivity|]. split; [exact G|]. split; [|split].
    + eapply Forall_impl; [|exact FK]. intros a [H|(H1 & [H2|H2] & H3)]; [|discriminate|left; auto].
      right. split; [eapply slack_key_weaken; [| |exact H]; lia|]. destruct H. lia.
    + eapply Forall_impl; [|exact FV]. intros a H. right. split; [eapply slack_value_weaken; [| |exact H]; lia|]. destruct H. lia.
    + intros V F. split.
      * intros NK'. apply C; [exact NK'|now right].
      * intros (_ & _ & SG & _). destruct (SIG VK eq_refl V SG) as [x E]. rewrite TV in E. discriminate.
  - destruct (read_range_part off (size_at b off) LB) as (s & -> & PS & LS).
    destruct (find_slack_ok (len s + 1) st s off A PS) as (st' & ks & vs & R & G & FK & FV); [lia|].
    assert (STRICT : forall h, seen off input -> bytes_at (bytes_at b off (h - off)) 4 2 = NK \/ bytes_at (bytes_at b off (h - off)) 4 2 = VK -> 6 <= h - off -> False).
    { intros h V H H6. rewrite bytes_at_bytes in H by lia.
      destruct H as [H|H].
      - destruct (SIG NK eq_refl V) as [x E]; [now rewrite bytes_at_rest|]. rewrite TN in E. discriminate.
      - destruct (SIG VK eq_refl V) as [x E]; [now rewrite bytes_at_rest|]. rewrite TV in E. discriminate. }
    exists st', ks, vs. split; [exact R|]. split; [exact G|]. split; [|split].
    + eapply Forall_impl; [|exact FK]. intros a H. right. split; [eapply slack_key_weaken; [| |exact H]; lia|].
      intros V. destruct H as (H1 & h & H2 & H3 & H4 & (H5 & H6 & H7 & _) & _).
      destruct (N.eq_dec (kn_offset a) off) as [Q|Q]; [|lia]. rewrite Q in *. exfalso. fold b in H5, H6, H7.
      apply (STRICT h V); [now left|]. rewrite len_bytes_at in H6. lia.
    + eapply Forall_impl; [|exact FV]. intros a H. right. split; [eapply slack_value_weaken; [| |exact H]; lia|].
      intros V. destruct H as (H1 & h & H2 & H3 & H4 & (H5 & H6 & H7 & _) & _).
      destruct (N.eq_dec (kv_offset a) off) as [Q|Q]; [|lia]. rewrite Q in *. exfalso. fold b in H5, H6, H7.
      apply (STRICT h V); [now right|]. rewrite len_bytes_at in H6. lia.
    + intros V F. split; intros (_ & _ & SG & _).
      * destruct (SIG NK eq_refl V SG) as [x E]. rewrite TN in E. discriminate.
      * destruct (SIG VK eq_refl V SG) as [x E]. rewrite TV in E. discriminate.
Qed.

Definition tidy (l : list N) : Prop := Forall (fun c => 6 <= size_at b c) l.
Definition key_rep (seen0 : Prop) (l : list N) (k : key_node) : Prop :=
  (free_at b l (kn_offset k) /\ key_found fi st0 (len b) DeletedPrimaryFile k)
  \/ exists h c, In c l /\ c <= kn_offset k /\ h <= c + size_at b c /\ (seen0 -> tidy l -> c < kn_offset k)
     /\ key_found fi st0 h DeletedPrimaryFileSlack k.
Definition value_rep (seen0 : Prop) (l : list N) (k : key_value) : Prop :=
  (free_at b l (kv_offset k) /\ value_found fi st0 (len b) DeletedPrimaryFile k)
  \/ exists h c, In c l /\ c <= kv_offset k /\ h <= c + size_at b c /\ (seen0 -> tidy l -> c < kv_offset k)
     /\ value_found fi st0 h DeletedPrimaryFileSlack k.
Definition all_free (l : list N) (ks : list key_node) (vs : list key_value) : Prop :=
  forall c, free_at b l c ->
  (nk_ok (rest_at b c) -> exists k, In k ks /\ kn_offset k = c /\ key_found fi st0 (len b) DeletedPrimaryFile k)
  /\ (vk_ok (rest_at b c) -> exists v, In v vs /\ kv_offset v = c /\ value_found fi st0 (len b) DeletedPrimaryFile v).

Lemma key_rep_more (s s' : Prop) l l' k : incl l l' -> (s' -> tidy l' -> s /\ tidy l) -> key_rep s l k -> key_rep s' l' k.
Proof.
  intros I H [((A & B) & C)|(h & c & A & B & C & D & E)]; [left; split; [split; [apply I, A|exact B]|exact C]|].
  right. exists h, c. split; [apply I, A|]. split; [exact B|]. split; [exact C|]. split; [|exact E].
  intros S T. destruct (H S T). now apply D.
Qed.
Lemma value_rep_more (s s' : Prop) l l' k : incl l l' -> (s' -> tidy l' -> s /\ tidy l) -> value_rep s l k -> value_rep s' l' k.
Proof.
  intros I H [((A & B) & C)|(h & c & A & B & C & D & E)]; [left; split; [split; [apply I, A|exact B]|exact C]|].
  right. exists h, c. split; [apply I, A|]. split; [exact B|]. split; [exact C|]. split; [|exact E].
  intros S T. destruct (H S T). now apply D.
Qed.
Lemma all_free_app l l' ks ks' vs vs' : all_free l ks vs -> all_free l' ks' vs' -> all_free (l ++ l') (ks ++ ks') (vs ++ vs').
Proof.
  intros A B c (I & F). apply in_app_or in I as [I|I].
  - destruct (A c (conj I F)) as [X Y]. split; intros H; [destruct (X H) as (k & K & Q)|destruct (Y H) as (k & K & Q)];
      exists k; (split; [apply in_or_app; now left|exact Q]).
  - destruct (B c (conj I F)) as [X Y]. split; intros H; [destruct (X H) as (k & K & Q)|destruct (Y H) as (k & K & Q)];
      exists k; (split; [apply in_or_app; now right|exact Q]).
Qed.

Definition bin_result (st : state) (e off : N) (seen0 : Prop) (r : res (N * state)) : Prop :=
  exists c' st' l ks vs, r = Ok (c', st') /\ grown st st' ks vs /\ cells b e off l c' /\ off <= c'
  /\ Forall (key_rep seen0 l) ks /\ Forall (value_rep seen0 l) vs /\ (seen0 -> tidy l -> all_free l ks vs).
Lemma bin_stop st e off s : e <= off \/ i32_at b off = 0%Z \/ len b <= off -> bin_result st e off s (Ok (off, st)).
Proof.
  intros H. exists off, st, [], [], []. split; [reflexivity|]. split; [apply grown_refl|]. split; [now constructor|].
  split; [lia|]. split; [constructor|]. split; [constructor|]. intros _ _ c ([] & _).
Qed.
Lemma size_pos off : i32_at b off <> 0%Z -> 1 <= size_at b off.
Proof. unfold size_at, abs_size. lia. Qed.

(** One cell and the rest. *)
Lemma bin_step st input off e st1 ks vs c' st' (s' : Prop) :
  off < e -> i32_at b off <> 0%Z -> 4 <= len input -> part b off input ->
  grown st st1 ks vs -> Forall (cell_key off input) ks -> Forall (cell_value off input) vs ->
  (seen off input -> (0 < i32_at b off)%Z ->
       (nk_ok (rest_at b off) -> exists k, In k ks /\ kn_offset k = off /\ key_found fi st0 (len b) DeletedPrimaryFile k)
       /\ (vk_ok (rest_at b off) -> exists v, In v vs /\ kv_offset v = off /\ value_found fi st0 (len b) DeletedPrimaryFile v)) ->
  (6 <= size_at b off -> s') ->
  bin_result st1 e (off + size_at b off) s' (Ok (c', st')) ->
  bin_result st e off (seen off input) (Ok (c', st')).
Proof.
  intros LT NZ L4 P G FK FV CP SV (c2 & st2 & l & ks2 & vs2 & E & G2 & CL & LE & FK2 & FV2 & AF). injection E as <- <-.
  exists c', st', (off :: l), (ks ++ ks2), (vs ++ vs2). split; [reflexivity|].
  split; [eapply grown_trans; eassumption|]. split; [constructor; [exact LT|destruct P; lia|exact NZ|exact CL]|]. split; [lia|].
  assert (T : tidy (off :: l) -> s' /\ tidy l).
  { intros T. inversion T; subst. split; [now apply SV|assumption]. }
  split; [|split].
  - apply Forall_app. split.
    + eapply Forall_impl; [|exact FK]. intros k [(A & B & C)|((A & h & B & C) & D)].
      * left. rewrite A. split; [split; [now left|exact B]|exact C].
      * right. exists h, off. split; [now left|]. split; [exact A|]. split; [exact B|]. split; [intros S _; now apply D|exact C].
    + eapply Forall_impl; [|exact FK2]. intros k. apply key_rep_more; [intros x; now right|]. intros _ Q. now apply T.
  - apply Forall_app. split.
    + eapply Forall_impl; [|exact FV]. intros k [(A & B & C)|((A & h & B & C) & D)].
      * left. rewrite A. split; [split; [now left|exact B]|exact C].
      * right. exists h, off. split; [now left|]. split; [exact A|]. split; [exact B|]. split; [intros S _; now apply D|exact C].
    + eapply Forall_impl; [|exact FV2]. intros k. apply value_rep_more; [intros x; now right|]. intros _ Q. now apply T.
  - intros S Q. apply (all_free_app [off] l ks ks2 vs vs2); [|destruct (T Q); now apply AF].
    intros c ([<-|[]] & F). now apply CP.
Qed.

Lemma unused_ok fuel : forall st input off e, agree false st0 st -> part b off input ->
  (N.to_nat (len b - off) < fuel)%nat ->
  unused_cells_loop fuel fi st input off e = Err
  \/ bin_result st e off (seen off input) (unused_cells_loop fuel fi st input off e).
Proof.
  induction fuel as [|fuel IH]; intros st input off e A P F; [lia|]. rewrite unused_eq.
  destruct (N.ltb_spec off e) as [LT|GE]; [|right; apply bin_stop; now left].
  destruct (le_i32_cases input) as [(L4 & E)|(L4 & E)]; rewrite E; [|now left]. cbn [nom ok_or]. cbv beta iota.
  rewrite (part_i32 b off input P L4). destruct (Z.eqb_spec (i32_at b off) 0) as [Z0|NZ]; [right; apply bin_stop; now right; left|].
  fold (size_at b off). pose proof (size_pos off NZ) as SP.
  destruct (visit_cell_ok st input off A P L4) as (st1 & ks & vs & R & G & FK & FV & C). rewrite R. cbv beta iota. fold b.
  destruct (N.lt_ge_cases (off + size_at b off) (len b)) as [LB|GB].
  - destruct (read_range_part (off + size_at b off) (size_at b off) LB) as (data & -> & PD & LD).
    destruct (IH st1 data (off + size_at b off) e (grown_agree _ _ _ _ _ A G) PD) as [Q|Q]; [lia|now left|].
    right. set (r := unused_cells_loop fuel fi st1 data (off + size_at b off) e) in *. clearbody r.
    pose proof Q as (c' & st' & _ & _ & _ & EQ & _). subst r.
    eapply bin_step; try eassumption. intros S6. unfold seen. lia.
  - right. unfold read_range_checked. destruct (N.ltb_spec (off + size_at b off) (len b)); [lia|].
    eapply bin_step; try eassumption; [intros _; exact I|]. apply bin_stop. right. now right.
Qed.

(** ** All bins *)
Definition sweep_result (st : state) (n off : N) (r : res state) : Prop :=
  exists st' l ks vs, r = Ok st' /\ grown st st' ks vs /\ sweep b n off l
  /\ Forall (key_rep True l) ks /\ Forall (value_rep True l) vs /\ (tidy l -> all_free l ks vs).
Lemma tidy_app l l' : tidy (l ++ l') <-> tidy l /\ tidy l'. Proof. apply Forall_app. Qed.
Lemma recover_hbin_eq st off r : r = recover_hbin fi st off ->
  r = Err \/ (bin_header b off /\ off + 32 < len b
    /\ r = unused_cells_loop (S (length b)) fi st (rest_at b (off + 32)) (off + 32) (off + bin_size b off)).
Proof.
  intros R. unfold recover_hbin in R. fold b in R. unfold read_checked in R. destruct (N.ltb_spec off (len b)) as [LT|GE]; [|now left].
  rewrite get_from_rest in R by lia. cbn [ok_or] in R. cbv beta iota in R.
  destruct (hbin_cases off (rest_at b off)) as [(L & T & E)|(_ & E)]; rewrite E in R; [|now left]. cbv beta iota in R.
  rewrite len_rest_at in L. rewrite bytes_at_rest, N.add_0_r in T.
  assert (HS : hb_size (hbin_at off (rest_at b off)) = bin_size b off).
  { change (hb_size (hbin_at off (rest_at b off))) with (num_at (rest_at b off) 8 4). apply num_at_rest. }
  rewrite HS in R. rewrite rest_rest, len_rest_at in R. replace (len b - (len b - (off + 32))) with (off + 32) in R by lia.
  unfold find_unused_cells_in_hbin in R. fold b in R. unfold read_checked in R.
  destruct (N.ltb_spec (off + 32) (len b)) as [LT2|GE2]; [|now left].
  rewrite get_from_rest in R by lia. cbn [ok_or] in R. cbv beta iota in R.
  right. split; [split; [lia|exact T]|]. split; [exact LT2|exact R].
Qed.
Lemma recover_hbin_ok st off : agree false st0 st ->
  recover_hbin fi st off = Err
  \/ (bin_header b off /\ bin_result st (off + bin_size b off) (off + 32) True (recover_hbin fi st off)).
Proof.
  intros A. destruct (recover_hbin_eq st off _ eq_refl) as [E|(H & LT & E)]; [now left|]. rewrite E.
  assert (P : part b (off + 32) (rest_at b (off + 32))) by (apply part_rest; lia).
  destruct (unused_ok (S (length b)) st _ (off + 32) (off + bin_size b off) A P) as [Q|Q]; [unfold len; lia|now left|].
  right. split; [exact H|].
  destruct Q as (c' & st' & l & ks & vs & EQ & G & CL & LE & FK & FV & AF).
  assert (SN : seen (off + 32) (rest_at b (off + 32))) by (unfold seen; rewrite len_rest_at; lia).
  exists c', st', l, ks, vs. split; [exact EQ|]. split; [exact G|]. split; [exact CL|]. split; [exact LE|]. split; [|split].
  - eapply Forall_impl; [|exact FK]. intros k. apply key_rep_more; [apply incl_refl|]. intros _ Z. now split.
  - eapply Forall_impl; [|exact FV]. intros k. apply value_rep_more; [apply incl_refl|]. intros _ Z. now split.
  - intros _. now apply AF.
Qed.
Lemma recover_loop_ok fuel : forall st off n, agree false st0 st -> (N.to_nat (len b - off) < fuel)%nat ->
  recover_loop fuel fi st off n = Err \/ sweep_result st n off (recover_loop fuel fi st off n).
Proof.
  induction fuel as [|fuel IH]; intros st off n A F; [lia|]. cbn [recover_loop].
  destruct (N.ltb_spec off n) as [LT|GE].
  2:{ right. exists st, [], [], []. split; [reflexivity|]. split; [apply grown_refl|]. split; [now constructor|].
      split; [constructor|]. split; [constructor|]. intros _ c ([] & _). }
  destruct (recover_hbin_ok st off A) as [E|(H & c' & st1 & l & ks & vs & E & G & CL & LE & FK & FV & AF)]; rewrite E; [now left|].
  cbv beta iota. assert (LB : off + 32 <= len b) by apply H.
  destruct (IH st1 c' n (grown_agree _ _ _ _ _ A G)) as [Q|(st2 & l2 & ks2 & vs2 & Q & G2 & SW & FK2 & FV2 & AF2)]; [lia|now left|].
  right. exists st2, (l ++ l2), (ks ++ ks2), (vs ++ vs2). split; [exact Q|]. split; [eapply grown_trans; eassumption|].
  split; [econstructor; eassumption|]. split; [|split].
  - apply Forall_app. split; (eapply Forall_impl; [|eassumption]); intros k; apply key_rep_more; try (intros x; rewrite in_app_iff; tauto);
      intros _ T; apply tidy_app in T; tauto.
  - apply Forall_app. split; (eapply Forall_impl; [|eassumption]); intros k; apply value_rep_more; try (intros x; rewrite in_app_iff; tauto);
      intros _ T; apply tidy_app in T; tauto.
  - intros T. apply tidy_app in T as [T1 T2]. apply all_free_app; [now apply AF|now apply AF2].
Qed.
End Scan.
