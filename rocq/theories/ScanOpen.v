(** The recovery scan as part of opening a hive. *)
From Verif Require Import Base BaseFacts LayoutSpec LayoutFacts HeaderFacts BaseBlock Util Types Value Node Recover Parser TxLog
  NodeFrame TxSpec TxApply TxBuild CellSpec CellFacts CellData CellList CellRead ScanSpec ScanFacts Recovered.

(** ** The cells that are swept *)
Lemma cells_fun b e c l c' : cells b e c l c' -> forall l2 c2, cells b e c l2 c2 -> l = l2 /\ c' = c2.
Proof.
  induction 1 as [c H|c l c' A B C D IH]; intros l2 c2 H2; inversion H2; subst; try (split; reflexivity); try lia; try tauto.
  destruct (IH _ _ H3) as [-> ->]. now split.
Qed.
Lemma sweep_fun b n o l : sweep b n o l -> forall l2, sweep b n o l2 -> l = l2.
Proof.
  induction 1 as [o H|o l c' l' A B C D IH]; intros l2 H2; inversion H2; subst; try lia; [reflexivity|].
  destruct (cells_fun _ _ _ _ _ C _ _ H1) as [-> ->]. now rewrite (IH _ H3).
Qed.
Lemma cells_after b e c l c' : cells b e c l c' -> c <= c' /\ Forall (fun x => c <= x /\ x + size_at b x <= c') l.
Proof.
  induction 1 as [c H|c l c' A B C D IH]; [split; [lia|constructor]|]. destruct IH as (L & F). split; [lia|].
  constructor; [lia|]. eapply Forall_impl; [|exact F]. intros x. cbv beta. lia.
Qed.
Definition apart (b : list N) (l : list N) : Prop := forall x y, In x l -> In y l -> x < y -> x + size_at b x <= y.
Lemma cells_apart b e c l c' : cells b e c l c' -> apart b l.
Proof.
  induction 1 as [c H|c l c' A B C D IH]; [now intros x y []|]. pose proof (cells_after _ _ _ _ _ D) as (L & F).
  rewrite Forall_forall in F. intros x y [<-|X] [<-|Y] LT; [lia|now apply F| |now apply IH]. apply F in X. lia.
Qed.
Lemma sweep_after b n o l : sweep b n o l -> Forall (fun x => o <= x) l /\ apart b l.
Proof.
  induction 1 as [o H|o l c' l' A B C D IH]; [split; [constructor|now intros x y []]|]. destruct IH as (L & AP).
  pose proof (cells_after _ _ _ _ _ C) as (L1 & F). pose proof (cells_apart _ _ _ _ _ C) as AC. rewrite Forall_forall in F, L. split.
  - apply Forall_app. split; apply Forall_forall; intros x X; [apply F in X|apply L in X]; lia.
  - intros x y X Y LT. apply in_app_or in X, Y. destruct X as [X|X], Y as [Y|Y]; [now apply AC| | |now apply AP].
    + apply F in X. apply L in Y. lia.
    + apply F in Y. apply L in X. lia.
Qed.
(** No allocated cell that the scan went over is reported. *)
Lemma inside_not_cell b l o hi c : apart b l -> Forall (fun x => 6 <= size_at b x) l -> inside b l o hi -> In c l -> o < hi -> o <> c.
Proof.
  intros AP T (x & X & LE & HI & S) C LT ->. specialize (S T). specialize (AP x c X C S). lia.
Qed.

(** ** Well-formed bins *)
Lemma filled_cells b c e l : filled b c e l -> e <= len b -> cells b e c l e.
Proof.
  induction 1 as [c|c e l S F IH]; intros L; [constructor; left; lia|].
  assert (LE : c + size_at b c <= e).
  { clear -F. induction F; [lia|]. unfold size_at in *. lia. }
  constructor; [lia|lia| |now apply IH]. intros Z. unfold size_at in S. rewrite Z in S. unfold abs_size in S. lia.
Qed.
Lemma filled_le b c e l : filled b c e l -> c <= e.
Proof. induction 1; lia. Qed.
Definition swept (n : N) (bins : list (N * list N)) : list N := flat_map snd (List.filter (fun x => fst x <? n) bins).
Lemma tiled_le b n o bins : tiled b n o bins -> o <= n /\ Forall (fun x => o <= fst x) bins.
Proof.
  induction 1 as [|o l r H S F T IH]; [split; [lia|constructor]|]. destruct IH as (A & B). split; [lia|].
  constructor; [cbn; lia|]. eapply Forall_impl; [|exact B]. intros x. cbv beta. lia.
Qed.
Lemma swept_none n bins : Forall (fun x => n <= fst x) bins -> swept n bins = [].
Proof.
  unfold swept. induction 1 as [|x l H F IH]; [reflexivity|]. cbn [List.filter]. destruct (N.ltb_spec (fst x) n); [lia|exact IH].
Qed.
Lemma tiled_sweep b n e o bins : tiled b e o bins -> e <= len b -> n <= e -> sweep b n o (swept n bins).
Proof.
  intros T L LE. induction T as [|o l r H S F T IH]; [constructor; exact LE|].
  destruct (N.ltb_spec o n) as [LT|GE].
  - unfold swept. cbn [List.filter fst]. destruct (N.ltb_spec o n); [|lia]. cbn [flat_map snd].
    econstructor; [exact LT|exact H| |exact IH]. apply filled_cells; [exact F|]. apply tiled_le in T. lia.
  - rewrite swept_none; [now constructor|]. constructor; [cbn; lia|]. apply tiled_le in T as (_ & T).
    eapply Forall_impl; [|exact T]. intros x. cbv beta. lia.
Qed.

Section Total.
Variable fi : file_info.
Variable st0 : state.
Let b := fi_buffer fi.
Lemma unused_total e : e <= len b -> forall fuel l st input off, filled b off e l -> agree false st0 st -> part b off input ->
  (l <> [] -> 8 <= len input) -> unused_cells_loop fuel fi st input off e <> Err.
Proof.
  intros LE. induction fuel as [|fuel IH]; intros l st input off F A P L; [discriminate|]. rewrite unused_eq.
  destruct (N.ltb_spec off e) as [LT|GE]; [|discriminate].
  inversion F; subst; [lia|]. specialize (L ltac:(discriminate)).
  destruct (le_i32_cases input) as [(L4 & E)|(L4 & E)]; [|lia]. rewrite E. cbn [nom ok_or]. cbv beta iota.
  rewrite (part_i32 b off input P L4). destruct (Z.eqb_spec (i32_at b off) 0) as [Z0|NZ]; [discriminate|].
  fold (size_at b off). destruct (visit_cell_ok fi st0 st input off A P L4) as (st1 & ks & vs & R & G & _).
  fold b in R. rewrite R. cbv beta iota. fold b.
  destruct (N.lt_ge_cases (off + size_at b off) (len b)) as [LB|GB].
  - destruct (read_range_part fi (off + size_at b off) (size_at b off) LB) as (data & RD & PD & LD). fold b in RD, PD, LD. rewrite RD.
    apply (IH l0); [assumption|eapply grown_agree; eassumption|exact PD|]. intros NE. inversion H0; subst; [congruence|].
    pose proof (filled_le _ _ _ _ H2). lia.
  - unfold read_range_checked. destruct (N.ltb_spec (off + size_at b off) (len b)); [lia|discriminate].
Qed.
Lemma hbin_total st off l : bin_header b off -> 32 < bin_size b off -> filled b (off + 32) (off + bin_size b off) l ->
  off + bin_size b off <= len b -> agree false st0 st -> recover_hbin fi st off <> Err.
Proof.
  intros (L32 & T) BS F L A. unfold recover_hbin. fold b. unfold read_checked. destruct (N.ltb_spec off (len b)); [|lia].
  rewrite get_from_rest by lia. cbn [ok_or]. cbv beta iota.
  destruct (hbin_cases off (rest_at b off)) as [(L1 & T1 & E)|([L1|T1] & E)].
  2:{ rewrite len_rest_at in L1. lia. } 2:{ rewrite bytes_at_rest, N.add_0_r in T1. contradiction. }
  rewrite E. cbv beta iota.
  assert (HS : hb_size (hbin_at off (rest_at b off)) = bin_size b off).
  { change (hb_size (hbin_at off (rest_at b off))) with (num_at (rest_at b off) 8 4). apply num_at_rest. }
  rewrite HS, rest_rest, len_rest_at. replace (len b - (len b - (off + 32))) with (off + 32) by lia.
  unfold find_unused_cells_in_hbin. fold b. unfold read_checked. destruct (N.ltb_spec (off + 32) (len b)); [|lia].
  rewrite get_from_rest by lia. cbn [ok_or]. cbv beta iota.
  apply (unused_total _ L _ l); [exact F|exact A|apply part_rest; lia|]. intros NE. rewrite len_rest_at.
  inversion F; subst; [congruence|]. pose proof (filled_le _ _ _ _ H2). lia.
Qed.
Lemma loop_total n e : e <= len b -> n <= e -> forall fuel o bins st, tiled b e o bins -> agree false st0 st ->
  recover_loop fuel fi st o n <> Err.
Proof.
  intros L LE. induction fuel as [|fuel IH]; intros o bins st T A; [discriminate|]. cbn [recover_loop].
  destruct (N.ltb_spec o n) as [LT|GE]; [|discriminate]. inversion T; subst; [lia|].
  pose proof (tiled_le _ _ _ _ H2) as (TL & _).
  pose proof (hbin_total st o l H H0 H1 ltac:(lia) A) as NE.
  destruct (recover_hbin_ok fi st0 st o A) as [E|(HB & c' & st1 & l1 & ks & vs & E & G & CL & _)]; [contradiction|].
  rewrite E. cbv beta iota. fold b in CL. pose proof (filled_cells _ _ _ _ H1 ltac:(lia)) as FC.
  destruct (cells_fun _ _ _ _ _ CL _ _ FC) as [_ ->]. apply (IH _ r); [exact H2|eapply grown_agree; eassumption].
Qed.
End Total.

(** ** Opening *)
Definition recovered_key (buf : list N) (full : bool) (hash : list N -> N) (l : list N) (k : key_node) : Prop :=
  is_deleted_primary_file (kn_state k) = true -> key_reported (mkFI 4096 buf) (mkState 0 full [] hash [] [] [] []) l k.
Definition recovered_value (buf : list N) (full : bool) (hash : list N -> N) (l : list N) (v : key_value) : Prop :=
  is_deleted_primary_file (kv_state v) = true -> value_reported (mkFI 4096 buf) (mkState 0 full [] hash [] [] [] []) l v.
Lemma key_found_values fi st hi cs k : st_deleted_keys st = [] -> st_deleted_values st = [] ->
  key_found fi st hi cs k -> Forall (fun v => kv_state v = Allocated) (kn_values k).
Proof.
  intros K V (_ & _ & _ & k0 & st' & R & S & _).
  assert (M : good_maps (fun _ => True) (fun v => is_deleted_primary_file (kv_state v) = false) st).
  { split; rewrite ?K, ?V; constructor. }
  destruct S as (_ & _ & _ & _ & -> & _). clear -R. unfold read_from_slice in R. cbn [op_offset op_path op_seq op_filter op_self_match op_modified] in R.
  destruct (kn_from_bytes _ _ _ _ _) as [[k1 r]| | |] eqn:E in R; try discriminate. cbv beta iota in R.
  assert (V1 : kn_values k1 = []).
  { destruct (kn_cases st (bytes_at (fi_buffer fi) (kn_offset k) (hi - kn_offset k)) (kn_offset k) [] None) as [(_ & nm & w & _ & E1)|(_ & E1)];
      rewrite E1 in E; [|discriminate]. now injection E as <- _. }
  destruct (_ && _) in R; [|injection R as <- _; rewrite V1; constructor].
  destruct (read_values _ _ _ _) as [[k2 ok]| | |] eqn:RV in R; try discriminate.
  apply read_values_alloc in RV as (RV & _); [|rewrite V1; constructor]. injection R as <- _. destruct ok; exact RV.
Qed.
Lemma value_found_versions fi st hi cs l v : value_found fi st hi cs v -> value_found fi st hi cs (kv_set_versions l v).
Proof.
  intros (A & B & C & v0 & r & D & older & E). split; [exact A|]. split; [exact B|]. split; [exact C|]. exists v0, r. split; [exact D|].
  exists l. rewrite E. reflexivity.
Qed.

Section Open.
Variables (buf : list N) (full : bool) (hash : list N -> N).
Let st0 := mkState 0 full [] hash [] [] [] [].
Let fi0 := mkFI 4096 buf.
Lemma scan_reports l k : key_rep fi0 st0 True l k -> key_reported fi0 st0 l k.
Proof.
  intros [H|(h & c & A & B & C & D & E)]; [now left|]. right. exists h. split; [|exact E]. exists c.
  split; [exact A|]. split; [exact B|]. split; [exact C|]. now apply D.
Qed.
Lemma scan_value_reports l k : value_rep fi0 st0 True l k -> value_reported fi0 st0 l k.
Proof.
  intros [H|(h & c & A & B & C & D & E)]; [now left|]. right. exists h. split; [|exact E]. exists c.
  split; [exact A|]. split; [exact B|]. split; [exact C|]. now apply D.
Qed.
Lemma reported_state l k : key_reported fi0 st0 l k -> is_deleted_primary_file (kn_state k) = true /\ kn_deleted k = []
  /\ Forall (fun v => kv_state v = Allocated) (kn_values k).
Proof.
  intros H.
  assert (X : exists hi cs, key_found fi0 st0 hi cs k /\ is_deleted_primary_file cs = true).
  { destruct H as [(_ & H)|(h & _ & H)]; eauto. }
  destruct X as (hi & cs & F & C). pose proof (key_found_values fi0 st0 hi cs k eq_refl eq_refl F) as V.
  destruct F as (_ & _ & _ & k0 & st' & _ & _ & S & D). rewrite S. auto.
Qed.
Let PK := recovered_key buf full hash.
Let PV := recovered_value buf full hash.
Lemma PK_other l k : is_deleted_primary_file (kn_state k) = false -> PK l k.
Proof. intros H P. congruence. Qed.
Lemma PV_other l v : is_deleted_primary_file (kv_state v) = false -> PV l v.
Proof. intros H P. congruence. Qed.
Lemma PK_same l k k' : same_cell k' k -> kn_state k' = kn_state k -> (kn_deleted k = [] -> kn_deleted k' = []) -> PK l k -> PK l k'.
Proof.
  intros S T D P Q. rewrite T in Q. specialize (P Q).
  assert (FD : forall hi cs, key_found fi0 st0 hi cs k -> key_found fi0 st0 hi cs k').
  { unfold key_found. destruct S as (S1 & S2 & S3 & S4 & S5 & S6 & S7). rewrite S1.
    intros hi cs (A & B & C & k0 & st' & R & (R1 & R2 & R3 & R4 & R5 & R6 & R7) & R8 & R9).
    split; [exact A|]. split; [exact B|]. split; [exact C|]. exists k0, st'. split; [exact R|].
    split; [repeat split; congruence|]. split; [congruence|auto]. }
  destruct S as (S1 & _). unfold key_reported. rewrite S1.
  destruct P as [(P1 & P2)|(h & P1 & P2)]; [left|right]; eauto.
Qed.
Lemma PV_versions l vs v : PV l v -> PV l (kv_set_versions vs v).
Proof.
  intros P Q. destruct (P Q) as [(A & B)|(h & A & B)]; [left|right; exists h]; (split; [exact A|]); now apply value_found_versions.
Qed.
Lemma reported_good l k : key_reported fi0 st0 l k -> good (PK l) (PV l) k.
Proof.
  intros R. pose proof (reported_state l k R) as (_ & D & V). constructor; [now intros _| |rewrite D; constructor].
  eapply Forall_impl; [|exact V]. intros v E. apply PV_other. now rewrite E.
Qed.

(** What the scan leaves when a hive is opened. *)
Lemma open_scan p : 4096 <= len buf -> bytes_at buf 0 4 = REGF ->
  ps_file p = fi0 -> set_info [] (ps_state p) = set_info [] st0 ->
  find_free_keys_and_values (ps_file p) (ps_state p) (num_at buf 40 4) = Err
  \/ exists st' l ks vs, find_free_keys_and_values (ps_file p) (ps_state p) (num_at buf 40 4) = Ok st'
      /\ grown (ps_state p) st' ks vs /\ sweep buf (num_at buf 40 4) 4096 l
      /\ Forall (key_reported fi0 st0 l) ks /\ Forall (value_reported fi0 st0 l) vs
      /\ (tidy fi0 l -> all_free fi0 st0 l ks vs).
Proof.
  intros L T F SI. unfold find_free_keys_and_values. rewrite F. cbn [fi0 fi_buffer fi_hbin].
  assert (A : agree false st0 (ps_state p)).
  { assert (A1 := f_equal st_root_offset SI). assert (A2 := f_equal st_full SI). assert (A3 := f_equal st_hasher SI).
    split; [symmetry; exact A1|]. split; [symmetry; exact A2|]. split; [symmetry; exact A3|]. discriminate. }
  destruct (recover_loop_ok fi0 st0 (S (length buf)) (ps_state p) 4096 (num_at buf 40 4) A) as [E|(st' & l & ks & vs & E & G & SW & FK & FV & AF)].
  { cbn [fi0 fi_buffer]. unfold len. lia. }
  - now left.
  - right. exists st', l, ks, vs. split; [exact E|]. split; [exact G|]. split; [exact SW|].
    split; [eapply Forall_impl; [|exact FK]; intros k; apply scan_reports|].
    split; [eapply Forall_impl; [|exact FV]; intros k; apply scan_value_reports|exact AF].
Qed.
Lemma bins_size name : bb_hive_bins_data_size (bb_base (base_block_at buf name)) = num_at buf 40 4.
Proof. reflexivity. Qed.

Lemma build_scan order fuel files p : known_file_type buf -> build order fuel hash true full buf files = Ok p ->
  exists l, sweep buf (num_at buf 40 4) 4096 l /\ good_parser (PK l) (PV l) p.
Proof.
  intros K. unfold build. destruct (parse_logs files) as [[logs w]| | |] eqn:PL; try discriminate. cbv beta iota zeta.
  fold st0. change (mkParser (mkFI 0 buf) st0 None None None true) with (start hash true full buf). set (p0 := start hash true full buf).
  unfold ps_init.
  destruct (N.leb_spec 4096 (len buf)) as [L|L].
  2:{ rewrite init_fails; [discriminate|]. change (ps_buffer p0) with buf. lia. }
  destruct (list_eq_dec N.eq_dec (bytes_at buf 0 4) REGF) as [T|T].
  2:{ rewrite init_fails; [discriminate|]. now intros [_ ?]. }
  destruct (init_base_block_spec p0 L T) as (name & bad & p1 & E1 & E2 & F1 & B1 & R1 & _ & _ & SI & _).
  rewrite E2. change (ps_buffer p0) with buf in *. assert (SU : is_supported (base_block_at buf name) = true) by now apply supported_at.
  rewrite SU. cbv beta iota. rewrite B1. cbn [or_panic]. rewrite bins_size.
  destruct (open_scan p1 L T F1 SI) as [E|(st' & l & ks & vs & E & G & SW & FK & FV & _)]; rewrite E; [discriminate|]. cbv beta iota.
  assert (M : good_maps (PK l) (PV l) (ps_state (ps_set_state st' p1))).
  { cbn [ps_set_state ps_state]. destruct G as (wn & ->).
    assert (K0 := f_equal st_deleted_keys SI). assert (V0 := f_equal st_deleted_values SI).
    cbn [set_info st_deleted_keys st_deleted_values] in K0, V0. change (st_deleted_keys (ps_state p0)) with (@nil (list N * list key_node)) in K0.
    change (st_deleted_values (ps_state p0)) with (@nil (list N * list key_value)) in V0.
    split; cbn [st_deleted_keys st_deleted_values]; rewrite ?K0, ?V0; apply push_all_forall; try constructor.
    - eapply Forall_impl; [|exact FK]. intros k. apply reported_good.
    - eapply Forall_impl; [|exact FV]. intros v Hv _. exact Hv. }
  destruct (apply_transaction_logs order fuel bad logs (ps_set_state st' p1)) as [p2| | |] eqn:AP; try discriminate.
  apply (apply_good (PK l) (PV l)) in AP; [|solve [exact M|apply PK_other|apply PV_other|apply PK_same|apply PV_versions]..].
  destruct (init_root p2) as [p3| | |] eqn:IR; try discriminate.
  apply (init_root_good (PK l) (PV l)) in IR; [|solve [exact AP|apply PK_other|apply PV_other|apply PK_same|apply PV_versions]..].
  intros [= <-]. exists l. split; [exact SW|]. exact IR.
Qed.
Lemma recovered_items order fuel files p : known_file_type buf -> build order fuel hash true full buf files = Ok p ->
  exists l, sweep buf (num_at buf 40 4) 4096 l
  /\ forall n f anc m post ks, iterate n p f anc m post = Ok ks ->
     Forall (fun k => PK l k /\ Forall (PV l) (kn_values k)) ks.
Proof.
  intros K B. destruct (build_scan order fuel files p K B) as (l & SW & G). exists l. split; [exact SW|].
  intros n f anc m post ks I. apply (iterate_good (PK l) (PV l)) in I; [|solve [exact G|apply PK_other|apply PV_other|apply PK_same|apply PV_versions]..].
  eapply Forall_impl; [|exact I]. intros k [A C _]. now split.
Qed.
End Open.
