(** Look-ups in a hive that was cut off find a key of the path they are given. *)
From Verif Require Import Base BaseFacts Util UtilSpec LayoutSpec LayoutFacts HeaderFacts BaseBlock Types Value Node Recover Parser TxLog TxSpec NodeFrame
  CellSpec CellFacts CellRead TreeSpec TreeRead UtilText UtilLz TreeIter TreeFilter TreeLook AnyFile TreeOpen TreeUse NavFacts NoAbort ReplayFacts CompareTree LookEnds CutSpec CutFacts CutLook.
Local Notation good := TreeFilter.good.

Definition outcome (q : reg_query) (k : key_node) : filter_flags := match_segments (split_bs (to_lower (kn_path k))) (rq_path q).
Lemma read_outcome fi st o q k st' : op_modified o = false -> op_filter o = Some (Some q) -> rq_has_root q = true ->
  kn_read fi st o = Ok (Some k, st') -> kn_path k = op_path o ++ [92] ++ kn_name k /\ outcome q k <> NoMatch /\ (is_exact k = true -> outcome q k = KeyMatch).
Proof.
  intros EM F H. unfold kn_read. destruct (get_from _ _) as [s|]; [|discriminate]. cbn [ok_or]. unfold read_from_slice. rewrite EM, F.
  destruct (kn_cases st s (op_offset o) (op_path o) (op_seq o)) as [(OK & nm & w & NM & E)|(_ & E)]; rewrite E; [|discriminate].
  cbv beta iota. set (k0 := kn_at _ _ _ _ _ _ _).
  unfold check_cell. rewrite H, andb_false_r. cbv zeta. destruct (st_get_root_path_offset _ _) as [x st1].
  unfold check_key_match. rewrite H. cbv zeta. rewrite str_from_0. cbv beta iota. fold (outcome q k0).
  set (G := fun k => kn_path k = op_path o ++ [92] ++ nm /\ kn_name k = nm /\ kn_filter k = None).
  assert (K0 : G k0) by (repeat split).
  assert (V : forall b k1, (if b : bool then let* (k, ok) := read_values fi st1 (op_seq o) k0 in Ok (if ok : bool then k else kn_add_log WarningParse k) else Ok k0) = Ok k1 -> G k1).
  { intros b k1. destruct b; [|now intros [= <-]].
    destruct (read_values fi st1 (op_seq o) k0) as [[k2 ok]| | |] eqn:RV; try discriminate. cbv beta iota. intros [= <-].
    assert (Y : G k2).
    { revert RV. unfold read_values. destruct (_ && _); [|now intros [= <- _]].
      destruct (1048576 <? _); [now intros [= <- _]|]. destruct (parse_key_values _ _ _) as [offs|]; [|now intros [= <- _]].
      destruct (read_values_loop _ _ _ _ _) as [[[vs logs] ok']| | |] eqn:EL; try discriminate. intros [= <- _]. exact K0. }
    destruct ok; exact Y. }
  assert (Q : forall k, G k -> outcome q k = outcome q k0) by (intros y (Y & _); unfold outcome; rewrite Y; reflexivity).
  destruct (outcome q k0) eqn:O; [discriminate| |].
  all: match goal with |- (let* k := (if ?b then _ else _) in _) = _ -> _ => pose proof (V b) as V1 end.
  all: match goal with |- (let* k := ?x in _) = _ -> _ => destruct x as [k1| | |]; try discriminate end.
  all: specialize (V1 k1 eq_refl); cbv beta iota zeta; intros [= <- _]; specialize (Q _ V1); destruct V1 as (X1 & X2 & X3).
  - split; [rewrite X2; exact X1|]. rewrite Q. split; [discriminate|]. unfold is_exact. rewrite X3. discriminate.
  - split; [cbn [kn_path kn_name kn_set_filter]; rewrite X2; exact X1|]. change (outcome q (kn_set_filter (Some MExact) k1)) with (outcome q k1). rewrite Q. now split.
Qed.
Lemma children_outcome fi path sm f q seq offs : rq_has_root q = true -> forall st cs found logs st',
  read_children fi st path sm f (Some (Some q)) seq false offs = Ok (cs, found, logs, st') ->
  Forall (fun c => kn_path c = path ++ [92] ++ kn_name c /\ outcome q c <> NoMatch) cs /\ (found = true -> exists c, In c cs /\ outcome q c = KeyMatch).
Proof.
  intros H. induction offs as [|o r IH]; intros st cs found logs st'; cbn [read_children]; [intros [= <- <- _ _]; split; [constructor|discriminate]|].
  destruct (kn_read _ _ _) as [[[c|] st1]| | |] eqn:E; try discriminate.
  - destruct (read_children _ _ _ _ _ _ _ _ r) as [[[[cs2 found2] logs2] st2]| | |] eqn:R; try discriminate. intros [= <- <- _ _].
    destruct (IH _ _ _ _ _ R) as (I1 & I2). destruct (read_outcome fi st (mkOpt o path (Some (Some q)) sm seq false) q c st1 eq_refl eq_refl H E) as (P1 & P2 & P3).
    assert (P : kn_path (child_filter_state sm f c) = kn_path c /\ kn_name (child_filter_state sm f c) = kn_name c)
      by (unfold child_filter_state; destruct (kn_filter c); [easy|]; destruct sm; [easy|]; destruct (f_is_valid f); easy).
    destruct P as (PP & PN). assert (PO : outcome q (child_filter_state sm f c) = outcome q c) by (unfold outcome; now rewrite PP).
    split; [constructor; [|exact I1]; rewrite PP, PN, PO; auto|]. intros FD. apply orb_true_iff in FD as [FD|FD].
    + eexists. split; [now left|]. rewrite PO. now apply P3.
    + destruct (I2 FD) as (d & D1 & D2). exists d. split; [now right|exact D2].
  - apply IH.
  - destruct (read_children _ _ _ _ _ _ _ _ r) as [[[[cs2 found2] logs2] st2]| | |] eqn:R; try discriminate. intros [= <- <- _ _]. exact (IH _ _ _ _ _ R).
Qed.
Lemma sub_keys_outcome fi st k q seq k' cs found st' : rq_has_root q = true -> rq_children q = false ->
  read_sub_keys_internal fi st k (Some q) seq false = Ok (k', cs, found, st') ->
  Forall (fun c => kn_path c = kn_path k ++ [92] ++ kn_name c /\ outcome q c <> NoMatch) cs /\ (found = true -> exists c, In c cs /\ outcome q c = KeyMatch).
Proof.
  intros H C. assert (N : Forall (fun c => kn_path c = kn_path k ++ [92] ++ kn_name c /\ outcome q c <> NoMatch) [] /\ (false = true -> exists c, In c [] /\ outcome q c = KeyMatch))
    by (split; [constructor|discriminate]).
  unfold read_sub_keys_internal. destruct (is_allocated _); [|intros [= _ <- <- _]; exact N]. destruct (1048576 <? _); [intros [= _ <- <- _]; exact N|].
  destruct (0 <? _); [|intros [= _ <- <- _]; exact N]. destruct (parse_sub_key_list _ _ _) as [offs| | |]; try discriminate; [|intros [= _ <- <- _]; exact N].
  cbn [f_return_sub_keys]. rewrite C, andb_false_r. cbv zeta.
  match goal with |- context [read_children fi st ?p ?sm ?f ?sf seq false offs] => destruct (read_children fi st p sm f sf seq false offs) as [[[[cs2 found2] logs] st2]| | |] eqn:R end; try discriminate.
  cbv beta iota. intros [= _ <- <- _]. exact (children_outcome _ _ _ _ _ _ _ H _ _ _ _ _ R).
Qed.
Lemma segments_full segs : forall comps, match_segments segs comps = KeyMatch -> length segs = length comps.
Proof.
  induction segs as [|s segs IH]; intros [|c comps]; cbn [match_segments length]; try discriminate; [reflexivity|].
  destruct (comp_match c s); [|discriminate]. intros E. f_equal. now apply IH.
Qed.
Lemma full_segments segs : forall comps, match_segments segs comps <> NoMatch -> length segs = length comps -> match_segments segs comps = KeyMatch.
Proof.
  induction segs as [|s segs IH]; intros [|c comps]; cbn [match_segments length]; try discriminate; [reflexivity|].
  destruct (comp_match c s); [|now intros X; elim X]. intros N [= E]. now apply IH.
Qed.
Lemma no_slash s : ~ In 92 s -> slashes s = 0%nat.
Proof.
  unfold slashes. induction s as [|c s IH]; [reflexivity|]. intros N. cbn [List.filter]. destruct (N.eqb_spec 92 c) as [<-|]; [elim N; now left|].
  apply IH. intros I. apply N. now right.
Qed.

Lemma read_path fi st o k st' : quiet st -> kn_read fi st o = Ok (Some k, st') -> kn_path k = op_path o ++ [92] ++ kn_name k.
Proof.
  intros M. unfold kn_read. destruct (get_from _ _) as [slice|]; [|discriminate]. cbn [ok_or]. unfold read_from_slice.
  destruct (kn_cases st slice (op_offset o) (op_path o) (op_seq o)) as [(_ & nm & w & _ & E)|(_ & E)]; rewrite E; [|discriminate].
  cbv beta iota. set (k0 := kn_at _ _ _ _ _ _ _). set (G := fun k => kn_path k = op_path o ++ [92] ++ kn_name k).
  assert (B0 : G k0) by reflexivity.
  destruct (match op_filter o with Some f => check_cell f st k0 | None => Ok (IterateKeys, st) end) as [[fl st1]| | |] eqn:EF; try discriminate.
  assert (RO : root_only st st1).
  { destruct (op_filter o); [exact (check_cell_state _ _ _ _ _ EF)|injection EF as _ <-; apply root_only_refl]. }
  pose proof (quiet_root_only' _ _ RO M) as M1. cbv beta iota. destruct fl; [discriminate| |].
  all: match goal with |- (let* k := ?x in _) = _ -> _ => destruct x as [k1| | |] eqn:EV; try discriminate end.
  all: assert (A1 : G k1);
    [destruct (_ && _) in EV; [|injection EV as <-; exact B0]; destruct (read_values _ _ _ _) as [[k2 ok]| | |] eqn:RV in EV; try discriminate;
     apply read_values_keeps in RV as (_ & V1 & V2 & _); assert (Y : G k2) by (unfold G; rewrite V1, V2; exact B0); injection EV as <-; destruct ok; exact Y|].
  all: cbv beta iota zeta.
  all: match goal with |- (let* k := (if _ then update_modified_lists _ _ ?x else _) in _) = _ -> _ => set (k2 := x) end.
  all: assert (G2 : G k2) by exact A1.
  all: destruct (op_modified o);
    [match goal with |- context [update_modified_lists ?f ?s ?k] => destruct (update_modified_lists f s k) as [k3| | |] eqn:U; try discriminate end
    |now intros [= <- _]].
  all: unfold uml_fuel in U; rewrite uml_quiet in U by apply M1; injection U as <-; now intros [= <- _].
Qed.

Section Path.
Context (fi : file_info) (rest : list N) (T : key_tree).
Local Notation whole := (with_more fi rest).
Context (B : bytes_ok (fi_buffer whole)) (HB : fi_hbin fi < 2 ^ 32) (CT : clean_names T).
Local Notation part := (partial fi rest T False).
Lemma part_name k : part k -> slashes (kn_name k) = 0%nat.
Proof.
  intros (_ & above & u & d & IN & _ & _ & SC & _ & NM & _). rewrite NM. apply no_slash. pose proof (clean_path T _ CT IN) as C. cbn [fst] in C.
  apply Forall_app in SC as (_ & SC). apply Forall_app in C as (_ & C). inversion SC; inversion C; subst. now apply utf8_no_slash.
Qed.
Lemma look_outcome q : rq_has_root q = true -> rq_children q = false -> forall fuel st k k' st', quiet st -> part k ->
  get_sub_key_internal fuel fi st k (Some q) None = Ok (Some k', st') -> outcome q k' = KeyMatch.
Proof.
  intros HR HC. induction fuel as [|fuel IH]; intros st k k' st' M G; [discriminate|]. cbn [get_sub_key_internal].
  destruct (read_sub_keys_internal fi st k (Some q) None false) as [[[[k1 cs] found] st1]| | |] eqn:R; try discriminate. cbv beta iota.
  pose proof (quiet_root_only' _ _ (read_sub_keys_state _ _ _ _ _ _ _ _ _ _ R) M) as M1.
  destruct (sub_keys_outcome _ _ _ _ _ _ _ _ _ HR HC R) as (O1 & O2).
  apply (sub_keys_partial fi rest T B HB False ltac:(contradiction)) in R as (_ & F); [|exact M|contradiction|exact G].
  destruct found.
  - intros [= E _]. destruct cs as [|c cs]; [discriminate|]. injection E as ->. destruct (O2 eq_refl) as (c & IC & KC).
    assert (D : forall x, In x (k' :: cs) -> slashes (kn_path x) = S (slashes (kn_path k))).
    { intros x I. rewrite Forall_forall in O1, F. destruct (O1 x I) as (P & _). rewrite P, !slashes_app, (part_name x (F x I)). change (slashes [92]) with 1%nat. lia. }
    unfold outcome in *. apply segments_full in KC. apply full_segments; [now inversion O1|].
    rewrite <- KC, !split_slashes, !slashes_lower, (D c IC), (D k' (or_introl eq_refl)). reflexivity.
  - clear k1 M G k st O1 O2. revert st1 M1. induction F as [|c r P F IHF]; intros st1 M1; [discriminate|].
    destruct (get_sub_key_internal fuel fi st1 c (Some q) None) as [[o1 st2]| | |] eqn:E; try discriminate. cbv beta iota.
    destruct o1 as [k2|]; [intros [= -> _]; exact (IH _ _ _ _ M1 P E)|].
    apply (look_part fi rest T B HB _ _ _ _ _ _ M1 P) in E as (M2 & _). now apply IHF.
Qed.
End Path.

Lemma reach t : forall above r u segs, In ((above ++ [t_name t]) ++ r, u) (preorder above t) -> same_names r segs -> In ((above ++ [t_name t]) ++ r, u) (reached above segs t).
Proof.
  induction t as [pos name vals subs IH] using tree_ind'. intros above r u segs I S. rewrite preorder_eq in I. cbn [t_name t_subs] in *.
  destruct I as [I|I].
  - injection I as E <-. assert (r = []) as -> by (rewrite <- (app_nil_r (above ++ [name])) in E at 1; now apply app_inv_head in E).
    inversion S; subst. left. now rewrite app_nil_r.
  - apply in_flat_map in I as (s & IS & I). pose proof (TreeFilter.preorder_names s (above ++ [name])) as X. rewrite Forall_forall in X. destruct (X _ I) as (more & E). cbn [fst] in E.
    rewrite <- (app_assoc (above ++ [name]) [t_name s] more) in E. apply app_inv_head in E. subst r. inversion S as [|? n ? segs' S1 S2]; subst. cbn [reached t_name t_subs]. apply in_flat_map. exists s.
    split; [apply filter_In; auto|]. rewrite (app_assoc (above ++ [name]) [t_name s] more) in *. rewrite Forall_forall in IH. now apply IH.
Qed.
Lemma same_of pre : forall names, Forall (Forall scalar) pre -> Forall (Forall scalar) names -> len names = len pre ->
  forallb (fun cs => seg_match (fst cs) (snd cs)) (combine (map lit pre) names) = true -> same_names names pre.
Proof.
  induction pre as [|p pre IH]; intros names P N L E; destruct names as [|n names]; rewrite ?len_cons in L; change (len (@nil (list BinNums.N))) with 0%N in L; [apply Forall2_nil|lia|lia|].
  inversion P; inversion N; subst. cbn [map combine forallb fst snd] in E. apply andb_true_iff in E as (E1 & E2). rewrite lit_match in E1 by assumption.
  constructor; [exact E1|]. apply IH; auto. lia.
Qed.

Lemma cut_path order fuel hash full buffer files rest t p n a segs b (has_root : bool) k p' : known_file_type buffer ->
  build order fuel hash false full buffer files = Ok p -> hive (ps_buffer p ++ rest) t -> num_at (ps_buffer p) 36 4 = 32 -> clean_names t ->
  path_names segs -> (has_root = true -> (length segs <= 1)%nat -> (b <= 1)%nat) ->
  get_key n p (utf8 (repeat 92 a ++ joined segs ++ repeat 92 b)) has_root = Ok (Some k, p') ->
  exists x, In x (reached [] (if has_root then tl segs else segs) t) /\ key_partly k (fst x) (snd x).
Proof.
  intros K BU HV R32 CT PN HRB GK. destruct HV as (B & _ & TP & TS & _). apply (build_plain order fuel hash full) in BU as (P & (H & _ & name & BB) & _); [|exact K].
  assert (FI : with_more (ps_file p) rest = mkFI 4096 (ps_buffer p ++ rest)).
  { unfold with_more, ps_buffer, ps_hbin in *. now rewrite H. }
  assert (HB : fi_hbin (ps_file p) < 2 ^ 32) by (unfold ps_hbin in H; rewrite H; reflexivity).
  rewrite <- FI in TS. change (bytes_ok (fi_buffer (with_more (ps_file p) rest))) in B.
  pose proof PN as (S & CL & F & LS). set (sub := if has_root then tl segs else segs).
  assert (SUB : (if has_root then strip_root (match segs with [] => [] | _ => utf8 (joined segs ++ repeat 92 b) end)
                 else match segs with [] => [] | _ => utf8 (joined segs ++ repeat 92 b) end)
    = match sub with [] => [] | _ => utf8 (joined sub ++ repeat 92 b) end).
  { unfold sub. destruct has_root; [|reflexivity]. destruct segs as [|m r]; [reflexivity|]. cbn [tl].
    apply Forall_cons_iff in S as [S _]. apply Forall_cons_iff in CL as [CL _]. apply strip_path; [exact S|exact CL|].
    intros ->. apply HRB; [reflexivity|]. cbn. lia. }
  assert (GS : good sub).
  { unfold sub. destruct has_root; [|now split]. destruct segs; [split; constructor|]. cbn [tl].
    apply Forall_cons_iff in S as [_ S]. apply Forall_cons_iff in CL as [_ CL]. now split. }
  assert (LS' : hd_error (rev sub) <> Some []).
  { unfold sub. destruct has_root; [|exact LS]. destruct segs as [|m r]; [discriminate|]. cbn [tl rev] in *.
    destruct (rev r); [discriminate|exact LS]. }
  assert (PT : Forall scalar (t_name t) /\ ~ In 92 (t_name t)).
  { split; [|destruct t; now apply Forall_cons_iff in CT as [CT _]].
    destruct (key_parse (with_more (ps_file p) rest) (ps_state p) true t [] B TS) as (? & ? & ? & ? & _ & _ & _ & _ & _ & _ & _ & SN & _). exact SN. }
  destruct PT as (ST & NT).
  assert (SL : forall names, Forall (Forall scalar) names -> Forall (fun m => ~ In 92 m) names -> slashes (utf8 (spelled names)) = length names).
  { clear. intros names S. induction S as [|m r S1 S IH]; intros C; [reflexivity|]. inversion C; subst. cbn [spelled flat_map app]. fold (spelled r).
    rewrite utf8_slash, utf8_app. change (92 :: ?l) with ([92] ++ l). rewrite !slashes_app, IH by assumption. rewrite (no_slash (utf8 m)) by now apply utf8_no_slash. reflexivity. }
  assert (X : exists names u, In (names, u) (preorder [] t) /\ key_partly k names u /\ Forall (Forall scalar) names
    /\ kn_path k = utf8 (spelled names) /\ (sub = [] /\ length names = 1%nat \/ exists q, rq_path q = map lit ([] :: t_name t :: sub) /\ outcome q k = KeyMatch)).
  { assert (PK : forall k, partial (ps_file p) rest t False k -> exists names u, In (names, u) (preorder [] t) /\ key_partly k names u /\ Forall (Forall scalar) names /\ kn_path k = utf8 (spelled names)).
    { intros k0 (_ & above & u & d & IN & _ & _ & SC & O & NM & PA & A & _ & _ & seen & missing & V1 & V2 & _).
      exists (above ++ [t_name u]), u. split; [exact IN|]. split; [|now split]. split; [exact O|].
      split; [rewrite NM; apply read_utf8_utf8; apply Forall_app in SC as (_ & SC); now inversion SC|].
      split; [rewrite PA; apply read_utf8_utf8; now apply spelled_scalar|]. split; [exact A|eauto]. }
    revert GK. unfold get_key, get_root_key. rewrite BB, H, (root_offset_32 _ _ R32), <- TP.
    destruct (kn_read (ps_file p) (ps_state p) _) as [[[r|] st]| | |] eqn:E; try discriminate. cbv beta iota zeta.
    pose proof (quiet_root_only' _ _ (kn_read_state _ _ _ _ _ E) (plain_quiet _ _ _ P)) as M.
    pose proof (read_path _ _ _ _ _ (plain_quiet _ _ _ P) E) as RP. cbn [op_path app] in RP.
    assert (RO : partial (ps_file p) rest t False r) by (apply (read_part (ps_file p) rest t B HB False ltac:(contradiction) (ps_state p) true [] t None true true r st (plain_quiet _ _ _ P) TS) in E;
      [exact E|rewrite preorder_eq; now left|constructor|auto]).
    change (ps_file (ps_set_state st p)) with (ps_file p). change (ps_state (ps_set_state st p)) with st.
    assert (RL : forall names u, In (names, u) (preorder [] t) -> Forall (Forall scalar) names -> kn_path r = utf8 (spelled names) -> length names = 1%nat).
    { intros names u IN SC PA. rewrite <- (SL names SC (clean_path t _ CT IN)), <- PA, RP. change (92 :: kn_name r) with ([92] ++ kn_name r).
      rewrite slashes_app, (part_name _ _ _ CT r RO). reflexivity. }
    rewrite trim_path by exact PN.
    match goal with |- context [get_sub_key_by_path _ _ _ _ ?s] => replace s with (match sub with [] => [] | _ => utf8 (joined sub ++ repeat 92 b) end) by (symmetry; exact SUB) end.
    destruct (list_eq_dec (list_eq_dec N.eq_dec) sub []) as [SE|NE].
    - rewrite SE. cbn [get_sub_key_by_path]. intros [= <- _]. destruct (PK r RO) as (names & u & IN & KP & SC & PA). exists names, u.
      repeat (split; [assumption|]). left. split; [reflexivity|exact (RL names u IN SC PA)].
    - replace (match sub with [] => [] | _ => utf8 (joined sub ++ repeat 92 b) end) with (utf8 (joined sub ++ repeat 92 b)) by (destruct sub; [contradiction|reflexivity]).
      destruct (PK r RO) as (rn & ru & RIN & _ & RSC & RPA). pose proof (RL rn ru RIN RSC RPA) as R1.
      pose proof (TreeFilter.preorder_names t []) as PX. rewrite Forall_forall in PX. destruct (PX _ RIN) as (more & ME). cbn [fst app] in ME. subst rn.
      destruct more; [|discriminate R1]. clear PX RIN R1.
      unfold get_sub_key_by_path. destruct (utf8 (joined sub ++ repeat 92 b)) as [|c0 w0] eqn:U.
      { exfalso. destruct (last_split sub NE LS') as (pre & z & SZ & Z). 
        assert (J : spelled (pre ++ [z]) <> [92]).
        { rewrite spelled_app. cbn [spelled flat_map]. rewrite app_nil_r. destruct pre as [|m pre]; [destruct z; [contradiction|discriminate]|].
          cbn [spelled flat_map app]. destruct z; [contradiction|]. intros Y. injection Y as Y. apply app_eq_nil in Y as [_ Y]. discriminate. }
        apply J. rewrite <- SZ, spelled_joined by exact NE. f_equal. rewrite utf8_app in U. apply app_eq_nil in U as [U _].
        destruct (joined sub) as [|c w]; [reflexivity|]. exfalso. cbn [utf8 flat_map] in U. apply app_eq_nil in U as [U _].
        unfold utf8_char in U. repeat match type of U with (if ?b then _ else _) = _ => destruct b end; discriminate. }
      rewrite <- U. clear SUB U c0 w0. set (q := with_has_root true _).
      assert (PQ : rq_path q = map lit ([] :: t_name t :: sub)).
      { unfold q, with_has_root, add_key_path, empty_query. cbn [rq_path app].
        replace (kn_path r ++ BS :: utf8 (joined sub ++ repeat 92 b)) with (utf8 (spelled (t_name t :: sub) ++ repeat 92 b)).
        - apply path_components.
          + destruct GS as [G3 G4]. split; now constructor.
          + discriminate.
          + cbn [rev]. destruct (rev sub) as [|z l] eqn:RS; [|exact LS']. exfalso. apply NE. apply (f_equal (@rev _)) in RS. now rewrite rev_involutive in RS.
        - rewrite RPA. change (t_name t :: sub) with ([t_name t] ++ sub). rewrite spelled_app, (spelled_joined sub NE). rewrite <- app_assoc. cbn [app]. rewrite utf8_app, utf8_slash. reflexivity. }
      destruct (get_sub_key_internal _ _ _ _ _ _) as [[o st']| | |] eqn:L; try discriminate. intros [= -> _].
      pose proof (look_outcome (ps_file p) rest t B HB CT q eq_refl eq_refl _ _ _ _ _ M RO L) as OK.
      apply (look_part (ps_file p) rest t B HB _ _ _ _ _ _ M RO) in L as (_ & L). specialize (L k eq_refl).
      destruct (PK k L) as (names & u & IN & KP & SC & PA). exists names, u. repeat (split; [assumption|]). right. now exists q. }
  destruct X as (names & u & IN & KP & SC & PA & X). exists (names, u). split; [|exact KP].
  pose proof (TreeFilter.preorder_names t []) as PX. rewrite Forall_forall in PX. destruct (PX _ IN) as (more & ME). cbn [fst] in ME. subst names.
  apply reach; [exact IN|]. pose proof (clean_path t _ CT IN) as CN. cbn [fst] in CN. destruct X as [(-> & L1)|(q & PQ & OK)].
  - destruct more; [constructor|discriminate L1].
  - unfold outcome in OK. rewrite PA, lower_path, split_spelled in OK by (exact SC || now apply folded_clean).
    change ([] :: folded (([] ++ [t_name t]) ++ more)) with (folded ([] :: t_name t :: more)) in OK. rewrite match_spec, PQ in OK by (constructor; [constructor|exact SC]).
    destruct (forallb _ _) eqn:FB in OK; [|discriminate]. destruct (_ <? _) in OK; [discriminate|]. destruct (N.eqb_spec (len ([] :: t_name t :: more)) (len (map lit ([] :: t_name t :: sub)))) as [LE|]; [|discriminate].
    rewrite len_map, !len_cons in LE. apply same_of in FB.
    + inversion FB as [|? ? ? ? _ F1]; subst. now inversion F1.
    + constructor; [constructor|]. constructor; [exact ST|apply GS].
    + constructor; [constructor|exact SC].
    + rewrite !len_cons. lia.
Qed.
