(** Filtered reading and iteration of a well-formed hive. *)
From Verif Require Import Base BaseFacts Util UtilSpec UtilText UtilLz LayoutSpec LayoutFacts BaseBlock Types Value Node Recover
  Parser NodeFrame CellSpec CellFacts CellData CellList CellRead TreeSpec TreeRead TreeIter.

(** ** Text *)
Lemma fold_lower : map fold_case = to_lower. Proof. reflexivity. Qed.
Lemma fold_scalar n : Forall scalar n -> Forall scalar (map fold_case n).
Proof.
  intros T. apply Forall_map. eapply Forall_impl; [|exact T]. intros c H. unfold scalar, fold_case in *.
  destruct (N.leb_spec 65 c), (N.leb_spec c 90); cbn [andb]; lia.
Qed.
Lemma lower_utf8 t : Forall scalar t -> to_lower (utf8 t) = utf8 (map fold_case t).
Proof.
  induction 1 as [|c t Hc Ht IH]; [easy|]. change (utf8 (c :: t)) with (utf8_char c ++ utf8 t).
  cbn [map]. change (utf8 (fold_case c :: map fold_case t)) with (utf8_char (fold_case c) ++ utf8 (map fold_case t)).
  unfold to_lower in *. rewrite map_app, IH, lower_char by easy. reflexivity.
Qed.
Lemma fold_idem c : fold_case (fold_case c) = fold_case c.
Proof. unfold fold_case. destruct (N.leb_spec 65 c), (N.leb_spec c 90); cbn [andb];
  repeat match goal with |- context [?a <=? ?b] => destruct (N.leb_spec a b) end; cbn [andb]; lia. Qed.
Lemma fold_name_idem n : map fold_case (map fold_case n) = map fold_case n.
Proof. rewrite map_map. apply map_ext, fold_idem. Qed.
Lemma fold_spelled names : map fold_case (spelled names) = spelled (map (map fold_case) names).
Proof. induction names as [|n r IH]; [reflexivity|]. cbn [spelled flat_map map]. rewrite map_app. cbn. f_equal. now f_equal. Qed.
Lemma utf8_no_slash n : Forall scalar n -> ~ In 92 n -> ~ In 92 (utf8 n).
Proof.
  intros S NI I. apply in_flat_map in I as (c & C & I). rewrite Forall_forall in S. specialize (S c C).
  assert (c <> 92) by (intros ->; contradiction). clear NI C. unfold utf8_char, scalar in *.
  destruct (N.ltb_spec c 0x80); [cbn [In] in I; lia|].
  destruct (N.ltb_spec c 0x800); [|destruct (N.ltb_spec c 0x10000)]; cbn [In] in I; lia.
Qed.
Lemma fold_no_slash n : ~ In 92 n -> ~ In 92 (map fold_case n).
Proof.
  intros NI I. apply in_map_iff in I as (c & E & I). apply NI. change (fold_case c) with (lower c) in E. apply (proj1 (lower_92 c)) in E. subst c. exact I.
Qed.
Lemma split_cons n r : ~ In 92 n -> split_bs (n ++ 92 :: r) = n :: split_bs r.
Proof.
  induction n as [|c n IH]; intros NI; [reflexivity|]. cbn [app split_bs]. unfold BS at 1.
  destruct (N.eqb_spec c 92) as [->|]; [exfalso; apply NI; now left|]. rewrite IH; [reflexivity|]. intros I. apply NI. now right.
Qed.
Lemma split_one n : ~ In 92 n -> split_bs n = [n].
Proof.
  induction n as [|c n IH]; intros NI; [reflexivity|]. cbn [split_bs]. unfold BS at 1.
  destruct (N.eqb_spec c 92) as [->|]; [exfalso; apply NI; now left|]. rewrite IH; [reflexivity|]. intros I. apply NI. now right.
Qed.
Lemma split_spelled names : Forall (fun n => ~ In 92 n) names -> split_bs (spelled names) = [] :: names.
Proof.
  induction 1 as [|n r H F IH]; [reflexivity|]. cbn [spelled flat_map app]. cbn [split_bs]. unfold BS at 1.
  change (92 =? 92) with true. cbv beta iota. f_equal. clear -H IH. fold (spelled r).
  destruct r as [|m r].
  - cbn [spelled flat_map]. rewrite app_nil_r. now apply split_one.
  - cbn [spelled flat_map app] in IH |- *. rewrite split_cons by exact H. f_equal.
    cbn [split_bs] in IH. unfold BS at 1 in IH. change (92 =? 92) with true in IH. cbv beta iota in IH. now injection IH.
Qed.
Lemma utf8_spelled names : utf8 (spelled names) = spelled (map utf8 names).
Proof. induction names as [|n r IH]; [reflexivity|]. cbn [spelled flat_map map app]. rewrite utf8_slash, utf8_app. unfold spelled in IH. now rewrite IH. Qed.

(** The text a key is matched by: its path in lower case. *)
Definition good (names : list (list N)) : Prop := Forall (Forall scalar) names /\ Forall (fun n => ~ In 92 n) names.
Definition folded (names : list (list N)) : list (list N) := map (fun n => utf8 (map fold_case n)) names.
Lemma lower_path names : Forall (Forall scalar) names -> to_lower (utf8 (spelled names)) = spelled (folded names).
Proof.
  intros S. rewrite lower_utf8 by now apply spelled_scalar. rewrite fold_spelled, utf8_spelled. unfold folded. now rewrite map_map.
Qed.
Lemma folded_clean names : good names -> Forall (fun n => ~ In 92 n) (folded names).
Proof.
  intros (S & C). apply Forall_map. apply Forall_forall. intros n I. rewrite Forall_forall in S, C.
  apply utf8_no_slash; [apply fold_scalar; auto|apply fold_no_slash; auto].
Qed.
Lemma comp_seg c n : Forall scalar n -> comp_match c (utf8 (map fold_case n)) = seg_match c n.
Proof.
  intros S. unfold comp_match, seg_match. rewrite lower_utf8 by now apply fold_scalar. rewrite fold_name_idem. reflexivity.
Qed.

(** The outcome of the filter for a key. *)
Definition flag_of (q : reg_query) (names : list (list N)) : filter_flags :=
  if agrees q names then
    if len (segments q names) <? len (rq_path q) then IterateKeys
    else if len (segments q names) =? len (rq_path q) then KeyMatch else NoMatch
  else NoMatch.
Lemma match_spec segs : forall comps, Forall (Forall scalar) segs ->
  match_segments (folded segs) comps
  = if forallb (fun cs => seg_match (fst cs) (snd cs)) (combine comps segs) then
      if len segs <? len comps then IterateKeys else if len segs =? len comps then KeyMatch else NoMatch
    else NoMatch.
Proof.
  induction segs as [|s segs IH]; intros comps S; cbn [folded map match_segments].
  - destruct comps as [|c comps]; [reflexivity|]. cbn [combine forallb]. rewrite len_cons. change (len (@nil (list N))) with 0.
    destruct (N.ltb_spec 0 (len comps + 1)); [reflexivity|lia].
  - apply Forall_cons_iff in S as [S0 S]. destruct comps as [|c comps].
    + cbn [combine forallb]. rewrite len_cons. change (len (@nil component)) with 0.
      destruct (N.ltb_spec (len segs + 1) 0); [lia|]. destruct (N.eqb_spec (len segs + 1) 0); [lia|reflexivity].
    + cbn [combine forallb fst snd]. rewrite comp_seg by exact S0. destruct (seg_match c s); [|reflexivity]. cbn [andb].
      fold (folded segs). rewrite IH by exact S. rewrite !len_cons.
      destruct (forallb _ _); [|reflexivity].
      destruct (N.ltb_spec (len segs) (len comps)), (N.ltb_spec (len segs + 1) (len comps + 1)); try lia; [reflexivity|].
      destruct (N.eqb_spec (len segs) (len comps)), (N.eqb_spec (len segs + 1) (len comps + 1)); try lia; reflexivity.
Qed.

(** The cached length of the root's part of the paths. *)
Definition root_part (root : list N) : N := len (utf8 root) + 2.
Definition cached (root : list N) (st : state) : Prop := st_root_offset st = 0 \/ st_root_offset st = root_part root.
Lemma len_utf8_fold n : Forall scalar n -> len (utf8 (map fold_case n)) = len (utf8 n).
Proof. intros S. rewrite <- lower_utf8 by exact S. apply len_map. Qed.
Lemma root_offset_path root r : ~ In 92 root -> get_root_path_offset (spelled (root :: r)) = match r with [] => 0 | _ => len root + 2 end.
Proof.
  intros NI. unfold get_root_path_offset. cbn [spelled flat_map app]. change (92 =? 92) with true. cbv beta iota.
  assert (F : forall s, find_byte 92 (root ++ 92 :: s) = Some (len root)).
  { clear -NI. induction root as [|c root IH]; intros s; [reflexivity|]. cbn [app find_byte].
    destruct (N.eqb_spec c 92) as [->|]; [exfalso; apply NI; now left|]. rewrite IH by (intros I; apply NI; now right).
    rewrite len_cons. cbn [option_map]. f_equal. lia. }
  assert (G : find_byte 92 root = None).
  { clear -NI. induction root as [|c root IH]; [reflexivity|]. cbn [find_byte].
    destruct (N.eqb_spec c 92) as [->|]; [exfalso; apply NI; now left|]. rewrite IH; [reflexivity|]. intros I; apply NI; now right. }
  destruct r as [|m r]; [cbn [flat_map]; rewrite app_nil_r, G; reflexivity|]. cbn [flat_map app]. now rewrite F.
Qed.
Lemma check_spec q st k root r : good (root :: r) -> r <> [] -> kn_path k = utf8 (spelled (root :: r)) ->
  is_key_root k = false -> cached root st ->
  exists st', check_cell (Some q) st k = Ok (flag_of q (root :: r), st') /\ root_only st st' /\ cached root st'.
Proof.
  intros G NE P R C. pose proof G as (S & CL). unfold check_cell. rewrite R. cbn [andb]. cbv zeta.
  rewrite P, lower_path by exact S. set (path := spelled (folded (root :: r))).
  pose proof (folded_clean _ G) as FC. apply Forall_cons_iff in S as [S0 S]. apply Forall_cons_iff in CL as [C0 CL].
  assert (RO : get_root_path_offset path = root_part root).
  { subst path. cbn [folded map]. rewrite root_offset_path.
    - fold (folded r). destruct r as [|m r]; [contradiction|]. cbn [folded map]. unfold root_part. now rewrite len_utf8_fold.
    - apply utf8_no_slash; [now apply fold_scalar|now apply fold_no_slash]. }
  assert (X : exists st', st_get_root_path_offset st path = (root_part root, st') /\ root_only st st' /\ cached root st').
  { unfold st_get_root_path_offset. destruct (N.eqb_spec (st_root_offset st) 0) as [Z|Z].
    - exists (set_root_offset (root_part root) st). rewrite RO. split; [reflexivity|]. split; [reflexivity|]. right. reflexivity.
    - exists st. destruct C as [C|C]; [contradiction|]. rewrite C. split; [reflexivity|]. split; [auto|]. now right. }
  destruct X as (st' & -> & RT & CC). exists st'. split; [|split; assumption].
  unfold check_key_match, flag_of, agrees, segments. destruct (rq_has_root q).
  - rewrite str_from_0. cbv beta iota. unfold path. rewrite split_spelled by exact FC.
    change ([] :: folded (root :: r)) with (folded ([] :: root :: r)). rewrite match_spec; [reflexivity|].
    constructor; [constructor|now constructor].
  - assert (SP : exists r', path = (92 :: utf8 (map fold_case root)) ++ 92 :: r' /\ spelled (folded r) = 92 :: r').
    { destruct r as [|m r]; [contradiction|]. unfold path. cbn [folded map spelled flat_map app].
      exists (utf8 (map fold_case m) ++ spelled (folded r)). split; reflexivity. }
    destruct SP as (r' & PE & RE).
    assert (T : is_text path).
    { exists (spelled (map (map fold_case) (root :: r))). split.
      - apply spelled_scalar, Forall_map. apply Forall_forall. intros n I. apply fold_scalar.
        destruct I as [<-|I]; [exact S0|]. rewrite Forall_forall in S. auto.
      - unfold path, folded. rewrite utf8_spelled, map_map. reflexivity. }
    replace (str_from path (root_part root)) with (Ok r').
    + cbv beta iota. f_equal. f_equal. cbn [tl]. rewrite <- match_spec by exact S. f_equal.
      apply Forall_cons_iff in FC as [_ FC]. pose proof (split_spelled (folded r) FC) as SS. rewrite RE in SS. cbn [split_bs] in SS.
      unfold BS at 1 in SS. change (92 =? 92) with true in SS. cbv beta iota in SS. now injection SS.
    + symmetry. rewrite PE in *. unfold root_part. rewrite <- len_utf8_fold by exact S0.
      replace (len (utf8 (map fold_case root)) + 2) with (len (92 :: utf8 (map fold_case root)) + 1) by (rewrite len_cons; lia).
      now apply str_from_slash.
Qed.

(** ** Reading one key under a filter *)
Lemma quiet_root_only st st' : root_only st st' -> quiet st -> quiet st'.
Proof. intros -> (A & B & C & D). repeat split; assumption. Qed.
Lemma strip_pos t : t_pos (without_values t) = t_pos t. Proof. now destruct t. Qed.
Lemma strip_name t : t_name (without_values t) = t_name t. Proof. now destruct t. Qed.
Lemma strip_subs t : t_subs (without_values t) = t_subs t. Proof. now destruct t. Qed.
Lemma strip_vals t : t_vals (without_values t) = []. Proof. now destruct t. Qed.
Lemma strip_positions t : positions (without_values t) = positions t. Proof. now destruct t. Qed.
Lemma strip_below t : below (without_values t) = below t. Proof. now destruct t. Qed.
Lemma key_load_q fi st root above t sm m q r : bytes_ok (fi_buffer fi) -> fi_hbin fi < 2 ^ 32 -> tree_stored fi false t ->
  m = false \/ quiet st -> above ++ [t_name t] = root :: r -> r <> [] -> Forall (Forall scalar) above ->
  Forall (fun n => ~ In 92 n) (root :: r) -> cached root st ->
  exists st', root_only st st' /\ cached root st'
  /\ match flag_of q (root :: r) with
     | NoMatch => kn_read fi st (mkOpt (t_pos t) (utf8 (spelled above)) (Some (Some q)) sm None m) = Ok (None, st')
     | IterateKeys => sm = false ->
         exists k, kn_read fi st (mkOpt (t_pos t) (utf8 (spelled above)) (Some (Some q)) sm None m) = Ok (Some k, st')
         /\ loaded fi (utf8 (spelled above)) false (without_values t) k
     | KeyMatch =>
         exists k, kn_read fi st (mkOpt (t_pos t) (utf8 (spelled above)) (Some (Some q)) sm None m)
                   = Ok (Some (kn_set_filter (Some MExact) k), st')
         /\ loaded fi (utf8 (spelled above)) false t k
     end.
Proof.
  intros B H S M NE RN SA CL CA. set (path := utf8 (spelled above)). destruct (key_parse fi st false t path B S)
    as (d & raw & k & rest & F & R & V & U & A & G & _ & SC & E & BK & KV).
  assert (PK : kn_path k = utf8 (spelled (root :: r))).
  { rewrite <- NE, spelled_path. destruct BK as (_ & _ & BP & _). exact BP. }
  assert (RK : is_key_root k = false).
  { destruct BK as (_ & _ & _ & BD & _). unfold is_key_root. rewrite BD. 
    change (kd_flags (kd_with_full (if st_full st then Some (nk_table d) else None) d)) with (kd_flags d).
    rewrite root_flag. exact R. }
  assert (GN : good (root :: r)).
  { split; [|exact CL]. rewrite <- NE. apply Forall_app. split; [exact SA|]. now constructor. }
  destruct (check_spec q st k root r GN RN PK RK CA) as (st' & CE & RO & CA').
  exists st'. split; [exact RO|]. split; [exact CA'|].
  assert (M' : m = false \/ quiet st') by (destruct M; [now left|right; eapply quiet_root_only; eassumption]).
  destruct (bare_nsub _ _ _ _ _ _ BK) as (_ & _ & NV & _).
  unfold kn_read. cbn [op_offset]. rewrite G. cbn [ok_or]. unfold read_from_slice.
  cbn [op_offset op_path op_seq op_filter op_self_match op_modified]. rewrite E. cbv beta iota. rewrite CE. cbv beta iota.
  assert (UM : forall k0, (if m then update_modified_lists (uml_fuel st') st' k0 else Ok k0) = Ok k0).
  { intros k0. destruct m; [|reflexivity]. destruct M' as [M'|M']; [discriminate|]. unfold uml_fuel. now rewrite uml_quiet. }
  destruct (flag_of q (root :: r)).
  - reflexivity.
  - intros ->. unfold should_read_values. cbn [f_is_valid negb orb]. rewrite andb_false_r. cbv beta iota zeta. rewrite UM.
    exists k. split; [reflexivity|]. exists (st_full st), d, raw. 
    rewrite strip_name, strip_vals, strip_subs, KV. split; [|split; [constructor|repeat (split; [assumption|]); assumption]].
    unfold bare in *. rewrite strip_pos, strip_name. exact BK.
  - replace (should_read_values (Some (Some q)) KeyMatch sm) with true by (unfold should_read_values; now destruct sm).
    rewrite andb_true_r, NV.
    destruct (N.ltb_spec 0 (kd_nvalues d)) as [P|P].
    + destruct (values_load fi st' _ _ _ _ _ _ B H F V BK KV P) as (vs & -> & VS & _). cbv beta iota zeta. rewrite UM.
      exists (kn_set_values vs k). split; [reflexivity|]. exists (st_full st), d, raw. repeat (split; [assumption|]). assumption.
    + cbv beta iota zeta. rewrite UM. exists k. split; [reflexivity|]. exists (st_full st), d, raw. split; [exact BK|].
      split; [|repeat (split; [assumption|]); assumption]. rewrite KV. destruct V as (V & _).
      destruct (t_vals t); [constructor|]. rewrite len_cons in V. lia.
Qed.

(** ** The sub keys of a key under a filter *)
Definition names_of (x : pending) : list (list N) := p_above x ++ [t_name (p_tree x)].
Definition kid_flag (q : reg_query) (names : list (list N)) (s : key_tree) : filter_flags := flag_of q (names ++ [t_name s]).
Definition is_no (f : filter_flags) : bool := match f with NoMatch => true | _ => false end.
(** What the sub key becomes: its tree and its state. *)
Definition kid_seen (q : reg_query) (names : list (list N)) (s : key_tree) : key_tree * match_state :=
  match kid_flag q names s with KeyMatch => (s, MExact) | _ => (without_values s, MNone) end.
Definition kids_seen (q : reg_query) (names : list (list N)) (subs : list key_tree) : list (key_tree * match_state) :=
  map (kid_seen q names) (List.filter (fun s => negb (is_no (kid_flag q names s))) subs).
Definition seen (fi : file_info) (path : list N) (x : key_tree * match_state) (k : key_node) : Prop :=
  loaded fi path false (fst x) (kn_set_filter None k) /\ kn_filter k = Some (snd x).
Lemma set_filter_same k : kn_filter k = None -> kn_set_filter None k = k.
Proof. destruct k. cbn. now intros ->. Qed.
Lemma set_filter_twice a b k : kn_set_filter a (kn_set_filter b k) = kn_set_filter a k.
Proof. reflexivity. Qed.
Lemma clean_sub t s : clean_names t -> In s (t_subs t) -> clean_names s /\ ~ In 92 (t_name s).
Proof.
  unfold clean_names. intros C I. destruct t as [p n v subs]. cbn [all_names t_subs] in *. apply Forall_cons_iff in C as [_ C].
  rewrite Forall_forall in C. assert (X : forall n, In n (all_names s) -> ~ In 92 n).
  { intros m J. apply C. apply in_flat_map. now exists s. }
  split; [now apply Forall_forall|]. apply X. destruct s. now left.
Qed.
Lemma children_q fi q names root r m subs : bytes_ok (fi_buffer fi) -> fi_hbin fi < 2 ^ 32 ->
  names = root :: r -> good names -> Forall (tree_stored fi false) subs -> Forall (fun s => ~ In 92 (t_name s)) subs ->
  forall st, m = false \/ quiet st -> cached root st ->
  exists kids st', read_children fi st (utf8 (spelled names)) false (Some q) (Some (Some q)) None m (map t_pos subs)
     = Ok (kids, existsb (fun x => match snd x with MExact => true | _ => false end) (kids_seen q names subs), [], st')
  /\ root_only st st' /\ cached root st' /\ Forall2 (seen fi (utf8 (spelled names))) (kids_seen q names subs) kids.
Proof.
  intros B H NE (SA & CA) F C. induction F as [|s subs T F IH]; intros st M CS.
  { exists [], st. split; [reflexivity|]. split; [auto|]. split; [exact CS|constructor]. }
  apply Forall_cons_iff in C as [C0 C].
  destruct (key_load_q fi st root names s false m q (r ++ [t_name s]) B H T M) as (st1 & RO & CS1 & K).
  { rewrite NE. reflexivity. } { now destruct r. } { exact SA. }
  { change (root :: r ++ [t_name s]) with ((root :: r) ++ [t_name s]). rewrite <- NE. apply Forall_app. split; [exact CA|]. now constructor. }
  { exact CS. }
  change (root :: r ++ [t_name s]) with ((root :: r) ++ [t_name s]) in K. rewrite <- NE in K.
  change (flag_of q (names ++ [t_name s])) with (kid_flag q names s) in K.
  destruct (IH C st1) as (kids & st' & E & RO' & CS' & KS).
  { destruct M as [M|M]; [now left|right]. eapply quiet_root_only; eassumption. } { exact CS1. }
  unfold kids_seen. cbn [map read_children List.filter]. destruct (kid_flag q names s) eqn:FL; cbn [is_no negb].
  - rewrite K, E. exists kids, st'. split; [reflexivity|]. split; [eapply root_only_trans; eassumption|]. split; [exact CS'|exact KS].
  - destruct (K eq_refl) as (k & K1 & L). rewrite K1, E. cbv beta iota zeta.
    exists (child_filter_state false (Some q) k :: kids), st'.
    assert (X : kn_filter k = None) by (destruct L as (? & ? & ? & L & _); apply L).
    assert (IE : is_exact k = false) by (unfold is_exact; now rewrite X). rewrite IE.
    cbn [map existsb]. unfold kid_seen at 1 3. rewrite FL. cbn [snd orb].
    split; [reflexivity|]. split; [eapply root_only_trans; eassumption|]. split; [exact CS'|]. constructor; [|exact KS].
    unfold child_filter_state. rewrite X. cbn [f_is_valid]. split; [|reflexivity]. rewrite set_filter_twice, set_filter_same by exact X. exact L.
  - destruct K as (k & K1 & L). rewrite K1, E. cbv beta iota zeta.
    exists (child_filter_state false (Some q) (kn_set_filter (Some MExact) k) :: kids), st'.
    assert (X : kn_filter k = None) by (destruct L as (? & ? & ? & L & _); apply L).
    cbn [map existsb]. unfold kid_seen at 1 3. rewrite FL. cbn [snd orb].
    split; [reflexivity|]. split; [eapply root_only_trans; eassumption|]. split; [exact CS'|]. constructor; [|exact KS].
    split; [|reflexivity]. change (child_filter_state false (Some q) (kn_set_filter (Some MExact) k)) with (kn_set_filter (Some MExact) k).
    rewrite set_filter_twice, set_filter_same by exact X. exact L.
Qed.
Lemma children_none fi q names root r m sm subs : bytes_ok (fi_buffer fi) -> fi_hbin fi < 2 ^ 32 ->
  names = root :: r -> good names -> Forall (tree_stored fi false) subs -> Forall (fun s => ~ In 92 (t_name s)) subs ->
  Forall (fun s => kid_flag q names s = NoMatch) subs ->
  forall st, m = false \/ quiet st -> cached root st ->
  exists st', read_children fi st (utf8 (spelled names)) sm (Some q) (Some (Some q)) None m (map t_pos subs) = Ok ([], false, [], st')
  /\ root_only st st' /\ cached root st'.
Proof.
  intros B H NE (SA & CA) F C N. induction F as [|s subs T F IH]; intros st M CS.
  { exists st. split; [reflexivity|]. split; [auto|]. exact CS. }
  apply Forall_cons_iff in C as [C0 C]. apply Forall_cons_iff in N as [N0 N].
  destruct (key_load_q fi st root names s sm m q (r ++ [t_name s]) B H T M) as (st1 & RO & CS1 & K).
  { rewrite NE. reflexivity. } { now destruct r. } { exact SA. }
  { change (root :: r ++ [t_name s]) with ((root :: r) ++ [t_name s]). rewrite <- NE. apply Forall_app. split; [exact CA|]. now constructor. }
  { exact CS. }
  change (root :: r ++ [t_name s]) with ((root :: r) ++ [t_name s]) in K. rewrite <- NE in K.
  change (flag_of q (names ++ [t_name s])) with (kid_flag q names s) in K. rewrite N0 in K.
  destruct (IH C N st1) as (st' & E & RO' & CS').
  { destruct M as [M|M]; [now left|right]. eapply quiet_root_only; eassumption. } { exact CS1. }
  cbn [map read_children]. rewrite K, E. exists st'. split; [reflexivity|]. split; [eapply root_only_trans; eassumption|exact CS'].
Qed.
(** Below a match with child keys requested: everything. *)
Lemma children_all fi q path m subs st : bytes_ok (fi_buffer fi) -> fi_hbin fi < 2 ^ 32 -> m = false \/ quiet st ->
  Forall (tree_stored fi false) subs ->
  exists kids found, read_children fi st path true (Some q) None None m (map t_pos subs) = Ok (kids, found, [], st)
  /\ Forall2 (seen fi path) (map (fun s => (s, MDescendent)) subs) kids.
Proof.
  intros B H M F. induction F as [|t r T F (kids & found & E & IH)]; [exists [], false; split; [reflexivity|constructor]|].
  destruct (key_load fi st false t path true m B H T M) as (k & K & L).
  cbn [map read_children]. rewrite K, E. cbv beta iota zeta.
  exists (child_filter_state true (Some q) k :: kids). eexists. split; [reflexivity|].
  assert (X : kn_filter k = None) by (destruct L as (? & ? & ? & L & _); apply L).
  constructor; [|exact IH]. unfold child_filter_state. rewrite X. split; [|reflexivity].
  rewrite set_filter_twice, set_filter_same by exact X. exact L.
Qed.

(** ** Pending keys with their state *)
Definition fpend := (pending * option match_state)%type.
Definition hit (ms : option match_state) : bool := match ms with Some MExact | Some MDescendent => true | _ => false end.
Definition stands (fi : file_info) (x : fpend) (k : key_node) : Prop :=
  waits fi (fst x) (kn_set_filter None k) /\ kn_filter k = snd x.
(** The state agrees with the filter. *)
Definition consistent (q : reg_query) (root : list N) (x : fpend) : Prop :=
  let names := names_of (fst x) in
  (exists r, names = root :: r /\ (snd x = None <-> r = [])) /\ Forall (fun n => ~ In 92 n) names /\ clean_names (p_tree (fst x))
  /\ match snd x with
     | None => len (segments q names) < len (rq_path q)
     | Some MNone => agrees q names = true /\ len (segments q names) < len (rq_path q) /\ t_vals (p_tree (fst x)) = []
     | Some MExact => agrees q names = true /\ len (segments q names) = len (rq_path q)
     | Some MDescendent => agrees q names = true /\ len (rq_path q) < len (segments q names) /\ rq_children q = true
     end.
Definition kids_of_q (q : reg_query) (x : fpend) : list fpend :=
  let names := names_of (fst x) in
  if hit (snd x) then
    if rq_children q then map (fun s => ((names, false, s), Some MDescendent)) (t_subs (p_tree (fst x))) else []
  else map (fun y => ((names, false, fst y), Some (snd y))) (kids_seen q names (t_subs (p_tree (fst x)))).
Lemma segments_app q root r n : segments q ((root :: r) ++ [n]) = segments q (root :: r) ++ [n].
Proof. unfold segments. now destruct (rq_has_root q). Qed.
Lemma combine_long {A B} (a : list A) (b c : list B) : (length a <= length b)%nat -> combine a (b ++ c) = combine a b.
Proof. revert b. induction a as [|x a IH]; intros [|y b] L; cbn in *; try reflexivity; [lia|]. f_equal. apply IH. lia. Qed.
Lemma agrees_long q root r n : len (rq_path q) <= len (segments q (root :: r)) ->
  agrees q ((root :: r) ++ [n]) = agrees q (root :: r).
Proof. intros L. unfold agrees. rewrite segments_app, combine_long; [reflexivity|]. unfold len in L. lia. Qed.
Lemma combine_prefix {A B} (a : list A) (b c : list B) : exists d, combine a (b ++ c) = combine a b ++ d.
Proof. revert b. induction a as [|x a IH]; intros [|y b]; cbn; [now exists []|now exists []|now eexists|]. destruct (IH b) as (d & ->). now exists d. Qed.
Lemma agrees_prefix q root r more : agrees q ((root :: r) ++ more) = true -> agrees q (root :: r) = true.
Proof.
  unfold agrees. assert (S : segments q ((root :: r) ++ more) = segments q (root :: r) ++ more).
  { unfold segments. now destruct (rq_has_root q). }
  rewrite S. destruct (combine_prefix (rq_path q) (segments q (root :: r)) more) as (d & ->).
  rewrite forallb_app. now intros X%andb_prop.
Qed.
Lemma flag_hit q root r n : agrees q (root :: r) = true -> len (rq_path q) <= len (segments q (root :: r)) ->
  flag_of q ((root :: r) ++ [n]) = NoMatch.
Proof.
  intros A L. unfold flag_of. rewrite agrees_long, A, segments_app, len_app by exact L. change (len [n]) with 1.
  destruct (N.ltb_spec (len (segments q (root :: r)) + 1) (len (rq_path q))); [lia|].
  destruct (N.eqb_spec (len (segments q (root :: r)) + 1) (len (rq_path q))); [lia|reflexivity].
Qed.
Lemma kids_consistent q root x : consistent q root x -> Forall (consistent q root) (kids_of_q q x).
Proof.
  intros ((r & NE & RR) & CL & CT & ST). unfold kids_of_q. rewrite NE in *.
  assert (NM : forall (ms : match_state) s, In s (t_subs (p_tree (fst x))) -> 
     (exists r', names_of (((root :: r), false, s) : pending) = root :: r' /\ (Some ms = None <-> r' = []))
     /\ Forall (fun n => ~ In 92 n) (names_of (((root :: r), false, s) : pending)) /\ clean_names s).
  { intros ms s I. destruct (clean_sub _ _ CT I) as [C1 C2]. unfold names_of. cbn [p_above p_tree fst snd].
    split; [|split; [|exact C1]].
    - exists (r ++ [t_name s]). split; [reflexivity|]. split; [discriminate|]. now destruct r.
    - apply Forall_app. split; [exact CL|]. now constructor. }
  destruct (hit (snd x)) eqn:HT.
  - destruct (rq_children q) eqn:RC; [|constructor]. apply Forall_map, Forall_forall. intros s I.
    destruct (NM MDescendent s I) as (N1 & N2 & N3). split; [exact N1|]. split; [exact N2|]. split; [exact N3|].
    unfold names_of. cbn [snd fst p_above p_tree].
    assert (AL : agrees q (root :: r) = true /\ len (rq_path q) <= len (segments q (root :: r))).
    { destruct (snd x) as [[ | | ]|]; try discriminate; split; try apply ST; destruct ST as (_ & ST); lia. }
    destruct AL as [A L]. change ((p_above (root :: r, false, s) ++ [t_name (p_tree (root :: r, false, s))])) with ((root :: r) ++ [t_name s]).
    rewrite agrees_long, segments_app, len_app by exact L. change (len [t_name s]) with 1. split; [exact A|]. split; [lia|exact RC].
  - apply Forall_map. unfold kids_seen. apply Forall_map, Forall_forall. intros s I. apply filter_In in I as [I FL].
    unfold kid_seen. destruct (kid_flag q (root :: r) s) eqn:KF; try discriminate.
    + destruct (NM MNone s I) as (N1 & N2 & N3). unfold consistent. cbn [fst snd p_tree].
      unfold names_of in *. cbn [p_above p_tree fst snd] in *. rewrite strip_name.
      split; [exact N1|]. split; [exact N2|]. split; [unfold clean_names in *; destruct s; exact N3|].
      unfold kid_flag, flag_of in KF. destruct (agrees q ((root :: r) ++ [t_name s])); [|discriminate].
      destruct (N.ltb_spec (len (segments q ((root :: r) ++ [t_name s]))) (len (rq_path q)));
        [split; [reflexivity|split; [assumption|apply strip_vals]]|].
      destruct (_ =? _); discriminate.
    + destruct (NM MExact s I) as (N1 & N2 & N3). unfold consistent. cbn [fst snd p_tree].
      unfold names_of in *. cbn [p_above p_tree fst snd] in *.
      split; [exact N1|]. split; [exact N2|]. split; [exact N3|].
      unfold kid_flag, flag_of in KF. destruct (agrees q ((root :: r) ++ [t_name s])); [|discriminate].
      destruct (N.ltb_spec (len (segments q ((root :: r) ++ [t_name s]))) (len (rq_path q))); [discriminate|].
      destruct (N.eqb_spec (len (segments q ((root :: r) ++ [t_name s]))) (len (rq_path q))); [now split|discriminate].
Qed.

Lemma Forall2_length {A B} (R : A -> B -> Prop) l m : Forall2 R l m -> length l = length m.
Proof. induction 1; cbn; congruence. Qed.
Lemma filter_length_le {A} (f : A -> bool) l : (length (List.filter f l) <= length l)%nat.
Proof. induction l as [|a l IH]; cbn; [lia|]. destruct (f a); cbn; lia. Qed.
Lemma stands_kids fi names subs kids : good names ->
  Forall2 (seen fi (utf8 (spelled names))) subs kids ->
  Forall2 (stands fi) (map (fun y => ((names, false, fst y), Some (snd y)) : fpend) subs) kids.
Proof.
  intros (S & _) F. induction F as [|y k ys ks (L & FK) F IH]; [constructor|]. cbn [map]. constructor; [|exact IH].
  split; [|exact FK]. split; [exact L|exact S].
Qed.
Lemma visit_q fi cx q root x k : bytes_ok (fi_buffer fi) -> fi_hbin fi < 2 ^ 32 ->
  cx_modified cx = false \/ quiet (cx_state cx) -> cx_filter cx = Some q -> cached root (cx_state cx) ->
  stands fi x k -> consistent q root x ->
  exists k' kids st', stands fi x (kn_set_to_return 0 k') /\ kn_to_return k' = len kids
  /\ Forall2 (stands fi) (kids_of_q q x) kids
  /\ root_only (cx_state cx) st' /\ cached root st'
  /\ visit fi cx k = Ok (k', fold_left (fun cx c => push_check c cx) (rev kids) (cx_set_state st' cx)).
Proof.
  intros B H M CF CA ((L & SA) & FK) ((r & NE & RR) & CL & CT & ST). pose proof L as (full & d & raw & BK & V & SC & U & A & R).
  destruct (bare_nsub _ _ _ _ _ _ BK) as (N1 & N2 & _). unfold visit.
  change (kn_detail (kn_set_filter None k)) with (kn_detail k) in N1, N2. rewrite N1.
  pose proof BK as (B1 & B2 & B3 & B4 & B5 & _ & B7 & B8 & B9 & B10 & B11).
  change (kn_state (kn_set_filter None k)) with (kn_state k) in B5.
  change (kn_deleted (kn_set_filter None k)) with (kn_deleted k) in B7.
  change (kn_to_return (kn_set_filter None k)) with (kn_to_return k) in B9.
  set (t := p_tree (fst x)) in *. set (names := names_of (fst x)) in *.
  assert (GN : good names).
  { split; [|exact CL]. unfold names, names_of. apply Forall_app. split; [exact SA|]. now constructor. }
  destruct (t_subs t) as [|s0 r0] eqn:SU.
  - destruct U as (U & _). rewrite U. change (0 <? len []) with false. cbv beta iota zeta. exists k, [], (cx_state cx).
    rewrite B7. cbn [map fold_left rev].
    assert (KE : kn_set_deleted [] k = k) by (destruct k; cbn in B7; now subst).
    assert (KR : kn_set_to_return 0 k = k) by (destruct k; cbn in B9; now subst).
    assert (KK : kids_of_q q x = []).
    { unfold kids_of_q. fold t. rewrite SU. destruct (hit (snd x)), (rq_children q); reflexivity. }
    rewrite KE, KR, KK. split; [split; [split; [exact L|exact SA]|exact FK]|]. split; [exact B9|]. split; [constructor|]. split; [auto|]. split; [exact CA|].
    f_equal. f_equal. now destruct cx.
  - rewrite <- SU in *. assert (NN : t_subs t <> []) by (rewrite SU; discriminate). clear SU.
    destruct (list_total fi _ _ U NN) as (LE & P). destruct (N.ltb_spec 0 (kd_nsub d)); [|lia].
    unfold read_sub_keys_internal. rewrite B5, N1, N2, P, CF. cbn [is_allocated f_return_sub_keys].
    destruct (N.ltb_spec 1048576 (kd_nsub d)); [lia|]. destruct (N.ltb_spec 0 (kd_nsub d)); [|lia].
    assert (SM : is_match_or_desc k = hit (snd x)) by (unfold is_match_or_desc; now rewrite FK). rewrite SM.
    assert (PK : kn_path k = utf8 (spelled names)).
    { unfold names, names_of. rewrite spelled_path. apply loaded_path in L. exact L. }
    rewrite PK.
    assert (CS : Forall (fun s => ~ In 92 (t_name s)) (t_subs t)).
    { apply Forall_forall. intros s I. now apply (clean_sub t). }
    (* in each case the sub keys are read as expected *)
    assert (X : exists kids found st', read_children fi (cx_state cx) (utf8 (spelled names)) (hit (snd x)) (Some q)
        (if hit (snd x) && rq_children q then None else Some (Some q)) None (cx_modified cx) (map t_pos (t_subs t)) = Ok (kids, found, [], st')
       /\ root_only (cx_state cx) st' /\ cached root st' /\ Forall2 (stands fi) (kids_of_q q x) kids
       /\ len kids <= len (t_subs t)).
    { unfold kids_of_q. fold t names. destruct (hit (snd x)) eqn:HT; cbn [andb].
      - assert (AL : agrees q (root :: r) = true /\ len (rq_path q) <= len (segments q (root :: r))).
        { rewrite NE in ST. destruct (snd x) as [[ | | ]|]; try discriminate; split; try apply ST; destruct ST as (_ & ST); lia. }
        destruct (rq_children q) eqn:RC.
        + destruct (children_all fi q (utf8 (spelled names)) (cx_modified cx) (t_subs t) (cx_state cx) B H M A) as (kids & found & E & KS).
          exists kids, found, (cx_state cx). split; [exact E|]. split; [auto|]. split; [exact CA|].
          assert (LK : len kids = len (t_subs t)).
          { apply Forall2_length in KS. rewrite map_length in KS. unfold len. now rewrite KS. }
          split; [|lia]. apply (stands_kids fi names) in KS; [|exact GN]. rewrite map_map in KS. exact KS.
        + destruct (children_none fi q names root r (cx_modified cx) true (t_subs t) B H NE GN A CS) with (st := cx_state cx) as (st' & E & RO & CC).
          { apply Forall_forall. intros s I. unfold kid_flag. rewrite NE. now apply flag_hit. }
          { exact M. } { exact CA. }
          exists [], false, st'. split; [exact E|]. split; [exact RO|]. split; [exact CC|]. split; [constructor|]. change (len []) with 0. lia.
      - destruct (children_q fi q names root r (cx_modified cx) (t_subs t) B H NE GN A CS (cx_state cx) M CA) as (kids & st' & E & RO & CC & KS).
        eexists kids, _, st'. split; [exact E|]. split; [exact RO|]. split; [exact CC|]. split; [now apply stands_kids|].
        apply Forall2_length in KS. unfold kids_seen in KS. rewrite map_length in KS. unfold len. rewrite <- KS.
        pose proof (filter_length_le (fun s => negb (is_no (kid_flag q names s))) (t_subs t)). lia. }
    destruct X as (kids & found & st' & E & RO & CC & KS & LK).
    match goal with |- context [read_children ?a ?b ?c ?d' ?e ?f ?g ?h ?i] =>
      assert (E' : read_children a b c d' e f g h i = Ok (kids, found, [], st')) by exact E; rewrite E'; clear E' end.
    cbv beta iota zeta. rewrite app_nil_r.
    set (k1 := kn_set_to_return _ _).
    assert (D1 : kn_deleted k1 = []) by exact B7. rewrite D1. cbn [map fold_left].
    exists (kn_set_deleted [] k1), kids, st'. split; [|split; [|split; [exact KS|split; [exact RO|split; [exact CC|reflexivity]]]]].
    + split; [split; [|exact SA]|exact FK]. apply (loaded_set fi _ _ _ (kn_set_filter None k)); [exact L|..]; try reflexivity; cbn; congruence.
    + cbn. unfold w32. rewrite N.mod_small; [reflexivity|]. destruct U as (U & _). lia.
Qed.

(** ** What is still to come *)
Definition fpos (ps : list fpend) : list N := all_pos (map fst ps).
Definition fbelow (ps : list fpend) : list N := all_below (map fst ps).
Definition fout (q : reg_query) (anc : bool) (x : fpend) := filtered q anc (preorder (p_above (fst x)) (p_tree (fst x))).
Lemma flat_filter_nodup {A B} (f : A -> list B) p l : NoDup (flat_map f l) -> NoDup (flat_map f (List.filter p l)).
Proof.
  induction l as [|a l IH]; intros D; [constructor|]. cbn [flat_map List.filter] in *. apply nodup_app in D as (D1 & D2 & D3).
  destruct (p a); [|now apply IH]. cbn [flat_map]. specialize (IH D2).
  assert (G : forall l', NoDup l' -> NoDup (f a) -> (forall q, In q (f a) -> ~ In q l') -> NoDup (f a ++ l')).
  { clear. generalize (f a) as u. induction u as [|y u IH]; intros l' N1 N2 DJ; [exact N1|]. cbn. apply NoDup_cons_iff in N2 as [N2 N3].
    constructor; [|apply IH; [exact N1|exact N3|]; intros q I; apply DJ; now right].
    intros I. apply in_app_or in I as [I|I]; [contradiction|]. now apply (DJ y (or_introl eq_refl)). }
  apply G; [exact IH|exact D1|]. intros q I J. apply (D3 q I). apply in_flat_map in J as (b & J & K). apply filter_In in J as [J _].
  apply in_flat_map. now exists b.
Qed.
Definition keeps (q : reg_query) (x : fpend) : key_tree -> bool :=
  if hit (snd x) then fun _ => rq_children q else fun s => negb (is_no (kid_flag q (names_of (fst x)) s)).
Definition pruned (q : reg_query) (x : fpend) : pending :=
  (p_above (fst x), snd (fst (fst x)),
   KeyTree (t_pos (p_tree (fst x))) (t_name (p_tree (fst x))) [] (List.filter (keeps q x) (t_subs (p_tree (fst x))))).
Lemma filter_true {A} (l : list A) : List.filter (fun _ => true) l = l.
Proof. induction l; cbn; congruence. Qed.
Lemma filter_false {A} (l : list A) : List.filter (fun _ => false) l = [].
Proof. induction l; cbn; congruence. Qed.
Lemma kids_pruned q x : 
  map (fun y => positions (p_tree (fst y))) (kids_of_q q x) = map positions (List.filter (keeps q x) (t_subs (p_tree (fst x))))
  /\ map (fun y => below (p_tree (fst y))) (kids_of_q q x) = map below (List.filter (keeps q x) (t_subs (p_tree (fst x))))
  /\ map (fun y => t_pos (p_tree (fst y))) (kids_of_q q x) = map t_pos (List.filter (keeps q x) (t_subs (p_tree (fst x)))).
Proof.
  unfold kids_of_q, keeps. destruct (hit (snd x)).
  - destruct (rq_children q); [rewrite filter_true|rewrite filter_false; repeat split]. rewrite !map_map. repeat split.
  - unfold kids_seen. rewrite !map_map. cbn [fst p_tree snd].
    assert (G : forall s, positions (fst (kid_seen q (names_of (fst x)) s)) = positions s
       /\ below (fst (kid_seen q (names_of (fst x)) s)) = below s /\ t_pos (fst (kid_seen q (names_of (fst x)) s)) = t_pos s).
    { intros s. unfold kid_seen. destruct (kid_flag _ _ _); cbn [fst]; rewrite ?strip_positions, ?strip_below, ?strip_pos; repeat split. }
    split; [|split]; apply map_ext; intros s; apply G.
Qed.
Lemma prune_sub q x : NoDup (positions (p_tree (fst x))) -> NoDup (positions (p_tree (pruned q x)))
  /\ (forall y, In y (positions (p_tree (pruned q x))) -> In y (positions (p_tree (fst x))))
  /\ (forall y, In y (below (p_tree (pruned q x))) -> In y (below (p_tree (fst x))))
  /\ (length (below (p_tree (pruned q x))) <= length (below (p_tree (fst x))))%nat.
Proof.
  unfold pruned. cbn [p_tree snd]. rewrite !positions_eq. unfold below. cbn [t_subs t_pos]. set (subs := t_subs (p_tree (fst x))).
  assert (G : forall y, In y (flat_map positions (List.filter (keeps q x) subs)) -> In y (flat_map positions subs)).
  { intros y I. apply in_flat_map in I as (s & I & J). apply filter_In in I as [I _]. apply in_flat_map. now exists s. }
  assert (LL : (length (flat_map positions (List.filter (keeps q x) subs)) <= length (flat_map positions subs))%nat).
  { clear. induction subs as [|s l IH]; [cbn; lia|]. cbn [List.filter flat_map]. destruct (keeps q x s); cbn [flat_map]; rewrite ?app_length; lia. }
  intros D. apply NoDup_cons_iff in D as [D1 D2]. split; [|split; [|split; [exact G|exact LL]]].
  - constructor; [intros I; apply D1; now apply G|]. now apply flat_filter_nodup.
  - intros y [->|I]; [now left|right; now apply G].
Qed.
Lemma fstep q x r off : NoDup (fpos (x :: r)) -> (forall y, In y (fbelow (x :: r)) -> ~ In y off) ->
  NoDup (map (fun y => t_pos (p_tree (fst y))) (kids_of_q q x))
  /\ (forall y, In y (map (fun y => t_pos (p_tree (fst y))) (kids_of_q q x)) -> ~ In y off)
  /\ NoDup (fpos (kids_of_q q x ++ r))
  /\ (forall y, In y (fbelow (kids_of_q q x ++ r)) -> ~ In y (map (fun y => t_pos (p_tree (fst y))) (kids_of_q q x) ++ off))
  /\ (length (fpos (kids_of_q q x ++ r)) < length (fpos (x :: r)))%nat.
Proof.
  unfold fpos, fbelow. cbn [map]. intros D O.
  assert (D0 : NoDup (positions (p_tree (fst x)))) by (cbn [all_pos flat_map] in D; now apply nodup_app in D).
  destruct (prune_sub q x D0) as (P1 & P2 & P3 & P4). destruct (kids_pruned q x) as (K1 & K2 & K3).
  assert (DP : NoDup (all_pos (pruned q x :: map fst r))).
  { cbn [all_pos flat_map] in D |- *. apply nodup_app in D as (_ & D2 & D3). 
    revert P1 P2. generalize (positions (p_tree (pruned q x))) as u. intros u P1 P2.
    assert (G : forall q0, In q0 u -> ~ In q0 (flat_map (fun x : pending => positions (p_tree x)) (map fst r))) by (intros y I; apply D3, P2, I).
    clear -P1 D2 G. induction u as [|y u IH]; [exact D2|]. cbn. apply NoDup_cons_iff in P1 as [N2 N3].
    constructor; [|apply IH; [exact N3|]; intros z I; apply G; now right].
    intros I. apply in_app_or in I as [I|I]; [contradiction|]. now apply (G y (or_introl eq_refl)). }
  assert (OP : forall y, In y (all_below (pruned q x :: map fst r)) -> ~ In y off).
  { intros y I. apply O. cbn [all_below flat_map] in I |- *. apply in_app_or in I as [I|I]; apply in_or_app; [left; now apply P3|now right]. }
  destruct (offsets_step (pruned q x) (map fst r) off DP OP) as [S1 S2].
  rewrite map_app, !all_pos_app, all_below_app. rewrite all_pos_app in S1. rewrite all_below_app in S2. rewrite kid_pos in S1. rewrite kid_below in S2.
  assert (EB : below (p_tree (pruned q x)) = all_pos (map fst (kids_of_q q x))).
  { unfold all_pos. rewrite flat_map_concat_map, map_map, K1. unfold pruned, below. cbn [p_tree snd t_subs]. now rewrite flat_map_concat_map. }
  assert (EC : flat_map below (t_subs (p_tree (pruned q x))) = all_below (map fst (kids_of_q q x))).
  { unfold all_below. rewrite (flat_map_concat_map _ (map fst _)), map_map, K2. unfold pruned. cbn [p_tree snd t_subs]. now rewrite flat_map_concat_map. }
  assert (EP : map t_pos (t_subs (p_tree (pruned q x))) = map (fun y => t_pos (p_tree (fst y))) (kids_of_q q x)) by (rewrite K3; reflexivity).
  rewrite EB in S1. rewrite EC, EP in S2. 
  assert (NK : NoDup (flat_map positions (t_subs (p_tree (pruned q x))))).
  { rewrite positions_eq in P1. now apply NoDup_cons_iff in P1. }
  split; [|split; [|split; [exact S1|split; [exact S2|]]]].
  - rewrite <- EP. now apply subs_nodup.
  - intros y I. apply OP. cbn [all_below flat_map]. apply in_or_app. left. rewrite <- EP in I. now apply subs_pos.
  - apply (f_equal (@length N)) in EB. change (all_pos (fst x :: map fst r)) with (positions (p_tree (fst x)) ++ all_pos (map fst r)).
    rewrite positions_eq. cbn [app length]. rewrite !app_length. 
    eapply Nat.le_lt_trans; [apply Nat.add_le_mono_r; exact (Nat.eq_le_incl _ _ (eq_sym EB))|].
    apply -> Nat.succ_le_mono. apply Nat.add_le_mono_r. exact P4.
Qed.

(** ** The keys a filter keeps, level by level *)
Lemma preorder_names t : forall above, Forall (fun x => exists more, fst x = (above ++ [t_name t]) ++ more) (preorder above t).
Proof.
  induction t as [pos name vals subs IH] using tree_ind'; intros above. rewrite preorder_eq. cbn [t_name t_subs].
  constructor; [exists []; cbn [fst]; now rewrite app_nil_r|]. apply Forall_forall. intros x I. apply in_flat_map in I as (s & S & I).
  rewrite Forall_forall in IH. specialize (IH s S (above ++ [name])). rewrite Forall_forall in IH. destruct (IH x I) as (more & ->).
  exists ([t_name s] ++ more). now rewrite <- !app_assoc.
Qed.
Lemma filtered_nil q anc l : Forall (fun x => selected q anc (fst x) = false) l -> filtered q anc l = [].
Proof. unfold filtered. induction 1 as [|x l E F IH]; [reflexivity|]. cbn [List.filter]. now rewrite E. Qed.
Lemma filtered_app q anc a b : filtered q anc (a ++ b) = filtered q anc a ++ filtered q anc b.
Proof. unfold filtered. now rewrite filter_app, map_app. Qed.
Lemma filtered_flat {A} q anc (f : A -> list (list (list N) * key_tree)) l :
  filtered q anc (flat_map f l) = flat_map (fun a => filtered q anc (f a)) l.
Proof. induction l as [|a l IH]; [reflexivity|]. cbn [flat_map]. now rewrite filtered_app, IH. Qed.
Lemma segments_more q root r more : segments q ((root :: r) ++ more) = segments q (root :: r) ++ more.
Proof. unfold segments. now destruct (rq_has_root q). Qed.
Lemma not_selected q anc root r more : r <> [] ->
  agrees q (root :: r) = false \/ (len (rq_path q) < len (segments q (root :: r)) /\ rq_children q = false) ->
  selected q anc ((root :: r) ++ more) = false.
Proof.
  intros NE C. destruct r as [|n r]; [contradiction|]. cbn [app selected]. change (root :: n :: r ++ more) with ((root :: n :: r) ++ more).
  destruct C as [C|[C1 C2]].
  - replace (agrees q ((root :: n :: r) ++ more)) with false; [reflexivity|]. symmetry. apply not_true_iff_false. intros X.
    apply agrees_prefix in X. congruence.
  - rewrite segments_more, len_app.
    destruct (N.eqb_spec (len (segments q (root :: n :: r)) + len more) (len (rq_path q))); [lia|].
    destruct (N.ltb_spec (len (segments q (root :: n :: r)) + len more) (len (rq_path q))); [lia|].
    now rewrite C2, andb_false_r.
Qed.
Lemma flat_filter {A B} (f g : A -> list B) p l : (forall a, In a l -> p a = false -> f a = []) ->
  (forall a, In a l -> p a = true -> f a = g a) -> flat_map f l = flat_map g (List.filter p l).
Proof.
  induction l as [|a l IH]; intros N E; [reflexivity|]. cbn [flat_map List.filter].
  rewrite IH; [|intros b I; apply N; now right|intros b I; apply E; now right].
  destruct (p a) eqn:P; [cbn [flat_map]; rewrite (E a); [reflexivity|now left|exact P]|]. now rewrite (N a (or_introl eq_refl) P).
Qed.
Lemma flat_map_nil {A B} (f : A -> list B) l : (forall a, In a l -> f a = []) -> flat_map f l = [].
Proof. induction l as [|a l IH]; intros E; [reflexivity|]. cbn [flat_map]. rewrite (E a (or_introl eq_refl)), IH; [reflexivity|]. intros b I. apply E. now right. Qed.
Lemma fout_step q anc root x : consistent q root x ->
  fout q anc x = (if anc || hit (snd x) then [as_listed q (names_of (fst x), p_tree (fst x))] else [])
                 ++ flat_map (fout q anc) (kids_of_q q x).
Proof.
  intros ((r & NE & RR) & CL & CT & ST). unfold fout at 1. rewrite preorder_eq. fold (names_of (fst x)).
  set (names := names_of (fst x)) in *.
  change ((names, p_tree (fst x)) :: ?l) with ([(names, p_tree (fst x))] ++ l). rewrite filtered_app. f_equal.
  - unfold filtered. cbn [List.filter fst].
    replace (selected q anc names) with (anc || hit (snd x)); [now destruct (_ || _)|].
    rewrite NE in *. destruct (snd x) as [ms|] eqn:SX.
    + assert (RN : r <> []) by (intros E; apply RR in E; discriminate). destruct r as [|n r]; [contradiction|]. cbn [selected].
      destruct ms; destruct ST as (A & ST); rewrite A; cbn [andb hit]; rewrite ?orb_false_r, ?orb_true_r.
      * destruct ST as [ST _]. destruct (N.eqb_spec (len (segments q (root :: n :: r))) (len (rq_path q))); [lia|].
        destruct (N.ltb_spec (len (segments q (root :: n :: r))) (len (rq_path q))); [reflexivity|lia].
      * destruct ST as [ST RC]. destruct (N.eqb_spec (len (segments q (root :: n :: r))) (len (rq_path q))); [lia|].
        destruct (N.ltb_spec (len (segments q (root :: n :: r))) (len (rq_path q))); [lia|now rewrite RC].
      * rewrite ST, N.eqb_refl. reflexivity.
    + rewrite (proj1 RR eq_refl). cbn [selected hit]. now rewrite orb_false_r.
  - rewrite filtered_flat.
    assert (NS : forall s, names ++ [t_name s] = root :: r ++ [t_name s]) by (intros s; now rewrite NE).
    assert (SF : forall s, (agrees q (root :: r ++ [t_name s]) = false
        \/ (len (rq_path q) < len (segments q (root :: r ++ [t_name s])) /\ rq_children q = false)) ->
        filtered q anc (preorder names s) = []).
    { intros s C. apply filtered_nil. eapply Forall_impl; [|apply preorder_names]. cbv beta. intros y (more & ->).
      rewrite NS. apply not_selected; [now destruct r|exact C]. }
    unfold kids_of_q. fold names. destruct (hit (snd x)) eqn:HT.
    + assert (AL : agrees q names = true /\ len (rq_path q) <= len (segments q names)).
      { destruct (snd x) as [[ | | ]|]; try discriminate; split; try apply ST; destruct ST as (_ & ST); lia. }
      destruct (rq_children q) eqn:RC.
      * rewrite (flat_map_concat_map (fout q anc)), map_map, <- flat_map_concat_map. reflexivity.
      * apply flat_map_nil. intros s _. apply SF. right. change (root :: r ++ [t_name s]) with ((root :: r) ++ [t_name s]).
        rewrite segments_app, <- NE, len_app. change (len [t_name s]) with 1. split; [lia|reflexivity].
    + assert (LT : len (segments q names) < len (rq_path q)).
      { destruct (snd x) as [[ | | ]|]; try discriminate; apply ST. }
      rewrite (flat_map_concat_map (fout q anc)), map_map. unfold kids_seen. rewrite map_map, <- flat_map_concat_map.
      apply flat_filter.
      * intros s _ K. apply SF. left. unfold kid_flag, flag_of in K. rewrite NS in K.
        destruct (agrees q (root :: r ++ [t_name s])); [|reflexivity]. exfalso.
        change (root :: r ++ [t_name s]) with ((root :: r) ++ [t_name s]) in K. rewrite segments_app, <- NE, len_app in K.
        change (len [t_name s]) with 1 in K.
        destruct (N.ltb_spec (len (segments q names) + 1) (len (rq_path q))); [discriminate|].
        destruct (N.eqb_spec (len (segments q names) + 1) (len (rq_path q))); [discriminate|lia].
      * intros s _ K. unfold fout, kid_seen. cbn [fst snd p_above p_tree]. destruct (kid_flag q names s) eqn:KF; try discriminate; [|reflexivity].
        cbn [fst snd]. change (p_above (names, false, without_values s)) with names.
        change (p_tree (names, false, without_values s)) with (without_values s). rewrite !preorder_eq, strip_name, strip_subs.
        change ((names ++ [t_name s], ?a) :: ?l) with ([(names ++ [t_name s], a)] ++ l). rewrite !filtered_app. f_equal.
        unfold filtered. cbn [List.filter fst]. destruct (selected q anc (names ++ [t_name s])); [|reflexivity]. cbn [map]. f_equal.
        unfold as_listed. cbn [fst snd]. rewrite NS. unfold kid_flag, flag_of in KF. rewrite NS in KF.
        destruct (agrees q (root :: r ++ [t_name s])); [|discriminate].
        destruct (len (segments q (root :: r ++ [t_name s])) <? len (rq_path q)); [|destruct (_ =? _); discriminate].
        destruct r as [|n r]; cbn [app]; destruct s; reflexivity.
Qed.
Lemma stands_shown fi q root x k : consistent q root x -> stands fi x k ->
  key_shown k (names_of (fst x)) (snd (as_listed q (names_of (fst x), p_tree (fst x)))).
Proof.
  intros ((r & NE & RR) & _ & _ & ST) (W & FK). apply waits_shown in W. fold (names_of (fst x)) in W.
  assert (W' : key_shown k (names_of (fst x)) (p_tree (fst x))) by exact W. clear W.
  unfold as_listed. cbn [fst snd]. rewrite NE in *. destruct r as [|n r]; [exact W'|].
  destruct (N.ltb_spec (len (segments q (root :: n :: r))) (len (rq_path q))) as [L|L]; [|exact W'].
  destruct (snd x) as [[ | | ]|].
  - destruct ST as (_ & _ & V). cbn [fst snd]. unfold key_shown in *. rewrite strip_vals, ?strip_name, ?strip_pos. rewrite V in W'. exact W'.
  - lia.
  - lia.
  - discriminate (proj1 RR eq_refl).
Qed.
Lemma as_listed_names q x : fst (as_listed q x) = fst x.
Proof. unfold as_listed. destruct x as [[|a [|b l]] t]; cbn [fst snd]; try reflexivity; destruct (N.ltb (len _) _); reflexivity. Qed.

(** ** Filtered pre-order *)
Record finv fi q root anc (ps : list fpend) (cx : context) : Prop := {
  fi_mod : cx_modified cx = false \/ quiet (cx_state cx);
  fi_filter : cx_filter cx = Some q;
  fi_anc : cx_ancestors cx = anc;
  fi_cache : cached root (cx_state cx);
  fi_stack : Forall2 (stands fi) ps (cx_stack cx);
  fi_cons : Forall (consistent q root) ps;
  fi_nodup : NoDup (fpos ps);
  fi_below : forall y, In y (fbelow ps) -> ~ In y (cx_offsets cx) }.
Lemma stands_pos fi ps ks : Forall2 (stands fi) ps ks -> map kn_offset ks = map (fun y => t_pos (p_tree (fst y))) ps.
Proof.
  induction 1 as [|x k ps ks (W & _) F IH]; [reflexivity|]. cbn [map]. rewrite IH. f_equal.
  destruct W as ((? & ? & ? & B & _) & _). apply B.
Qed.
Lemma fvisit fi q root anc x ps k stack cx : bytes_ok (fi_buffer fi) -> fi_hbin fi < 2 ^ 32 ->
  finv fi q root anc (x :: ps) cx -> cx_stack cx = k :: stack ->
  exists k' cx', visit fi (cx_set_stack stack cx) k = Ok (k', cx') /\ finv fi q root anc (kids_of_q q x ++ ps) cx'
  /\ cx_return cx' = cx_return cx
  /\ stands fi x (kn_set_to_return 0 k') /\ kn_to_return k' = len (kids_of_q q x).
Proof.
  intros B H [M CF AN CA W C D O] S. rewrite S in W. inversion W as [|? ? ? ? Wx Wr]; subst.
  apply Forall_cons_iff in C as [C0 C].
  destruct (visit_q fi (cx_set_stack stack cx) q root x k B H M CF CA Wx C0) as (k' & kids & st' & ST & TR & KS & RO & CC & E).
  destruct (fstep q x ps (cx_offsets cx) D O) as (F1 & F2 & F3 & F4 & F5).
  assert (OF := stands_pos _ _ _ KS).
  exists k', (with_kids kids (cx_set_state st' (cx_set_stack stack cx))). split.
  { rewrite E. f_equal. f_equal. apply push_all; [now rewrite OF|]. intros y I. apply F2. rewrite <- OF. now apply in_map. }
  assert (LK : len kids = len (kids_of_q q x)) by (apply Forall2_length in KS; unfold len; now rewrite KS).
  split; [|split; [reflexivity|split; [exact ST|now rewrite TR]]].
  split; try assumption; try reflexivity.
  - destruct M as [M|M]; [now left|right]. cbn [with_kids cx_set_state cx_state cx_set_stack]. eapply quiet_root_only; [exact RO|exact M].
  - cbn [with_kids cx_set_state cx_stack cx_set_stack]. apply Forall2_app; assumption.
  - apply Forall_app. split; [now apply kids_consistent|exact C].
  - cbn [with_kids cx_set_state cx_offsets cx_set_stack]. rewrite OF. exact F4.
Qed.
Lemma is_match_hit k : is_match_or_desc k = hit (kn_filter k). Proof. reflexivity. Qed.
Lemma fnext fi q root anc : bytes_ok (fi_buffer fi) -> fi_hbin fi < 2 ^ 32 -> forall fuel ps cx,
  finv fi q root anc ps cx -> (length (fpos ps) < fuel)%nat ->
  match flat_map (fout q anc) ps with
  | [] => exists cx', next_key_preorder fuel fi cx = Ok (None, cx')
  | (names, t) :: rest => exists k ps' cx', next_key_preorder fuel fi cx = Ok (Some k, cx')
      /\ key_shown k names t /\ finv fi q root anc ps' cx' /\ flat_map (fout q anc) ps' = rest
      /\ (length (fpos ps') < length (fpos ps))%nat
  end.
Proof.
  intros B H. induction fuel as [|fuel IH]; intros ps cx FI L; [lia|]. cbn [next_key_preorder].
  destruct (cx_stack cx) as [|k stack] eqn:S.
  - pose proof (fi_stack _ _ _ _ _ _ FI) as W. rewrite S in W. inversion W; subst. now exists cx.
  - destruct ps as [|x ps]; [pose proof (fi_stack _ _ _ _ _ _ FI) as W; rewrite S in W; inversion W|].
    destruct (fvisit fi q root anc x ps k stack cx B H FI S) as (k' & cx' & E & FI' & _ & ST & _). rewrite E. cbv beta iota.
    pose proof (fi_cons _ _ _ _ _ _ FI) as C. apply Forall_cons_iff in C as [C0 _].
    assert (LT : (length (fpos (kids_of_q q x ++ ps)) < length (fpos (x :: ps)))%nat).
    { eapply fstep; [exact (fi_nodup _ _ _ _ _ _ FI)|exact (fi_below _ _ _ _ _ _ FI)]. }
    rewrite (fi_anc _ _ _ _ _ _ FI'), (fi_filter _ _ _ _ _ _ FI'). cbn [f_is_valid negb]. rewrite orb_false_r.
    assert (HK : is_match_or_desc k' = hit (snd x)).
    { destruct ST as (_ & FK). change (kn_filter (kn_set_to_return 0 k')) with (kn_filter k') in FK. now rewrite is_match_hit, FK. }
    rewrite HK. cbn [flat_map]. rewrite (fout_step q anc root x C0), <- app_assoc, <- flat_map_app.
    destruct (anc || hit (snd x)).
    + cbn [app]. destruct (as_listed q (names_of (fst x), p_tree (fst x))) as [nm t'] eqn:AL.
      exists k', (kids_of_q q x ++ ps), cx'. split; [reflexivity|]. split; [|split; [exact FI'|split; [reflexivity|exact LT]]].
      apply (stands_shown fi q root x _ C0) in ST. rewrite AL in ST. cbn [snd] in ST.
      pose proof (as_listed_names q (names_of (fst x), p_tree (fst x))) as AN. rewrite AL in AN. cbn [fst] in AN. subst nm. exact ST.
    + cbn [app]. specialize (IH _ _ FI'). 
      assert (L2 : (length (fpos (kids_of_q q x ++ ps)) < fuel)%nat) by lia. specialize (IH L2).
      destruct (flat_map (fout q anc) (kids_of_q q x ++ ps)) as [|[nm t'] rest]; [exact IH|].
      destruct IH as (k2 & ps2 & cx2 & I1 & I2 & I3 & I4 & I5). exists k2, ps2, cx2.
      split; [exact I1|]. split; [exact I2|]. split; [exact I3|]. split; [exact I4|]. lia.
Qed.
Lemma fcollect fi q root anc : bytes_ok (fi_buffer fi) -> fi_hbin fi < 2 ^ 32 -> forall fuel ps cx,
  finv fi q root anc ps cx -> (length (fpos ps) < fuel)%nat ->
  exists ks, collect false fuel fi cx = Ok ks /\ shown ks (flat_map (fout q anc) ps).
Proof.
  intros B H. induction fuel as [|fuel IH]; intros ps cx FI L; [lia|]. cbn [collect].
  pose proof (fnext fi q root anc B H (S fuel) ps cx FI L) as X.
  destruct (flat_map (fout q anc) ps) as [|[names t] rest] eqn:OE.
  - destruct X as (cx' & X). rewrite X. exists []. split; [reflexivity|constructor].
  - destruct X as (k & ps' & cx' & E & SH & FI' & OO & LE). rewrite E. cbv beta iota.
    destruct (IH ps' cx' FI') as (ks & C & KS); [lia|].
    rewrite C. exists (k :: ks). split; [reflexivity|]. rewrite OO in KS. constructor; [exact SH|exact KS].
Qed.
