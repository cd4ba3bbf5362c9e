(** Every key that is shown has a path that begins with a backslash, so nothing
    that is written out aborts. *)
From Coq Require Import Permutation.
From Verif Require Import Base BaseFacts Util UtilSpec UtilText UtilLz LayoutSpec LayoutFacts HeaderFacts BaseBlock Types Value Node Recover
  Parser TxLog TxSpec NodeFrame TxParse TxApply TxBuild CellSpec CellFacts CellData CellList CellRead TreeRead AnyFile TreeOpen ScanSpec ScanFacts ScanOpen ScanAll Recovered LiveSpec LiveView LiveOpen
  Pure StoreSpec StoreFacts AnalysisSpec AnalysisFacts AnalysisStore AnalysisAll AnalysisReach VersionFacts TreeSession LivePlain RecIter Ends FreeKept AbortSpec NoAbort Date Log Show Export ExportSpec ExportFacts Xlsx.

(** ** Paths *)
Definition spelt (s : list N) : Prop := exists cs, s = utf8 cs.
Definition lead (s : list N) : Prop := exists cs, s = utf8 (92 :: cs).
Lemma char_92 c : c <> 92 -> Forall (fun b => b <> 92) (utf8_char c).
Proof.
  intros H. unfold utf8_char.
  destruct (N.ltb_spec c 0x80); [|destruct (N.ltb_spec c 0x800); [|destruct (N.ltb_spec c 0x10000)]]; repeat constructor; lia.
Qed.
Lemma exists_app_no l r : Forall (fun b => b <> 92) l -> existsb (N.eqb BS) (l ++ r) = existsb (N.eqb BS) r.
Proof. induction 1 as [|b l B F IH]; [reflexivity|]. cbn [app existsb]. rewrite IH. unfold BS in *. now replace (92 =? b) with false by lia. Qed.
Lemma exists_utf8 cs : existsb (N.eqb BS) (utf8 cs) = existsb (N.eqb BS) cs.
Proof.
  induction cs as [|c cs IH]; [reflexivity|]. change (utf8 (c :: cs)) with (utf8_char c ++ utf8 cs). cbn [existsb].
  destruct (N.eq_dec c 92) as [->|H]; [reflexivity|]. rewrite exists_app_no by now apply char_92. rewrite IH.
  unfold BS. now replace (92 =? c) with false by lia.
Qed.
Lemma before_app l r : l <> [] -> Forall (fun b => b <> 92) l -> before_last_bs (l ++ r) = if existsb (N.eqb BS) r then l ++ before_last_bs r else [].
Proof.
  induction l as [|b l IH]; [now intros []|]. intros _ F. inversion F as [|? ? B F1]; subst. cbn [app before_last_bs].
  rewrite exists_app_no by exact F1. destruct (existsb (N.eqb BS) r) eqn:E; [|reflexivity]. f_equal.
  destruct l as [|b2 l]; [reflexivity|]. specialize (IH ltac:(discriminate) F1). cbn [app] in IH |- *. rewrite IH. try rewrite E. reflexivity.
Qed.
Lemma before_utf8 cs : before_last_bs (utf8 cs) = utf8 (before_last_bs cs).
Proof.
  induction cs as [|c cs IH]; [reflexivity|]. change (utf8 (c :: cs)) with (utf8_char c ++ utf8 cs). cbn [before_last_bs].
  destruct (N.eq_dec c 92) as [->|H].
  - change (utf8_char 92 ++ utf8 cs) with (92 :: utf8 cs). cbn [before_last_bs]. rewrite exists_utf8. destruct (existsb _ cs); [|reflexivity]. rewrite IH. reflexivity.
  - rewrite before_app; [|unfold utf8_char; repeat destruct (_ <? _); discriminate|now apply char_92]. rewrite exists_utf8, IH. destruct (existsb _ cs); reflexivity.
Qed.
Lemma lead_parent s : lead s -> parent_of s = [] \/ lead (parent_of s).
Proof.
  intros (cs & ->). rewrite <- before_last_parent, before_utf8. cbn [before_last_bs]. destruct (existsb _ cs); [right|now left].
  now exists (before_last_bs cs).
Qed.
Lemma lead_child path name : path = [] \/ lead path -> spelt name -> lead (path ++ [92] ++ name).
Proof.
  intros [->|(cs & ->)] (n & ->); [now exists n|]. exists (cs ++ [92] ++ n). change [92] with (utf8 [92]). rewrite <- !utf8_app. reflexivity.
Qed.
Lemma first_byte cs b r : utf8 cs = b :: r -> is_cont b = false.
Proof.
  destruct cs as [|c cs]; [discriminate|]. change (utf8 (c :: cs)) with (utf8_char c ++ utf8 cs). unfold utf8_char, is_cont.
  destruct (N.ltb_spec c 0x80); [|destruct (N.ltb_spec c 0x800); [|destruct (N.ltb_spec c 0x10000)]]; cbn [app]; intros [= <- _]; lia.
Qed.
Lemma from_utf8 pre cs : str_from (pre ++ utf8 cs) (len pre) = Ok (utf8 cs).
Proof.
  unfold str_from. rewrite get_from_app by reflexivity. destruct (utf8 cs) as [|b r] eqn:E; [reflexivity|]. now rewrite (first_byte _ _ _ E).
Qed.
Lemma lead_cut s : lead s -> exists r, str_from s 1 = Ok r.
Proof. intros (cs & ->). exists (utf8 cs). change (utf8 (92 :: cs)) with ([92] ++ utf8 cs). change 1 with (len [92]). apply from_utf8. Qed.
Lemma split_92 t : forall a r, utf8 t = a ++ 92 :: r -> ~ In 92 a -> exists t2, r = utf8 t2.
Proof.
  induction t as [|c t IH]; intros a r; [destruct a; discriminate|]. change (utf8 (c :: t)) with (utf8_char c ++ utf8 t).
  destruct (N.eq_dec c 92) as [->|H].
  - change (utf8_char 92 ++ utf8 t) with (92 :: utf8 t). destruct a as [|x a]; [intros [= <-] _; now exists t|]. intros [= <- _] J. elim J. now left.
  - pose proof (char_92 c H) as F. revert a. induction F as [|b l B F IF]; intros a E J; [now apply (IH a)|].
    destruct a as [|x a]; cbn [app] in E; injection E as E1 E2; [congruence|]. apply (IF a E2). intros K. apply J. now right.
Qed.
Lemma pretty_cut s : spelt s -> exists r, str_from s (get_root_path_offset s) = Ok r.
Proof.
  intros (t & ->). unfold get_root_path_offset. destruct (utf8 t) as [|b p] eqn:E; [rewrite str_from_0; eauto|].
  destruct (N.eqb_spec b 92) as [->|B]; [|rewrite str_from_0; eauto]. destruct (find_byte 92 p) as [i|] eqn:F; [|rewrite str_from_0; eauto].
  apply find_byte_split in F as (a & r & -> & <- & J).
  destruct (split_92 t [] _ E) as (t2 & E2); [easy|]. symmetry in E2. destruct (split_92 t2 a r E2 J) as (t3 & ->).
  replace (92 :: a ++ 92 :: utf8 t3) with ((92 :: a ++ [92]) ++ utf8 t3) by (cbn [app]; now rewrite <- app_assoc).
  replace (len a + 2) with (len (92 :: a ++ [92])) by (unfold len; cbn [length]; rewrite app_length; cbn [length]; lia).
  rewrite from_utf8. eauto.
Qed.
Lemma lead_spelt s : lead s -> spelt s.
Proof. intros (cs & ->). now exists (92 :: cs). Qed.
Lemma name_spelt b name w : kn_name_at b = Ok (name, w) -> spelt name.
Proof.
  unfold kn_name_at, string_from_bytes. destruct (has_flag _ _); [intros [= <- _]; now eexists|].
  unfold from_utf16_le_string. destruct (_ <=? _); [|discriminate].
  destruct (from_utf16_le_string_single _ _) as [[[cs c] w1]| | |]; try discriminate. intros [= <- _]. now exists cs.
Qed.

(** ** Keys *)
Inductive sk : key_node -> Prop :=
| sk_key k : lead (kn_path k) -> Forall (fun v => lead (kn_path v)) (kn_versions k) -> Forall sk (kn_deleted k) -> sk k.
Lemma sk_same k k' : kn_path k' = kn_path k -> kn_versions k' = kn_versions k -> kn_deleted k' = kn_deleted k -> sk k -> sk k'.
Proof. intros P V D N. inversion N as [x N1 N2 N3]; subst. constructor; [now rewrite P|now rewrite V|now rewrite D]. Qed.
Definition sst (st : state) : Prop :=
  keyed (fun _ => sk) (st_deleted_keys st) /\ keyed (fun _ k => lead (kn_path k)) (st_modified_keys st).
Lemma sst_root st st' : root_only st st' -> sst st -> sst st'.
Proof. intros R M. unfold root_only in R. now rewrite R. Qed.
Lemma finish_path st k : kn_path (finish st k) = kn_path k.
Proof. unfold finish. cbv zeta. cbn [kn_set_values kn_path]. destruct (aget beq _ (st_modified_keys st)); reflexivity. Qed.
Lemma finish_versions st k : sst st -> Forall (fun v => lead (kn_path v)) (kn_versions k) -> Forall (fun v => lead (kn_path v)) (kn_versions (finish st k)).
Proof.
  intros (_ & MV) F. unfold finish. cbv zeta. cbn [kn_set_values kn_versions].
  destruct (aget beq (lookup_path k) (st_modified_keys st)) as [ms|] eqn:A; [|exact F]. cbn [kn_set_versions kn_versions].
  apply Forall_forall. intros v I. pose proof (keyed_aget _ _ _ _ MV A) as G. rewrite Forall_forall in G. apply G. eapply Permutation_in; [apply sort_perm|exact I].
Qed.
Lemma uml_sk st : sst st -> forall fuel k k', sk k -> update_modified_lists fuel st k = Ok k' -> sk k'.
Proof.
  intros M. induction fuel as [|fuel IH]; intros k k' N; [discriminate|]. rewrite uml_eq.
  destruct (is_deleted_primary_file _); [now intros [= <-]|].
  assert (FI : forall x, sk x -> sk (finish st x)).
  { intros x X. inversion X as [y X1 X2 X3]; subst. constructor; [now rewrite finish_path|now apply finish_versions|now rewrite finish_deleted]. }
  inversion N as [x N1 N2 N3]; subst.
  destruct (aget beq (lookup_path k) (st_deleted_keys st)) as [dks|] eqn:A; [|intros [= <-]; now apply FI].
  destruct (note fuel st (kn_offset k) dks) as [l| | |] eqn:NO; try discriminate. intros [= <-]. apply FI. constructor; [exact N1|exact N2|].
  cbn [kn_set_deleted kn_deleted]. pose proof (keyed_aget _ _ _ _ (proj1 M) A) as F. cbv beta in F. clear A. revert l NO.
  induction F as [|d r D F IR]; intros l; cbn [note]; [intros [= <-]; constructor|].
  destruct (if kn_offset d =? kn_offset k then Ok d else update_modified_lists fuel st d) as [d'| | |] eqn:E; try discriminate.
  destruct (note fuel st (kn_offset k) r) as [r'| | |]; try discriminate. intros [= <-]. constructor; [|now apply IR].
  destruct (_ =? _) in E; [now injection E as <-|now apply (IH d)].
Qed.
Definition bare_at (o : read_options) (k : key_node) : Prop := lead (kn_path k) /\ kn_versions k = [] /\ kn_deleted k = [].
Lemma bare_same o k k' : kn_path k' = kn_path k -> kn_versions k' = kn_versions k -> kn_deleted k' = kn_deleted k -> bare_at o k -> bare_at o k'.
Proof. intros P V D (A & B & C). split; [now rewrite P|]. split; congruence. Qed.
Lemma bare_sk o k : bare_at o k -> sk k.
Proof. intros (A & B & C). constructor; [exact A|rewrite B; constructor|rewrite C; constructor]. Qed.
Lemma slice_sk fi st s o k st' : op_path o = [] \/ lead (op_path o) -> op_modified o = false -> read_from_slice fi st s o = Ok (Some k, st') -> bare_at o k.
Proof.
  intros LP EM. unfold read_from_slice. rewrite EM.
  destruct (kn_cases st s (op_offset o) (op_path o) (op_seq o)) as [(OK & nm & w & NM & E)|(_ & E)]; rewrite E; [|discriminate].
  cbv beta iota. set (k0 := kn_at _ _ _ _ _ _ _).
  destruct (match op_filter o with Some f => check_cell f st k0 | None => Ok (IterateKeys, st) end) as [[fl st1]| | |]; try discriminate.
  assert (K0 : bare_at o k0) by (split; [apply lead_child; [exact LP|exact (name_spelt _ _ _ NM)]|split; reflexivity]).
  assert (V : forall b k1, (if b : bool then let* (k, ok) := read_values fi st1 (op_seq o) k0 in Ok (if ok : bool then k else kn_add_log WarningParse k) else Ok k0) = Ok k1 -> bare_at o k1).
  { intros b k1. destruct b; [|now intros [= <-]].
    destruct (read_values fi st1 (op_seq o) k0) as [[k2 ok]| | |] eqn:RV; try discriminate. cbv beta iota. intros [= <-].
    assert (Y : bare_at o k2).
    { revert RV. unfold read_values. destruct (_ && _); [|now intros [= <- _]].
      destruct (1048576 <? _); [intros [= <- _]; now apply (bare_same o k0)|]. destruct (parse_key_values _ _ _) as [offs|]; [|intros [= <- _]; now apply (bare_same o k0)].
      destruct (read_values_loop _ _ _ _ _) as [[[vs logs] ok']| | |] eqn:EL; try discriminate. intros [= <- _]. now apply (bare_same o k0). }
    destruct ok; [exact Y|now apply (bare_same o k2)]. }
  cbv beta iota. destruct fl; [discriminate| |].
  all: match goal with |- (let* k := (if ?b then _ else _) in _) = _ -> _ => pose proof (V b) as V1 end.
  all: match goal with |- (let* k := ?x in _) = _ -> _ => destruct x as [k1| | |]; try discriminate end.
  all: specialize (V1 k1 eq_refl); cbv beta iota zeta; intros [= <- _]; try exact V1; now apply (bare_same o k1).
Qed.
Lemma read_sk fi st o k st' : op_path o = [] \/ lead (op_path o) -> sst st -> kn_read fi st o = Ok (Some k, st') -> sk k.
Proof.
  intros LP M R. destruct (op_modified o) eqn:EM.
  - rewrite (read_noted _ _ _ EM) in R. destruct (kn_read fi st (unnoted o)) as [[[k1|] st1]| | |] eqn:E; try discriminate.
    destruct (update_modified_lists _ _ _) as [k2| | |] eqn:U; try discriminate. injection R as <- <-.
    apply (uml_sk _ (sst_root _ _ (kn_read_state _ _ _ _ _ E) M) _ _ _) in U; [exact U|].
    unfold kn_read in E. destruct (get_from _ _); [|discriminate]. cbn [ok_or] in E. apply slice_sk in E; [now apply bare_sk in E|exact LP|reflexivity].
  - unfold kn_read in R. destruct (get_from _ _); [|discriminate]. cbn [ok_or] in R. apply slice_sk in R; [now apply bare_sk in R|exact LP|exact EM].
Qed.
Section Walk.
Variable fi : file_info.
Lemma child_sk sm f c : sk c -> sk (child_filter_state sm f c).
Proof. intros G. unfold child_filter_state. repeat match goal with |- context [if ?b then _ else _] => destruct b end; try exact G; now apply (sk_same c). Qed.
Lemma children_sk path sm f sf seq m offs : lead path -> forall st cs found logs st', sst st ->
  read_children fi st path sm f sf seq m offs = Ok (cs, found, logs, st') -> Forall sk cs.
Proof.
  intros LP. induction offs as [|o offs IH]; intros st cs found logs st' M; cbn [read_children]; [intros [= <- _ _ _]; constructor|].
  destruct (kn_read fi st _) as [[[c|] st1]| | |] eqn:R; try discriminate.
  - pose proof (sst_root _ _ (kn_read_state _ _ _ _ _ R) M) as M1. apply read_sk in R; [|right; exact LP|exact M].
    destruct (read_children _ _ _ _ _ _ _ _ _) as [[[[cs1 ?] ?] ?]| | |] eqn:E; try discriminate. intros [= <- _ _ _].
    constructor; [now apply child_sk|]. now apply (IH _ _ _ _ _ M1 E).
  - pose proof (sst_root _ _ (kn_read_state _ _ _ _ _ R) M) as M1. intros E. now apply (IH _ _ _ _ _ M1 E).
  - destruct (read_children _ _ _ _ _ _ _ _ _) as [[[[cs1 ?] ?] ?]| | |] eqn:E; try discriminate. intros [= <- _ _ _].
    now apply (IH _ _ _ _ _ M E).
Qed.
Lemma sub_keys_sk st k f seq m k' cs found st' : sst st -> sk k ->
  read_sub_keys_internal fi st k f seq m = Ok (k', cs, found, st') -> sk k' /\ Forall sk cs.
Proof.
  intros M G. unfold read_sub_keys_internal.
  assert (GL : forall c, sk (kn_add_log c k)) by (intros; now apply (sk_same k)).
  destruct (is_allocated _); [|intros [= <- <- _ _]; auto]. destruct (1048576 <? _); [intros [= <- <- _ _]; auto|].
  destruct (0 <? _); [|intros [= <- <- _ _]; auto]. destruct (parse_sub_key_list _ _ _) as [offs| | |]; try discriminate.
  - destruct (read_children _ _ _ _ _ _ _ _ _) as [[[[cs1 ?] ?] ?]| | |] eqn:E; try discriminate. intros [= <- <- _ _].
    split; [now apply (sk_same k)|]. inversion G as [x G1 G2 G3]; subst. now apply (children_sk _ _ _ _ _ _ _ G1 _ _ _ _ _ M E).
  - intros [= <- <- _ _]; auto.
Qed.
Definition scx (c : context) : Prop := sst (cx_state c) /\ Forall sk (cx_stack c) /\ Forall sk (cx_return c).
Lemma fold_scx (g : context -> key_node -> context) l : (forall k c, sk k -> scx c -> scx (g c k)) -> Forall sk l ->
  forall c, scx c -> scx (fold_left g l c).
Proof. intros H F. induction F as [|k l K F IH]; intros c C; [exact C|]. cbn [fold_left]. apply IH. now apply H. Qed.
Lemma visit_sk cx k k' cx' : scx cx -> sk k -> visit fi cx k = Ok (k', cx') -> sk k' /\ scx cx'.
Proof.
  intros C G. unfold visit.
  match goal with |- match ?x with _ => _ end = _ -> _ => destruct x as [[k1 cx1]| | |] eqn:E; try discriminate end.
  assert (X : sk k1 /\ scx cx1).
  { destruct (0 <? _) in E; [|injection E as <- <-; auto].
    destruct (read_sub_keys_internal _ _ _ _ _ _) as [[[[k2 cs] fd] st]| | |] eqn:R in E; try discriminate.
    pose proof (sst_root _ _ (read_sub_keys_state _ _ _ _ _ _ _ _ _ _ R) (proj1 C)) as M.
    apply sub_keys_sk in R as (R1 & R2); [|apply C|exact G]. injection E as <- <-. split; [now apply (sk_same k2)|].
    apply (fold_scx (fun cx c => push_check c cx)); [|now apply Forall_rev|split; [exact M|apply C]].
    intros q c Q (C1 & C2 & C3). unfold push_check. destruct (existsb _ _); [now split|]. split; [exact C1|]. split; [now constructor|exact C3]. }
  cbv beta iota. destruct X as (X1 & X3). intros [= <- <-]. inversion X1 as [x Y1 Y2 Y3]; subst.
  assert (D : Forall sk (map (kn_set_filter (kn_filter k1)) (kn_deleted k1))).
  { apply Forall_map. eapply Forall_impl; [|exact Y3]. intros d Z. now apply (sk_same d). }
  split; [constructor; [exact Y1|exact Y2|exact D]|].
  apply (fold_scx (fun cx d => push d cx)); [|exact D|exact X3].
  intros q c Q (C1 & C2 & C3). split; [exact C1|]. split; [now constructor|exact C3].
Qed.
Lemma next_pre_sk : forall fuel cx o cx', scx cx -> next_key_preorder fuel fi cx = Ok (o, cx') -> scx cx' /\ forall k, o = Some k -> sk k.
Proof.
  induction fuel as [|fuel IH]; intros cx o cx' C; [discriminate|]. cbn [next_key_preorder]. pose proof C as (C1 & C2 & C3).
  destruct (cx_stack cx) as [|k rest] eqn:S; [intros [= <- <-]; split; [exact C|discriminate]|]. inversion C2; subst.
  destruct (visit _ _ _) as [[k' c']| | |] eqn:V; try discriminate. apply visit_sk in V as (V1 & V2); [|split; [exact C1|split; assumption]|assumption].
  cbv beta iota. destruct (_ || _); [intros [= <- <-]; split; [exact V2|intros ? [= <-]; exact V1]|now apply IH].
Qed.
Lemma next_post_sk : forall fuel cx o cx', scx cx -> next_key_postorder fuel fi cx = Ok (o, cx') -> scx cx' /\ forall k, o = Some k -> sk k.
Proof.
  induction fuel as [|fuel IH]; intros cx o cx' C; [discriminate|]. cbn [next_key_postorder]. pose proof C as (C1 & C2 & C3).
  destruct (cx_stack cx) as [|k rest] eqn:S.
  - destruct (cx_return cx) as [|top r] eqn:T; [intros [= <- <-]; split; [exact C|discriminate]|]. inversion C3; subst.
    assert (X : scx (cx_set_return r cx)) by (split; [exact C1|split; [cbn [cx_set_return cx_stack]; now rewrite S|assumption]]).
    cbv zeta. destruct (_ || _); intros [= <- <-]; (split; [exact X|]); [intros ? [= <-]; assumption|discriminate].
  - inversion C2; subst.
    assert (ST : (let* (node, cx1) := visit fi (cx_set_stack rest cx) k in
      next_key_postorder fuel fi (cx_set_return (node :: match cx_return cx1 with [] => [] | last :: r => kn_set_track (kn_track last + 1) last :: r end) cx1)) = Ok (o, cx')
      -> scx cx' /\ forall q, o = Some q -> sk q).
    { destruct (visit _ _ _) as [[k' c']| | |] eqn:V; try discriminate. apply visit_sk in V as (V1 & V2); [|split; [exact C1|split; assumption]|assumption].
      cbv beta iota. apply IH. destruct V2 as (W1 & W2 & W3). split; [exact W1|]. split; [exact W2|]. cbn [cx_set_return cx_return]. constructor; [exact V1|].
      destruct (cx_return c') as [|l r]; [constructor|]. inversion W3; subst. constructor; [now apply (sk_same l)|assumption]. }
    cbv zeta. destruct (cx_return cx) as [|last r] eqn:T; [exact ST|]. destruct (_ =? _); [|exact ST].
    inversion C3; subst. intros [= <- <-]. split; [|intros ? [= <-]; assumption]. split; [exact C1|]. split; [cbn [cx_set_return cx_stack]; now rewrite S|assumption].
Qed.
Lemma collect_sk post : forall fuel cx ks, scx cx -> collect post fuel fi cx = Ok ks -> Forall sk ks.
Proof.
  induction fuel as [|fuel IH]; intros cx ks C; [discriminate|]. cbn [collect].
  destruct ((if post then next_key_postorder else next_key_preorder) (S fuel) fi cx) as [[o cx1]| | |] eqn:E; try discriminate.
  assert (X : scx cx1 /\ forall k, o = Some k -> sk k) by (destruct post; [now apply next_post_sk in E|now apply next_pre_sk in E]).
  cbv beta iota. destruct o as [k|]; [|intros [= <-]; constructor]. destruct (collect _ _ _ _) as [r| | |] eqn:R; try discriminate.
  intros [= <-]. constructor; [now apply X|]. now apply (IH cx1); [apply X|].
Qed.
End Walk.
Lemma root_sk p p1 : sst (ps_state p) -> init_root p = Ok p1 -> exists r, ps_root p1 = Some r /\ sk r.
Proof.
  intros D I. apply init_root_ok in I as (h & root & -> & _ & R). destruct (read_root_some _ _ _ _ _ _ _ R) as (r & ->).
  exists r. split; [reflexivity|]. apply read_sk in R; [exact R|now left|exact D].
Qed.
Lemma iterate_sk p r n f anc m post ks : sst (ps_state p) -> ps_root p = Some r -> sk r -> iterate n p f anc m post = Ok ks -> Forall sk ks.
Proof.
  intros S R K. unfold iterate. apply collect_sk. split; [exact S|]. split; [|constructor]. unfold from_parser. cbn [cx_stack]. rewrite R. constructor; [exact K|constructor].
Qed.

(** ** The items and the states of a build *)
Definition lit (items : reg_items) : Prop := Forall (fun x => lead (fst (fst x))) items.
Lemma lit_set w it m : lead (fst w) -> lit m -> lit (aset item_key_eqb w it m).
Proof.
  intros L F. induction F as [|[v i] m V F IH]; cbn [aset]; [constructor; [exact L|constructor]|].
  destruct (item_key_eqb w v); constructor; assumption.
Qed.
Lemma lit_del w m : lit m -> lit (adel item_key_eqb w m).
Proof. intros F. induction F as [|[v i] m V F IH]; cbn [adel]; [constructor|]. destruct (item_key_eqb w v); [exact F|]. now constructor. Qed.
Lemma lit_values path seq vs : lead path -> forall m m', lit m -> insert_values path seq vs m = Ok m' -> lit m'.
Proof.
  intros L. induction vs as [|v vs IH]; intros m m' M; cbn [insert_values]; [now intros [= <-]|].
  destruct (must_hash _) as [h| | |]; try discriminate. cbv beta iota. apply IH. now apply lit_set.
Qed.
Lemma lit_keys seq ks : Forall sk ks -> forall m m', lit m -> insert_keys seq ks m = Ok m' -> lit m'.
Proof.
  intros F. induction F as [|k ks K F IH]; intros m m' M; cbn [insert_keys]; [now intros [= <-]|]. inversion K as [x K1 K2 K3]; subst.
  destruct (must_hash _) as [h| | |]; try discriminate. cbv beta iota zeta.
  destruct (insert_values _ _ _ _) as [m1| | |] eqn:E; try discriminate. apply IH. apply (lit_values _ _ _ K1) in E; [exact E|now apply lit_set].
Qed.
Lemma step_lit seq l : Forall (fun e => lead (fst (fst e))) l -> forall a b c a' b' c', lit a -> lit b -> lit c ->
  fold_left (step seq) l (a, b, c) = (a', b', c') -> lit a' /\ lit b' /\ lit c'.
Proof.
  intros F. induction F as [|e l E F IH]; intros a b c a' b' c' A B C; cbn [fold_left]; [intros [= <- <- <-]; auto|].
  unfold step at 2. destruct (aget _ _ _) as [it|]; [destruct (_ =? _)|]; apply IH; try apply lit_set; try apply lit_del; auto.
  apply Forall_app. split; [exact C|]. constructor; [exact E|constructor].
Qed.
Lemma sightings_lead ks : Forall sk ks -> Forall (fun e => lead (fst (fst e))) (sightings ks).
Proof.
  intros F. unfold sightings. apply Forall_forall. intros e I. apply in_flat_map in I as (k & J & I). rewrite Forall_forall in F. apply F in J. inversion J as [x K1 K2 K3]; subst.
  destruct I as [<-|I]; [exact K1|]. apply in_map_iff in I as (v & <- & _). exact K1.
Qed.
Lemma old_sk fi st seq cs path it k : lead path -> In k (old_key fi st seq cs path it) -> sk k /\ lead (kn_path k).
Proof.
  intros L. unfold old_key. destruct (kn_read _ _ _) as [[[k0|] st0]| | |] eqn:K; try contradiction. intros [<-|[]].
  unfold kn_read in K. destruct (get_from _ _); [|discriminate]. cbn [ok_or] in K. apply slice_sk in K; [|now apply lead_parent|reflexivity].
  pose proof (bare_sk _ _ K) as S. split; [now apply (sk_same k0)|apply K].
Qed.
Section Build.
Variables (order : reg_items -> reg_items) (fuel : nat) (full : bool) (hash : list N -> N).
Hypothesis PERM : forall m, Permutation (order m) m.
Lemma latest_sst fi seq p prior latest p' logs : sst (ps_state p) -> lit prior ->
  get_latest_reg_items order fuel fi seq p prior = Ok (latest, p', logs) -> sst (ps_state p') /\ lit latest.
Proof.
  intros S L E. destruct (comparison _ _ _ _ _ _ _ _ _ E) as (p1 & ks & prior' & ch & IR & SP & IT & _ & FS & _ & M1 & _ & M3 & _). cbv zeta in M1, M3.
  destruct (root_sk _ _ S IR) as (r & RR & RS). rewrite <- SP in S. pose proof (iterate_sk _ _ _ _ _ _ _ _ S RR RS IT) as K. rewrite SP in S.
  apply (step_lit _ _ (sightings_lead _ K)) in FS as (F1 & F2 & F3); [|exact L|constructor|constructor].
  split; [|exact F2]. split.
  - rewrite M3. apply keyed_remove, keyed_pushes; [|apply S]. apply Forall_forall. intros x X. apply in_flat_map in X as (y & Y & X).
    unfold gone_keys in X. destruct (snd (fst y)); [contradiction|]. unfold at_path in X. apply in_map_iff in X as (k & <- & X). cbn [fst snd].
    apply old_sk in X; [apply X|]. apply (Permutation_in _ (PERM prior')) in Y. unfold lit in F1. rewrite Forall_forall in F1. exact (F1 _ Y).
  - rewrite M1. apply keyed_pushes; [|apply S]. apply Forall_forall. intros x X. apply in_flat_map in X as (y & Y & X).
    unfold changed_keys in X. destruct (is_key y); [|contradiction]. unfold at_path in X. apply in_map_iff in X as (k & <- & X). cbn [fst snd].
    apply old_sk in X; [apply X|]. unfold lit in F3. rewrite Forall_forall in F3. exact (F3 _ Y).
Qed.
End Build.
Lemma key_sst scan fi st s off cs force st' n : (forall st s o st', sst st -> scan st s o = Ok st' -> sst st') -> sst st ->
  recover_key scan fi st s off cs force = Ok (st', n) -> sst st'.
Proof.
  intros H S. unfold recover_key. destruct (read_from_slice _ _ _ _) as [[[k|] st1]| | |] eqn:R; try discriminate.
  - pose proof (sst_root _ _ (read_from_slice_state _ _ _ _ _ _ R) S) as S1. apply slice_sk in R; [|now left|reflexivity].
    destruct (scan _ _ _) as [st2| | |] eqn:C; try discriminate. cbv beta iota. apply H in C; [|exact S1].
    destruct (_ || _); intros [= <- _]; [|exact C]. split; [|apply C]. apply keyed_push; [apply C|]. apply bare_sk in R. now apply (sk_same k).
  - intros [= <- _]. exact (sst_root _ _ (read_from_slice_state _ _ _ _ _ _ R) S).
  - now intros [= <- _].
Qed.
Lemma value_sst scan fi st s off cs force st' n : (forall st s o st', sst st -> scan st s o = Ok st' -> sst st') -> sst st ->
  recover_value scan fi st s off cs force = Ok (st', n) -> sst st'.
Proof.
  intros H S. unfold recover_value. destruct (kv_from_bytes _ _ _ _) as [[v r]| | |]; try discriminate; [|now intros [= <- _]].
  destruct (scan _ _ _) as [st2| | |] eqn:C; try discriminate. cbv beta iota. apply H in C; [|exact S]. destruct (_ || _); intros [= <- _]; exact C.
Qed.
Lemma slack_sst fi : forall fuel st s start off st', sst st -> slack_scan fuel fi st s start off = Ok st' -> sst st'.
Proof.
  induction fuel as [|fuel IH]; intros st s start off st' S; [discriminate|]. cbn [slack_scan]. destruct (_ <? _); [|now intros [= <-]].
  cbv zeta. destruct (le_i32 _) as [[z i]|]; [|now intros [= <-]].
  assert (H : forall st s o st', sst st -> slack_scan fuel fi st s o 0 = Ok st' -> sst st') by (intros ? ? ? ? A B; exact (IH _ _ _ _ _ A B)).
  destruct (tag NK i); [|destruct (tag VK i); [|now apply IH]].
  - destruct (recover_key _ _ _ _ _ _ _) as [[st1 n]| | |] eqn:E; try discriminate. apply key_sst in E; [|exact H|exact S]. cbv beta iota. now apply IH.
  - destruct (recover_value _ _ _ _ _ _ _) as [[st1 n]| | |] eqn:E; try discriminate. apply value_sst in E; [|exact H|exact S]. cbv beta iota. now apply IH.
Qed.
Lemma unused_sst fi : forall fuel st s off m n st', sst st -> unused_cells_loop fuel fi st s off m = Ok (n, st') -> sst st'.
Proof.
  assert (H : forall st s o st', sst st -> find_cells_in_slack fi st s o = Ok st' -> sst st') by (intros ? ? ? ? A B; exact (slack_sst _ _ _ _ _ _ _ A B)).
  induction fuel as [|fuel IH]; intros st s off m n st' S; [discriminate|]. cbn [unused_cells_loop]. destruct (_ <? _); [|now intros [= _ <-]].
  destruct (nom _) as [[z i]| | |]; try discriminate. cbv beta iota zeta. destruct (_ =? _)%Z; [now intros [= _ <-]|].
  match goal with |- (let* st := ?x in _) = _ -> _ => destruct x as [st1| | |] eqn:E; try discriminate end. cbv beta iota.
  assert (S1 : sst st1).
  { revert E. destruct (tag VK i); [|destruct (tag NK i)].
    - destruct (read_checked _ _); [|now intros [= <-]]. destruct (recover_value _ _ _ _ _ _ _) as [[st2 n2]| | |] eqn:F; try discriminate.
      intros [= <-]. now apply value_sst in F.
    - destruct (read_checked _ _); [|now intros [= <-]]. destruct (recover_key _ _ _ _ _ _ _) as [[st2 n2]| | |] eqn:F; try discriminate.
      intros [= <-]. now apply key_sst in F.
    - destruct (read_range_checked _ _ _); [|now intros [= <-]]. now apply H. }
  clear E. destruct (read_range_checked _ _ _); [now apply IH|now intros [= _ <-]].
Qed.
Lemma scan_sst fi st n st' : sst st -> find_free_keys_and_values fi st n = Ok st' -> sst st'.
Proof.
  unfold find_free_keys_and_values. generalize (S (length (fi_buffer fi))), (fi_hbin fi). intros fuel. revert st.
  induction fuel as [|fuel IH]; intros st off S; [discriminate|]. cbn [recover_loop]. destruct (_ <? _); [|now intros [= <-]].
  destruct (recover_hbin _ _ _) as [[o st1]| | |] eqn:E; try discriminate. cbv beta iota. apply IH. revert E. unfold recover_hbin.
  destruct (read_checked _ _); [|discriminate]. cbn [ok_or]. destruct (hbin_from_bytes _ _) as [[h r]| | |]; try discriminate. cbv beta iota.
  unfold find_unused_cells_in_hbin. destruct (read_checked _ _); [|discriminate]. cbn [ok_or]. now apply unused_sst.
Qed.

Section Opened.
Variables (order : reg_items -> reg_items) (fuel : nat) (full : bool) (hash : list N -> N).
Hypothesis PERM : forall m, Permutation (order m) m.
Lemma analyze_sst fi seq p items i' p' : sst (ps_state p) -> lit items -> analyze_entry order fuel fi seq p items = Ok (i', p') -> sst (ps_state p') /\ lit i'.
Proof.
  intros M L. unfold analyze_entry. destruct (ps_recover p); [|now intros [= <- <-]].
  destruct (get_latest_reg_items _ _ _ _ _ _) as [[[l p1] logs]| | |] eqn:E; try discriminate; [|now intros [= <- <-]].
  intros [= <- <-]. now apply latest_sst in E.
Qed.
Lemma entries_sst sec hbins es : forall n p items n' i' p', sst (ps_state p) -> lit items ->
  update_entries order fuel sec hbins es n p items = Ok (n', i', p') -> sst (ps_state p') /\ lit i'.
Proof.
  induction es as [|e es IH]; intros n p items n' i' p' M L; cbn [update_entries]; [now intros [= _ <- <-]|].
  destruct (le_valid_hashes e); [|now intros [= _ <- <-]].
  destruct (_ <? sec); [now apply IH|]. destruct (negb _); [now intros [= _ <- <-]|].
  destruct (_ && _); [now intros [= _ <- <-]|].
  cbv zeta. destruct (apply_pages _ _ _) as [b| | |]; try discriminate. cbv beta iota.
  destruct (analyze_entry _ _ _ _ _ _) as [[i1 p1]| | |] eqn:E; try discriminate. cbv beta iota.
  apply analyze_sst in E as (E1 & E2); [now apply IH|exact M|exact L].
Qed.
Lemma logs_sst sec logs : forall n p items n' p', sst (ps_state p) -> lit items ->
  apply_logs order fuel sec logs n p items = Ok (n', p') -> sst (ps_state p').
Proof.
  induction logs as [|l logs IH]; intros n p items n' p' M L; cbn [apply_logs]; [now intros [= _ <-]|].
  destruct (sec <=? _); [|now apply IH]. destruct (_ || _); [|now apply IH].
  unfold update_parser. destruct (base_block_info p) as [[s h]| | |]; try discriminate. cbv beta iota.
  destruct (update_entries _ _ _ _ _ _ _ _) as [[[n1 i1] p1]| | |] eqn:E; try discriminate. cbv beta iota.
  apply entries_sst in E as (E1 & E2); [|exact M|exact L]. now apply IH.
Qed.
Lemma base_sst p s bad p' : sst (ps_state p) -> init_base_block p = Ok (s, bad, p') -> sst (ps_state p').
Proof.
  intros M. unfold init_base_block, check_base_block. destruct (bb_from_bytes _) as [[bb r]| | |]; try discriminate. cbv beta iota zeta.
  destruct (is_supported bb); [|now intros [= _ _ <-]].
  set (q := if _ =? _ then _ else _).
  assert (MQ : sst (ps_state q)) by (unfold q; destruct (_ =? _); exact M).
  destruct (get_range _ _ _); [|discriminate]. cbn [or_panic]. destruct (calculate_checksum _) as [ck| | |]; try discriminate.
  cbv beta iota. clearbody q. destruct (ck =? _); intros [= _ _ <-]; exact MQ.
Qed.
Lemma apply_sst bad logs p p' : sst (ps_state p) -> apply_transaction_logs order fuel bad logs p = Ok p' -> sst (ps_state p').
Proof.
  intros M. unfold apply_transaction_logs. destruct logs as [|l logs]; [now intros [= <-]|].
  destruct (prepare_logs bad p (l :: logs)) as [[[go p1] logs1]| | |] eqn:E; try discriminate.
  assert (M1 : sst (ps_state p1)).
  { assert (X : forall p2, sst (ps_state p2) -> forall l2, (let* b := or_panic (ps_base_block p2) in
        if bb_primary_seq (bb_base b) =? bb_secondary_seq (bb_base b) then Ok (false, ps_log WarningTransactionLog p2, l2) else Ok (true, p2, l2)) = Ok (go, p1, logs1) -> sst (ps_state p1)).
    { intros p2 M2 l2. destruct (ps_base_block p2); [|discriminate]. cbn [or_panic]. destruct (_ =? _); intros [= _ <- _]; exact M2. }
    unfold prepare_logs in E. destruct bad.
    - destruct (handle_bad_checksum p (l :: logs)) as [[p2 logs2]| | |] eqn:H; try discriminate. cbv beta iota in E. apply X in E; [exact E|].
      unfold handle_bad_checksum in H. destruct (last _ _); [|discriminate]. cbn [or_panic] in H. cbv beta zeta iota in H.
      destruct (get_range _ _ _) in H; [|discriminate]. cbn [ok_or] in H. destruct (overwrite _ _ _) in H; [|discriminate]. cbn [or_panic] in H.
      destruct (init_base_block _) as [[[s b] p3]| | |] eqn:B in H; try discriminate. injection H as <- _.
      apply base_sst in B; [exact B|exact M].
    - cbv beta iota in E. now apply X in E. }
  cbv beta iota. destruct go; [|now intros [= <-]].
  destruct (get_reg_items fuel p1 0) as [[items p2]| | |] eqn:G; try discriminate.
  assert (M2 : sst (ps_state p2) /\ lit items).
  { unfold get_reg_items in G. destruct (ps_recover p1); [|injection G as <- <-; split; [exact M1|constructor]].
    destruct (init_root p1) as [q| | |] eqn:I; try discriminate. destruct (root_sk _ _ M1 I) as (r & RR & RK). apply init_root_state in I.
    rewrite <- I in M1. destruct (iterate _ _ _ _ _ _) as [ks| | |] eqn:IT; try discriminate. pose proof (iterate_sk _ _ _ _ _ _ _ _ M1 RR RK IT) as K.
    destruct (insert_keys _ _ _) eqn:IK; try discriminate. injection G as <- <-. split; [exact M1|]. apply (lit_keys _ _ K) in IK; [exact IK|constructor]. }
  cbv beta iota. destruct (base_block_info p2) as [[sec h]| | |]; try discriminate. cbv beta iota.
  destruct (apply_logs _ _ _ _ _ _ _) as [[n p3]| | |] eqn:A; try discriminate. apply logs_sst in A; [|apply M2|apply M2]. cbv beta iota.
  unfold update_header. destruct (overwrite _ _ _); [|discriminate]. cbn [or_panic]. destruct (overwrite _ _ _); [|discriminate]. cbn [or_panic].
  destruct (get_range _ _ _); [|discriminate]. cbn [or_panic]. destruct (calculate_checksum _); try discriminate.
  cbv beta iota. destruct (overwrite _ _ _); [|discriminate]. cbn [or_panic].
  destruct (init_base_block _) as [[[s b] p4]| | |] eqn:B; try discriminate. apply base_sst in B; [|exact A].
  now intros [= <-].
Qed.
Lemma build_sk recover buffer files q : known_file_type buffer -> build order fuel hash recover full buffer files = Ok q ->
  sst (ps_state q) /\ exists r, ps_root q = Some r /\ sk r.
Proof.
  intros K. unfold build. destruct (parse_logs files) as [[logs w]| | |]; try discriminate. cbv beta iota zeta. unfold ps_init.
  destruct (init_base_block _) as [[[s bad] p]| | |] eqn:B; try discriminate.
  assert (SS : s = true) by (apply init_base_ok in B as (_ & _ & _ & _ & T0); now apply T0 in K).
  subst s. apply base_sst in B; [|split; constructor]. cbv beta iota.
  match goal with |- match ?x with _ => _ end = _ -> _ => destruct x as [p1| | |] eqn:E; try discriminate end.
  assert (M : sst (ps_state p1) /\ exists r, ps_root p1 = Some r /\ sk r).
  { assert (X : forall p2, sst (ps_state p2) -> match apply_transaction_logs order fuel bad logs p2 with Ok p => init_root p | Err => Err | Panic => Panic | OutOfFuel => OutOfFuel end = Ok p1 ->
      sst (ps_state p1) /\ exists r, ps_root p1 = Some r /\ sk r).
    { intros p2 M2. destruct (apply_transaction_logs order fuel bad logs p2) as [p3| | |] eqn:A; try discriminate. apply apply_sst in A; [|exact M2].
      intros I. pose proof (root_sk _ _ A I) as R. apply init_root_state in I. rewrite I. now split. }
    destruct recover; [|exact (X p B E)]. destruct (ps_base_block p) as [bb|]; [|discriminate]. cbn [or_panic] in E. cbv beta iota in E.
    destruct (find_free_keys_and_values _ _ _) as [st| | |] eqn:F in E; try discriminate. cbv beta iota in E.
    refine (X (ps_set_state st p) _ E). exact (scan_sst _ _ _ _ B F). }
  cbv beta iota. now intros [= <-].
Qed.
End Opened.

(** ** Exports *)
Lemma moved_sk p q r : moved p q -> sst (ps_state p) -> ps_root p = Some r -> sk r -> sst (ps_state q) /\ exists r, ps_root q = Some r /\ sk r.
Proof. intros (st & -> & R) M PR K. split; [exact (sst_root _ _ R M)|]. exists r. split; [exact PR|exact K]. Qed.
Lemma bind_safe {A B} (x : res A) (f : A -> res B) : safe x -> (forall a, safe (f a)) -> safe (match x with Ok a => f a | Err => Err | Panic => Panic | OutOfFuel => OutOfFuel end).
Proof. intros X F. destruct x; [apply F|discriminate|now elim X|discriminate]. Qed.
Lemma common_key_safe r k t : lead (kn_path k) -> exists x, common_key r k t = Ok x.
Proof. intros L. unfold common_key. destruct (lead_cut _ L) as (s & ->). destruct (kn_state k); eauto. Qed.
Lemma each_ok {A} (f : A -> totals -> res (list N * totals)) l : Forall (fun x => forall t, exists y, f x t = Ok y) l -> forall t, exists y, each f l t = Ok y.
Proof.
  induction 1 as [|x l X F IH]; intros t; cbn [each]; [eauto|]. destruct (X t) as ((a & t1) & ->). cbv beta iota. destruct (IH t1) as ((b & t2) & ->). eauto.
Qed.
Lemma common_item_ok r k : sk k -> forall t, exists x, common_item r k t = Ok x.
Proof.
  intros K t. inversion K as [x L V D]; subst. unfold common_item. destruct (common_key_safe r k t L) as ((a & t1) & ->). cbv beta iota.
  destruct (each_ok (common_key r) (kn_versions k)) with (t := t1) as ((b & t2) & ->).
  { eapply Forall_impl; [|exact V]. intros v LV t0. now apply common_key_safe. }
  cbv beta iota. match goal with |- context [each ?f ?l t2] => destruct (each_ok f l) with (t := t2) as ((c & t3) & ->) end; [|eauto].
  apply Forall_forall. intros v _ t0. unfold common_value at 1. cbv beta iota zeta.
  match goal with |- context [each ?f ?l ?u] => destruct (each_ok f l) with (t := u) as ((y & t5) & ->) end; [|eauto].
  apply Forall_forall. intros v2 _ t6. unfold common_value. eauto.
Qed.
Lemma common_ok r ks : Forall sk ks -> exists x, common_export r ks = Ok x.
Proof.
  intros F. unfold common_export. destruct (each_ok (common_item r) ks) with (t := no_totals) as ((b & t) & ->); [|eauto].
  eapply Forall_impl; [|exact F]. intros k. apply common_item_ok.
Qed.
Section Sheets.
Context (accepts : list write -> write -> bool) (printable : N -> bool) (key_logs : key_node -> list N) (value_logs : key_value -> list N)
  (recovered_only : bool).
Lemma put_safe s c w b : safe (put accepts s c w b).
Proof. unfold put. cbv zeta. destruct (accepts _ _); [destruct b|]; discriminate. Qed.
Lemma chunks_safe fuel : forall val, safe (chunks fuel val).
Proof.
  induction fuel as [|fuel IH]; intros [|x val]; cbn [chunks]; try discriminate. destruct (safe_split_at _ _) as [c r].
  apply bind_safe; [apply IH|discriminate].
Qed.
Lemma put_chunks_safe l : forall col b, safe (put_chunks accepts l col b).
Proof. induction l as [|c l IH]; intros col b; cbn [put_chunks]; [discriminate|]. destruct (_ <? _); [discriminate|]. apply bind_safe; [apply put_safe|intros; apply IH]. Qed.
Lemma overflow_safe s c v b : safe (write_string_handle_overflow accepts s c v b).
Proof.
  unfold write_string_handle_overflow. destruct (_ <? _); [|apply put_safe]. apply bind_safe; [apply chunks_safe|intros cs]. cbv zeta.
  apply bind_safe; [apply put_safe|intros b1]. apply bind_safe; [apply put_chunks_safe|intros b2]. apply bind_safe; [apply put_safe|intros b3]. apply put_safe.
Qed.
Lemma check_safe s c v b : safe (check_write_string accepts s c v b).
Proof. destruct v; [discriminate|]. apply overflow_safe. Qed.
Lemma put_if_safe s c n b : safe (put_if accepts s c n b).
Proof. destruct n; [apply put_safe|discriminate]. Qed.
Lemma each_safe {A} (f : A -> book -> res book) l : Forall (fun x => forall b, safe (f x b)) l -> forall b, safe (write_each f l b).
Proof. induction 1 as [|x l X F IH]; intros b; cbn; [discriminate|]. apply bind_safe; [apply X|exact IH]. Qed.
Ltac cells := repeat first [apply bind_safe; [first [apply put_safe|apply check_safe|apply put_if_safe]|intros ?]].
Lemma xlsx_value_safe k v b : safe (write_value accepts printable value_logs recovered_only k v b).
Proof. unfold write_value. destruct (_ && _); [discriminate|]. cbv zeta. cells. apply check_safe. Qed.
Lemma xlsx_key_eq k m b : write_key accepts printable key_logs value_logs recovered_only k m b =
  match (if negb recovered_only || kn_has_or_is_recovered k then
      let b := next_row Items b in
      let* b := put accepts Items 0 (Number (bk_items b)) b in
      let* b := check_write_string accepts Items 1 (sanitize (kn_path k)) b in
      let* b := put accepts Items 2 (Number (len (kn_sub_offsets k))) b in
      let* b := put accepts Items 5 (Text (format_date_time (kn_date k))) b in
      let* b := put accepts Items 6 (Text (state_name (kn_state k))) b in
      let* b := put_if accepts Items 7 (kn_seq k) b in
      let* b := put_if accepts Items 8 (kn_updated_by k) b in
      let* b := put accepts Items 9 (Text (show_key_flags (kd_flags (kn_detail k)))) b in
      let* b := put accepts Items 10 (Text (show_access_flags (kd_access (kn_detail k)))) b in
      let* b := check_write_string accepts Items 12 (sanitize (key_logs k)) b in
      write_each (fun v => write_key accepts printable key_logs value_logs recovered_only v true) (kn_versions k) b
    else Ok b) with
  | Ok b => if m then Ok b else
      write_each (fun v b =>
        let* b := write_value accepts printable value_logs recovered_only k v b in
        write_each (write_value accepts printable value_logs recovered_only k) (kv_versions v) b) (values_of k) b
  | Err => Err | Panic => Panic | OutOfFuel => OutOfFuel end.
Proof. destruct k. reflexivity. Qed.
Lemma xlsx_key_safe : forall k m b, safe (write_key accepts printable key_logs value_logs recovered_only k m b).
Proof.
  apply (versions_ind (fun k => forall m b, safe (write_key accepts printable key_logs value_logs recovered_only k m b))).
  intros k IH m b. rewrite xlsx_key_eq. apply bind_safe.
  - destruct (_ || _); [|discriminate]. cbv zeta. cells. apply each_safe. eapply Forall_impl; [|exact IH]. intros v X b1. apply X.
  - intros b1. destruct m; [discriminate|]. apply each_safe. apply Forall_forall. intros v _ b2. apply bind_safe; [apply xlsx_value_safe|].
    intros b3. apply each_safe. apply Forall_forall. intros v2 _ b4. apply xlsx_value_safe.
Qed.
Lemma xlsx_export_safe ks log : safe (xlsx_export accepts printable key_logs value_logs recovered_only ks log).
Proof.
  unfold xlsx_export. apply bind_safe.
  { generalize 0. generalize new_book. induction xlsx_header as [|h l IH]; intros b c; [discriminate|]. cbn [put_header]. apply bind_safe; [apply put_safe|intros b1; apply IH]. }
  intros b. apply bind_safe; [apply each_safe; apply Forall_forall; intros k _ b1; apply xlsx_key_safe|]. intros b1.
  destruct (logs_get log) as [ms|]; [|discriminate]. apply each_safe. apply Forall_forall. intros x _ b2. unfold write_log. cells. discriminate.
Qed.
End Sheets.
