(** Where the bytes of a value lie: facts about every value an iteration shows. *)
From Verif Require Import Base BaseFacts LayoutSpec LayoutFacts BaseBlock Util Types Value Node Recover Parser TxLog
  NodeFrame TxSpec TxBuild CellSpec CellFacts CellRead TreeSpec TreeRead TreeOpen AnyFile ScanSpec ScanFacts Recovered Pure LiveSpec LivePlain
  WhereSpec.

(** What holds of each value when it is read holds of every value shown. *)
Section Shown.
Context (Q : key_value -> Prop) (fi : file_info).
Context (QV : forall st b off seq nm w, get_from (fi_buffer fi) off = Some b -> vk_ok b ->
  Q (read_value_bytes fi st (kv_at (st_full st) b off seq nm w))).
Definition holding (k : key_node) : Prop := kn_deleted k = [] /\ Forall Q (kn_values k).
Lemma values_loop_holding st seq offs : forall acc vs logs ok, Forall Q acc ->
  read_values_loop fi st seq offs acc = Ok (vs, logs, ok) -> Forall Q vs.
Proof.
  induction offs as [|o offs IH]; intros acc vs logs ok A; cbn [read_values_loop]; [now intros [= <- _ _]|].
  destruct (get_at _ _); [|now intros [= <- _ _]]. destruct (get_from _ _) as [s|] eqn:GF; [|now intros [= <- _ _]].
  destruct (kv_cases s (o + fi_hbin fi) seq (st_full st)) as [(VK & nm & w & _ & E)|(_ & E)]; rewrite E; [|now intros [= <- _ _]].
  apply IH. apply Forall_app. split; [exact A|]. constructor; [|constructor]. now apply QV.
Qed.
Lemma values_holding st seq k k' ok : holding k -> read_values fi st seq k = Ok (k', ok) -> holding k'.
Proof.
  intros A. unfold read_values. destruct (_ && _); [|intros [= <- _]; auto].
  destruct (1048576 <? _); [intros [= <- _]; auto|]. destruct (parse_key_values _ _ _) as [offs|]; [|intros [= <- _]; destruct A as (A1 & _); split; [assumption|constructor]].
  destruct (read_values_loop _ _ _ _ _) as [[[vs logs] ok']| | |] eqn:E; try discriminate. intros [= <- _].
  destruct A as (A1 & A2). split; [exact A1|]. exact (values_loop_holding _ _ _ _ _ _ _ (Forall_nil _) E).
Qed.
Lemma slice_holding st slice o k st' : quiet st -> read_from_slice fi st slice o = Ok (Some k, st') -> holding k.
Proof.
  intros M. unfold read_from_slice.
  destruct (kn_cases st slice (op_offset o) (op_path o) (op_seq o)) as [(_ & nm & w & _ & E)|(_ & E)]; rewrite E; [|discriminate].
  cbv beta iota. set (k0 := kn_at _ _ _ _ _ _ _).
  destruct (match op_filter o with Some f => check_cell f st k0 | None => Ok (IterateKeys, st) end) as [[fl st1]| | |] eqn:EF; try discriminate.
  assert (RO : root_only st st1).
  { destruct (op_filter o); [exact (check_cell_state _ _ _ _ _ EF)|injection EF as _ <-; apply root_only_refl]. }
  pose proof (quiet_root_only' _ _ RO M) as M1. cbv beta iota. destruct fl; [discriminate| |].
  all: match goal with |- (let* k := ?x in _) = _ -> _ => destruct x as [k1| | |] eqn:EV; try discriminate end.
  all: assert (A1 : holding k1);
    [destruct (_ && _) in EV; [|injection EV as <-; split; [reflexivity|constructor]]; destruct (read_values _ _ _ _) as [[k2 ok]| | |] eqn:RV in EV; try discriminate;
     apply values_holding in RV; [|split; [reflexivity|constructor]]; injection EV as <-; destruct ok; exact RV|].
  all: cbv beta iota zeta.
  all: match goal with |- (let* k := (if _ then update_modified_lists _ _ ?x else _) in _) = _ -> _ => set (k2 := x) end.
  all: assert (G2 : holding k2) by exact A1.
  all: destruct (op_modified o);
    [match goal with |- context [update_modified_lists ?f ?s ?k] => destruct (update_modified_lists f s k) as [k3| | |] eqn:U; try discriminate end
    |now intros [= <- _]].
  all: unfold uml_fuel in U; rewrite uml_quiet in U by exact M1; injection U as <-; now intros [= <- _].
Qed.
Lemma read_holding st o k st' : quiet st -> kn_read fi st o = Ok (Some k, st') -> holding k.
Proof. intros M. unfold kn_read. destruct (get_from _ _) eqn:GF; [|discriminate]. cbn [ok_or]. now apply slice_holding. Qed.
Lemma child_holding sm f c : holding c -> holding (child_filter_state sm f c).
Proof. intros G. unfold child_filter_state. repeat match goal with |- context [if ?b then _ else _] => destruct b end; exact G. Qed.
Lemma children_holding path sm f sf seq m offs : forall st cs found logs st', quiet st ->
  read_children fi st path sm f sf seq m offs = Ok (cs, found, logs, st') -> Forall holding cs.
Proof.
  induction offs as [|o offs IH]; intros st cs found logs st' M; cbn [read_children]; [intros [= <- _ _ _]; constructor|].
  destruct (kn_read fi st _) as [[[c|] st1]| | |] eqn:R; try discriminate.
  - pose proof (quiet_root_only' _ _ (kn_read_state _ _ _ _ _ R) M) as M1. apply read_holding in R; [|exact M].
    destruct (read_children _ _ _ _ _ _ _ _ _) as [[[[cs1 ?] ?] ?]| | |] eqn:E; try discriminate. intros [= <- _ _ _].
    constructor; [now apply child_holding|]. now apply (IH _ _ _ _ _ M1 E).
  - pose proof (quiet_root_only' _ _ (kn_read_state _ _ _ _ _ R) M) as M1. intros E. now apply (IH _ _ _ _ _ M1 E).
  - destruct (read_children _ _ _ _ _ _ _ _ _) as [[[[cs1 ?] ?] ?]| | |] eqn:E; try discriminate. intros [= <- _ _ _].
    now apply (IH _ _ _ _ _ M E).
Qed.
Lemma sub_keys_holding st k f seq m k' cs found st' : quiet st -> holding k ->
  read_sub_keys_internal fi st k f seq m = Ok (k', cs, found, st') -> holding k' /\ Forall holding cs.
Proof.
  intros M G. unfold read_sub_keys_internal.
  assert (GL : forall c, holding (kn_add_log c k)) by (intros; exact G).
  destruct (is_allocated _); [|intros [= <- <- _ _]; auto]. destruct (1048576 <? _); [intros [= <- <- _ _]; auto|].
  destruct (0 <? _); [|intros [= <- <- _ _]; auto]. destruct (parse_sub_key_list _ _ _) as [offs| | |]; try discriminate.
  - destruct (read_children _ _ _ _ _ _ _ _ _) as [[[[cs1 ?] ?] ?]| | |] eqn:E; try discriminate. intros [= <- <- _ _].
    split; [exact G|]. now apply (children_holding _ _ _ _ _ _ _ _ _ _ _ _ M E).
  - intros [= <- <- _ _]; auto.
Qed.
Definition holding_cx (c : context) : Prop := quiet (cx_state c) /\ Forall holding (cx_stack c) /\ Forall holding (cx_return c).
Lemma push_check_holding k c : holding k -> holding_cx c -> holding_cx (push_check k c).
Proof. intros G (A & B & C). unfold push_check. destruct (existsb _ _); [exact (conj A (conj B C))|]. split; [exact A|]. split; [now constructor|exact C]. Qed.
Lemma fold_holding l : Forall holding l -> forall c, holding_cx c -> holding_cx (fold_left (fun cx c => push_check c cx) l c).
Proof. intros F. induction F as [|k l K F IH]; intros c C; [exact C|]. cbn [fold_left]. apply IH. now apply push_check_holding. Qed.
Lemma visit_holding cx k k' cx' : holding_cx cx -> holding k -> visit fi cx k = Ok (k', cx') -> holding k' /\ holding_cx cx'.
Proof.
  intros C G. unfold visit.
  match goal with |- match ?x with _ => _ end = _ -> _ => destruct x as [[k1 cx1]| | |] eqn:E; try discriminate end.
  assert (X : holding k1 /\ holding_cx cx1).
  { destruct (0 <? _) in E; [|injection E as <- <-; auto].
    destruct (read_sub_keys_internal _ _ _ _ _ _) as [[[[k2 cs] fd] st]| | |] eqn:R in E; try discriminate.
    pose proof (quiet_root_only' _ _ (read_sub_keys_state _ _ _ _ _ _ _ _ _ _ R) (proj1 C)) as M.
    apply sub_keys_holding in R as (R1 & R2); [|apply C|exact G]. injection E as <- <-. split; [exact R1|].
    apply fold_holding; [now apply Forall_rev|]. destruct C as (_ & C2 & C3). now split. }
  cbv beta iota. destruct X as (X1 & X4). pose proof X1 as (Y1 & Y2). rewrite Y1. cbn [map]. intros [= <- <-].
  split; [split; [reflexivity|exact Y2]|exact X4].
Qed.
Lemma next_pre_holding : forall fuel cx o cx', holding_cx cx -> next_key_preorder fuel fi cx = Ok (o, cx') ->
  holding_cx cx' /\ (forall k, o = Some k -> holding k).
Proof.
  induction fuel as [|fuel IH]; intros cx o cx' C; [discriminate|]. cbn [next_key_preorder].
  destruct (cx_stack cx) as [|node rest] eqn:S; [intros [= <- <-]; split; [exact C|discriminate]|].
  pose proof C as (C1 & C2 & C3). rewrite S in C2. inversion C2; subst.
  destruct (visit fi (cx_set_stack rest cx) node) as [[k1 cx1]| | |] eqn:V; try discriminate.
  apply visit_holding in V as (V1 & V2); [|split; [exact C1|split; [assumption|exact C3]]|assumption]. cbv beta iota.
  destruct (_ || _); [intros [= <- <-]; split; [exact V2|now intros k [= <-]]|]. now apply IH.
Qed.
Lemma next_post_holding : forall fuel cx o cx', holding_cx cx -> next_key_postorder fuel fi cx = Ok (o, cx') ->
  holding_cx cx' /\ (forall k, o = Some k -> holding k).
Proof.
  induction fuel as [|fuel IH]; intros cx o cx' C; [discriminate|]. cbn [next_key_postorder].
  pose proof C as (C1 & C2 & C3).
  destruct (cx_stack cx) as [|node rest] eqn:S.
  - destruct (cx_return cx) as [|top r] eqn:R; [intros [= <- <-]; split; [exact C|discriminate]|]. inversion C3; subst.
    assert (C' : holding_cx (cx_set_return r cx)) by (split; [exact C1|split; [cbn [cx_set_return cx_stack]; rewrite S; constructor|assumption]]).
    cbv zeta. destruct (_ || _); intros [= <- <-]; (split; [exact C'|]); [now intros k [= <-]|discriminate].
  - inversion C2; subst. cbv zeta.
    assert (STEP : (let* (node, cx) := visit fi (cx_set_stack rest cx) node in
            let ret := match cx_return cx with [] => [] | last :: r => kn_set_track (kn_track last + 1) last :: r end in
            next_key_postorder fuel fi (cx_set_return (node :: ret) cx)) = Ok (o, cx') -> holding_cx cx' /\ (forall k, o = Some k -> holding k)).
    { destruct (visit fi (cx_set_stack rest cx) node) as [[k1 cx1]| | |] eqn:V; try discriminate.
      apply visit_holding in V as (V1 & V2); [|split; [exact C1|split; [assumption|exact C3]]|assumption]. cbv beta iota zeta.
      apply IH. destruct V2 as (W1 & W2 & W3). split; [exact W1|]. split; [exact W2|]. cbn [cx_set_return cx_return].
      constructor; [exact V1|]. destruct (cx_return cx1); [constructor|]. inversion W3; subst. constructor; assumption. }
    destruct (cx_return cx) as [|last r] eqn:R; [exact STEP|]. destruct (_ =? _); [|exact STEP].
    inversion C3; subst. intros [= <- <-]. split; [|now intros k [= <-]].
    split; [exact C1|]. split; [cbn [cx_set_return cx_stack]; now rewrite S|assumption].
Qed.
Lemma collect_holding post : forall fuel cx ks, holding_cx cx -> collect post fuel fi cx = Ok ks -> Forall holding ks.
Proof.
  induction fuel as [|fuel IH]; intros cx ks C; [discriminate|]. cbn [collect].
  destruct ((if post then next_key_postorder else next_key_preorder) (S fuel) fi cx) as [[o cx1]| | |] eqn:E; try discriminate.
  assert (X : holding_cx cx1 /\ (forall k, o = Some k -> holding k)).
  { destruct post; [now apply (next_post_holding (S fuel) cx)|now apply (next_pre_holding (S fuel) cx)]. }
  destruct X as (C1 & G). cbv beta iota. destruct o as [k|]; [|intros [= <-]; constructor].
  destruct (collect post fuel fi cx1) as [r| | |] eqn:R; try discriminate. intros [= <-]. constructor; [now apply G|now apply (IH cx1)].
Qed.
End Shown.
Lemma iterate_holding (Q : key_value -> Prop) order fuel hash full buffer files p n f anc m post ks : known_file_type buffer ->
  build order fuel hash false full buffer files = Ok p -> ps_root p <> None ->
  (forall st b off seq nm w, get_from (ps_buffer p) off = Some b -> vk_ok b -> Q (read_value_bytes (ps_file p) st (kv_at (st_full st) b off seq nm w))) ->
  iterate n p f anc m post = Ok ks -> Forall (fun k => Forall Q (kn_values k)) ks.
Proof.
  intros K BU R0 QV. pose proof BU as BU'. apply (build_plain order fuel hash full) in BU as (P & _ & st & ES & R); [|exact K].
  assert (H : forall s, set_info [] s = set_info [] (ps_state p) -> quiet s).
  { intros s E. apply (quiet_info (ps_state p)); [now symmetry|]. exact (plain_quiet _ _ _ P). }
  unfold iterate. intros C. apply (collect_holding Q (ps_file p) QV) in C.
  - apply Forall_forall. intros k I. rewrite Forall_forall in C. exact (proj2 (C k I)).
  - unfold from_parser. split; [now apply H|]. split; [|constructor]. cbn [cx_stack].
    constructor; [|constructor]. destruct (ps_root p) as [r|]; [|congruence]. exact (read_holding Q (ps_file p) QV _ _ _ _ (H _ ES) R).
Qed.

(** ** The bytes *)
Lemma stored_at b p n : p <= len b -> stored b p (bytes_at b p n).
Proof.
  intros L. exists (firstn (N.to_nat p) b), (skipn (N.to_nat n) (skipn (N.to_nat p) b)). split.
  - unfold bytes_at. now rewrite firstn_skipn, firstn_skipn.
  - unfold len in *. rewrite firstn_length. lia.
Qed.
Lemma stored_first b p n s : stored b p s -> stored b p (firstn n s).
Proof. intros (pre & post & -> & L). exists pre, (skipn n s ++ post). split; [|exact L]. now rewrite (app_assoc (firstn n s)), firstn_skipn. Qed.
Lemma value_first t s : exists rest, s = get_value_bytes t s ++ rest.
Proof. unfold get_value_bytes. destruct (get_data_type_len t); [eexists; symmetry; apply firstn_skipn|exists []; now rewrite app_nil_r]. Qed.
Lemma value_stored b p t s : stored b p s -> stored b p (get_value_bytes t s).
Proof. intros S. unfold get_value_bytes. destruct (get_data_type_len t); [now apply stored_first|exact S]. Qed.
Lemma loop_pieces fi : forall offs remaining acc bytes, big_data_loop fi offs remaining acc = Some bytes ->
  exists pieces, bytes = acc ++ concat pieces /\ (List.length pieces <= List.length offs)%nat
  /\ Forall2 (fun o s => stored (fi_buffer fi) (fi_hbin fi + o + 4) s) (firstn (List.length pieces) offs) pieces.
Proof.
  induction offs as [|o offs IH]; intros remaining acc bytes; cbn [big_data_loop].
  - intros [= <-]. exists []. cbn. rewrite app_nil_r. repeat split; [lia|constructor].
  - destruct (N.ltb_spec 0 remaining) as [P|P].
    + unfold parse_big_data_size. destruct (get_from _ _) as [s|] eqn:G; [|discriminate].
      apply get_from_some in G as (G1 & G2 & G3 & _). destruct (le_i32_cases s) as [(L & E)|(_ & E)]; rewrite E; [|discriminate].
      cbv beta iota zeta. destruct (get_range _ _ _) as [x|] eqn:X; [|discriminate]. apply get_range_some in X as (_ & X2 & _ & X4).
      intros H. apply IH in H as (ps & -> & L2 & F). exists (x :: ps). cbn [concat List.length firstn]. rewrite <- app_assoc. split; [reflexivity|]. split; [lia|].
      constructor; [|exact F]. subst x. cbn [N.to_nat skipn]. apply stored_first.
      replace (rest_at s 4) with (rest_at (fi_buffer fi) (fi_hbin fi + o + 4)).
      * replace (rest_at (fi_buffer fi) (fi_hbin fi + o + 4)) with (bytes_at (fi_buffer fi) (fi_hbin fi + o + 4) (len (fi_buffer fi))).
        -- apply stored_at. lia.
        -- unfold bytes_at, rest_at. apply firstn_all2. rewrite skipn_length. unfold len. lia.
      * subst s. fold (rest_at (fi_buffer fi) (fi_hbin fi + o)). rewrite rest_rest. reflexivity.
    + intros H. assert (Z : forall l, big_data_loop fi l remaining acc = Some acc).
      { induction l as [|y l IHl]; [reflexivity|]. cbn [big_data_loop]. destruct (N.ltb_spec 0 remaining); [lia|exact IHl]. }
      rewrite Z in H. injection H as <-. exists []. cbn. rewrite app_nil_r. repeat split; [lia|constructor].
Qed.
Lemma stored_within b p s q t : stored b p s -> stored s q t -> stored b (p + q) t.
Proof. intros (x & y & -> & L) (u & v & -> & M). exists (x ++ u), (v ++ y). split; [now rewrite <- !app_assoc|]. rewrite len_app. lia. Qed.
Lemma stored_ok b p s : bytes_ok b -> stored b p s -> bytes_ok s.
Proof. intros B (x & y & -> & _). unfold bytes_ok in *. rewrite !Forall_app in B. apply B. Qed.
Lemma value_lies fi st full b off seq nm w : bytes_ok (fi_buffer fi) -> stored (fi_buffer fi) off b -> vk_ok b ->
  lies_in (fi_buffer fi) (fi_hbin fi) (read_value_bytes fi st (kv_at full b off seq nm w)).
Proof.
  intros B G VK. unfold read_value_bytes. destruct (read_value_bytes_direct _ _ _ _ _) as [[bytes offs] logs] eqn:E.
  exists bytes. split; [reflexivity|]. cbn [kv_data_offsets kv_at kv_detail app]. revert E.
  cbn [kv_at kv_offset kv_detail kv_type vk_detail_at vd_data_size_raw vd_data_offset]. unfold read_value_bytes_direct.
  match goal with |- context [N.land ?x _ =? 0] => destruct (N.land x _ =? 0) eqn:RES end.
  - match goal with |- context [get_from (fi_buffer fi) ?x] => destruct (get_from (fi_buffer fi) x) as [slice|] eqn:GS; [|intros [= <- <- <-]; now left] end.
    match goal with |- context [if ?x && ?y then _ else _] => destruct (x && y) eqn:BIG end.
    + match goal with |- context [get_big_data_bytes ?a ?b ?c ?d] => destruct (get_big_data_bytes a b c d) as [[vb os]|] eqn:GB; [|intros [= <- <- <-]; now left] end.
      intros [= <- <- <-]. right; right.
      apply andb_true_iff in BIG as (BIG & _). apply N.ltb_lt in BIG. split; [exact BIG|].
      unfold get_big_data_bytes in GB. rewrite GS in GB. destruct (big_data_from_bytes slice) as [[cnt lo]|]; [|discriminate].
      destruct (parse_big_data_offsets fi cnt lo) as [os'|]; [|discriminate]. destruct (big_data_loop fi os' _ []) as [bs|] eqn:BL; [|discriminate].
      injection GB as <- <-. apply loop_pieces in BL as (ps & -> & L & F). cbn [app].
      match goal with |- context [get_value_bytes ?t ?x] => destruct (value_first t x) as (rest & R) end.
      exists ps, rest. split; [exact R|]. now split.
    + cbv zeta. apply get_from_some in GS as (GS & _). match goal with |- context [get_range ?a ?x ?y] => destruct (get_range a x y) as [s|] eqn:GR end; [|intros [= <- <- <-]; now left].
      intros [= <- <- <-]. right; left. eexists. split; [reflexivity|]. apply value_stored.
      apply get_range_some in GR as (G1 & G2 & _ & ->). apply stored_at. lia.
  - cbv zeta. match goal with |- context [get_range ?a ?x ?y] => destruct (get_range a x y) as [s|] eqn:GR end; [|intros [= <- <- <-]; now left].
    intros [= <- <- <-]. right; left. eexists. split; [reflexivity|]. apply value_stored.
    apply get_range_some in GR as (_ & _ & _ & ->). cbn [N.to_nat skipn]. apply stored_first.
    destruct VK as (_ & _ & _ & L). pose proof (stored_ok _ _ _ B G) as OK. rewrite enc_num4 by (assumption || lia).
    apply (stored_within _ off b); [exact G|]. apply stored_at. lia.
Qed.
Lemma stored_from b off s : get_from b off = Some s -> stored b off s.
Proof. intros G. apply get_from_some in G as (L & E & _ & F). exists (firstn (N.to_nat off) b), []. rewrite app_nil_r. split; [exact F|]. unfold len in *. rewrite firstn_length. lia. Qed.
Lemma shown_lies order fuel hash full buffer files p n f anc m post ks k v : known_file_type buffer ->
  build order fuel hash false full buffer files = Ok p -> bytes_ok (ps_buffer p) -> ps_root p <> None ->
  iterate n p f anc m post = Ok ks -> In k ks -> In v (kn_values k) -> lies_in (ps_buffer p) (fi_hbin (ps_file p)) v.
Proof.
  intros K BU B R I IK IV. pose proof (iterate_holding (lies_in (ps_buffer p) (fi_hbin (ps_file p))) order fuel hash full buffer files p n f anc m post ks K BU R) as H.
  specialize (H (fun st b off seq nm w G V => value_lies (ps_file p) st (st_full st) b off seq nm w B (stored_from _ _ _ G) V) I). rewrite Forall_forall in H. specialize (H k IK). rewrite Forall_forall in H. exact (H v IV).
Qed.
Lemma stored_there b p s : stored b p s -> bytes_at b p (len s) = s.
Proof.
  intros (pre & post & -> & L). unfold bytes_at. subst p. rewrite !to_nat_len, skipn_app, skipn_all, Nat.sub_diag. cbn [skipn app].
  now rewrite firstn_app, firstn_all, Nat.sub_diag, app_nil_r.
Qed.
Lemma reported_lies fi st l v : bytes_ok (fi_buffer fi) -> value_reported fi st l v -> lies_in (fi_buffer fi) (fi_hbin fi) v.
Proof.
  intros B R.
  assert (X : exists hi cs, value_found fi st hi cs v).
  { destruct R as [(_ & F)|(hi & _ & F)]; [exists (len (fi_buffer fi)), DeletedPrimaryFile|exists hi, DeletedPrimaryFileSlack]; exact F. }
  destruct X as (hi & cs & L1 & L2 & VK & v0 & r & E & older & EV).
  destruct (kv_cases (bytes_at (fi_buffer fi) (kv_offset v) (hi - kv_offset v)) (kv_offset v) None false) as [(_ & nm & w & _ & E')|(NV & _)]; [|now destruct (NV VK)].
  rewrite E' in E. injection E as <- _.
  assert (S : stored (fi_buffer fi) (kv_offset v) (bytes_at (fi_buffer fi) (kv_offset v) (hi - kv_offset v))) by (apply stored_at; lia).
  pose proof (value_lies fi st false _ (kv_offset v) None nm w B S VK) as (bytes & A & C). exists bytes.
  rewrite EV. cbn [kv_set_versions kv_set_state kv_detail kv_data_offsets]. split; [exact A|exact C].
Qed.
