(** Iteration over arbitrary file contents with what was recovered and what the
    logs changed. *)
From Coq Require Import Permutation.
From Verif Require Import Base BaseFacts Util UtilSpec UtilText UtilLz LayoutSpec LayoutFacts HeaderFacts BaseBlock Types Value Node Recover
  Parser TxLog TxSpec NodeFrame TxApply TxBuild CellSpec CellFacts CellData CellList CellRead TreeRead AnyFile ScanSpec ScanFacts Recovered LiveSpec LiveView LiveOpen
  Pure TreeOpen AnalysisSpec AnalysisStore AnalysisReach VersionFacts AnalysisTrace StoreSpec VersionSpec FreeSpec TreeSession LivePlain Ends.

(** ** Maps whose entries fit the path they are stored under *)
Definition keyed {A} (P : list N -> A -> Prop) (m : amap (list N) (list A)) : Prop := Forall (fun e => Forall (P (fst e)) (snd e)) m.
Section Keyed.
Context {A : Type} (P : list N -> A -> Prop).
Lemma keyed_aget path m l : keyed P m -> aget beq path m = Some l -> Forall (P path) l.
Proof.
  induction m as [|[q l'] m IH]; cbn [aget]; [discriminate|]. intros F. inversion F as [|? ? F1 F2]; subst. cbn [fst snd] in F1.
  destruct (beq path q) eqn:B; [|now apply IH]. apply beq_eq in B as <-. now intros [= <-].
Qed.
Lemma keyed_aset path m l : keyed P m -> Forall (P path) l -> keyed P (aset beq path l m).
Proof.
  intros F L. induction m as [|[q l'] m IH]; cbn [aset]; [constructor; [exact L|constructor]|]. inversion F as [|? ? F1 F2]; subst.
  destruct (beq path q) eqn:B; [|constructor; [exact F1|now apply IH]]. apply beq_eq in B as <-. constructor; [exact L|exact F2].
Qed.
Lemma keyed_adel path m : keyed P m -> keyed P (adel beq path m).
Proof.
  intros F. induction m as [|[q l'] m IH]; cbn [adel]; [constructor|]. inversion F as [|? ? F1 F2]; subst.
  destruct (beq path q); [exact F2|]. constructor; [exact F1|now apply IH].
Qed.
Lemma keyed_push path x m : keyed P m -> P path x -> keyed P (map_push beq path x m).
Proof.
  intros F X. unfold map_push. destruct (aget beq path m) as [l|] eqn:E; apply keyed_aset; auto.
  apply Forall_app. split; [exact (keyed_aget _ _ _ F E)|auto].
Qed.
Lemma keyed_pushes l : forall m, Forall (fun e => P (fst e) (snd e)) l -> keyed P m -> keyed P (pushes beq l m).
Proof. unfold pushes. induction l as [|e l IH]; intros m L M; [exact M|]. inversion L; subst. cbn [fold_left]. apply IH; [assumption|now apply keyed_push]. Qed.
Lemma keyed_push_all l : forall m, Forall (P []) l -> keyed P m -> keyed P (push_all l m).
Proof. unfold push_all. induction l as [|e l IH]; intros m L M; [exact M|]. inversion L; subst. cbn [fold_left]. apply IH; [assumption|now apply keyed_push]. Qed.
End Keyed.
Lemma keyed_remove (P : list N -> key_node -> Prop) l : forall m, keyed P m -> keyed P (remove_keys l m).
Proof.
  unfold remove_keys. induction l as [|e l IH]; intros m M; [exact M|]. cbn [fold_left]. apply IH.
  unfold deleted_keys_remove. destruct (aget _ _ _) as [ks|] eqn:A; [|exact M]. pose proof (keyed_aget _ _ _ _ M A) as F.
  destruct (remove_first _ _) as [[|x r]|] eqn:RF; [| |exact M].
  - apply keyed_adel, keyed_aset; [exact M|constructor].
  - apply keyed_aset; [exact M|]. exact (remove_first_forall _ _ _ _ F RF).
Qed.

(** ** The deleted keys of a build *)
Definition ordered (path : list N) (d : key_node) : Prop :=
  kn_deleted d = [] /\ (is_deleted_primary_file (kn_state d) = true \/ len path < len (kn_path d)).
Lemma reached_ordered order fuel full hash st : reached order fuel full hash st -> keyed ordered (st_deleted_keys st).
Proof.
  induction 1 as [|i st R IH|fi st n st' R IH E|fi seq p prior latest p' logs R IH E].
  - constructor.
  - exact IH.
  - revert E. unfold find_free_keys_and_values. assert (A : agree false st st) by apply agree_refl.
    destruct (recover_loop_ok fi st (S (length (fi_buffer fi))) st (fi_hbin fi) n A) as [E|(s & l & ks & vs & E & (w & G) & _ & FK & _)].
    { unfold len. lia. } { rewrite E. discriminate. }
    rewrite E. intros [= <-]. subst s. cbn [st_deleted_keys]. apply keyed_push_all; [|exact IH]. eapply Forall_impl; [|exact FK].
    intros k [(_ & K)|(h & c & _ & _ & _ & _ & K)]; destruct K as (_ & _ & _ & k0 & s & _ & _ & S & D); (split; [exact D|]; left; now rewrite S).
  - pose proof (reached_bare _ _ _ _ _ R) as B.
    destruct (comparison _ _ _ _ _ _ _ _ _ E) as (p2 & ks2 & prior' & ch & _ & _ & _ & _ & _ & _ & _ & _ & M3 & _). cbv zeta in M3.
    rewrite M3. apply keyed_remove, keyed_pushes; [|exact IH]. apply Forall_forall. intros x X.
    apply in_flat_map in X as (y & _ & X). unfold gone_keys in X. destruct (snd (fst y)); [contradiction|].
    unfold at_path in X. apply in_map_iff in X as (k & <- & X). cbn [fst snd]. unfold old_key in X.
    destruct (kn_read _ _ _) as [[[k0|] st0]| | |] eqn:K; try contradiction. destruct X as [<-|[]].
    pose proof K as K1. apply read_past in K1; [|exact B]. cbn [op_modified] in K1. destruct K1 as (_ & K2 & _). split; [exact K2|]. right.
    apply read_path in K as (b & nm & w & _ & _ & _ & PE); [|reflexivity..]. cbn [op_path] in PE.
    cbn [kn_set_state kn_set_values kn_set_updated kn_path]. rewrite PE, len_app, len_app. change (len [92]) with 1. lia.
Qed.
Lemma aget_pair {A} path (m : amap (list N) A) l : aget beq path m = Some l -> In (path, l) m.
Proof.
  induction m as [|[q l'] m IH]; cbn [aget]; [discriminate|]. destruct (beq path q) eqn:B; [|intros E; right; auto].
  apply beq_eq in B as <-. intros [= ->]. now left.
Qed.
Lemma reached_orderly order fuel full hash st : reached order fuel full hash st -> no_deleted_root st -> orderly st.
Proof.
  intros R N path dks d A I. pose proof (keyed_aget _ _ _ _ (reached_ordered _ _ _ _ _ R) A) as F. rewrite Forall_forall in F.
  destruct (F d I) as (D & O). split; [exact D|]. destruct (N path dks d (aget_pair _ _ _ A) I) as [P|P]; [left; now apply primary_free|].
  destruct O as [O|O]; [now left|]. right. split; [exact O|]. unfold is_key_root. now rewrite root_flag.
Qed.

(** ** Reading *)
Definition unnoted (o : read_options) : read_options := mkOpt (op_offset o) (op_path o) (op_filter o) (op_self_match o) (op_seq o) false.
Lemma read_noted fi st o : op_modified o = true -> kn_read fi st o =
  match kn_read fi st (unnoted o) with
  | Ok (Some k, st') => match update_modified_lists (uml_fuel st') st' k with Ok k' => Ok (Some k', st') | Err => Err | Panic => Panic | OutOfFuel => OutOfFuel end
  | r => r
  end.
Proof.
  intros M. unfold kn_read, unnoted. cbn [op_offset]. destruct (get_from _ _) as [s|]; [|reflexivity]. cbn [ok_or]. unfold read_from_slice.
  cbn [op_offset op_path op_filter op_self_match op_seq op_modified]. rewrite M.
  destruct (kn_from_bytes _ _ _ _ _) as [[n r]| | |]; [|reflexivity..]. cbv beta iota.
  destruct (match op_filter o with Some f => check_cell f st n | None => _ end) as [[fl st']| | |]; [|reflexivity..]. cbv beta iota.
  destruct fl; [reflexivity| |]; (destruct (if _ && _ then _ else _) as [n1| | |]; [|reflexivity..]; cbv beta iota zeta;
    destruct (update_modified_lists _ _ _); reflexivity).
Qed.
Definition fresh_live (fi : file_info) (w : nat) (o : read_options) (k : key_node) : Prop :=
  kn_offset k = op_offset o /\ op_offset o <= len (fi_buffer fi) /\ kn_path k = op_path o ++ [92] ++ kn_name k
  /\ is_text (kn_name k) /\ kn_state k = Allocated /\ fit k /\ (weight k <= w)%nat /\ cell_of fi k.
Definition calm (st : state) : Prop := orderly st /\ dead_maps st.
Definition room (st : state) : nat := heaviest (stored st) (uml_fuel st).
Lemma room_pos st : (1 <= room st)%nat. Proof. apply heaviest_pos. Qed.
Lemma calm_root st st' : root_only st st' -> calm st -> calm st'.
Proof. intros R (O & D). split; [|now apply (root_only_dead st)]. unfold root_only in R. rewrite R. exact O. Qed.
Lemma room_root st st' : root_only st st' -> room st' = room st.
Proof. intros R. unfold root_only in R. now rewrite R. Qed.
Lemma root_fields k k' : fields k = fields k' -> kn_offset k = kn_offset k' /\ kn_detail k = kn_detail k' /\ kn_name k = kn_name k' /\ kn_path k = kn_path k' /\ kn_state k = kn_state k'.
Proof. unfold fields. intros E. injection E. intros. repeat split; assumption. Qed.
Lemma read_all fi st o rp : bytes_ok (fi_buffer fi) -> hd_error rp = Some 92 -> is_text (op_path o) -> op_filter o = None \/ under rp (op_path o) ->
  cachedr rp st -> calm st ->
  kn_read fi st o = Err \/ exists c st', kn_read fi st o = Ok (c, st') /\ cachedr rp st' /\ root_only st st'
    /\ forall k, c = Some k -> fresh_live fi (room st) o k.
Proof.
  intros B H T U C Q.
  destruct (read_any fi st (unnoted o) rp B H T U C (or_introl eq_refl)) as [E|(c & st' & E & C' & RO & F)].
  { destruct (op_modified o) eqn:M; [rewrite (read_noted _ _ _ M), E; now left|].
    left. rewrite <- E. unfold unnoted. destruct o. cbn in *. now rewrite M. }
  assert (FL : forall k, fresh_key fi (unnoted o) k -> fresh_live fi (room st) o k).
  { intros k (F1 & F2 & F3 & F4 & F5 & F6 & F7). repeat (split; [assumption|]). split; [unfold fit; rewrite F6; constructor|]. split; [|exact F7].
    rewrite weight_eq, F6. pose proof (room_pos st). cbn. lia. }
  right. destruct (op_modified o) eqn:M.
  - rewrite (read_noted _ _ _ M), E. destruct c as [k|]; [|exists None, st'; split; [reflexivity|]; split; [exact C'|]; split; [exact RO|]; discriminate].
    pose proof (calm_root _ _ RO Q) as (O' & D'). destruct (uml_enough st' k O') as (k' & UK). rewrite UK.
    exists (Some k'), st'. split; [reflexivity|]. split; [exact C'|]. split; [exact RO|]. intros k2 [= <-].
    specialize (F k eq_refl). pose proof (uml_live st' D' (uml_fuel st') k) as L. rewrite UK in L. destruct L as (L & FT & _).
    apply live_iff in L as (L & _). apply root_fields in L as (L1 & L2 & L3 & L4 & L5).
    destruct F as (F1 & F2 & F3 & F4 & F5 & F6 & F7). unfold fresh_live, cell_of. rewrite L1, L2, L3, L4, L5.
    repeat (split; [assumption|]). split; [apply FT; unfold fit; rewrite F6; constructor|]. split; [|exact F7].
    rewrite <- (room_root _ _ RO). unfold room. eapply uml_weight; [|exact F6|exact UK].
    intros path dks d A I. now destruct (O' path dks d A I).
  - exists c, st'. split; [rewrite <- E; unfold unnoted; destruct o; cbn in *; now rewrite M|]. split; [exact C'|]. split; [exact RO|].
    intros k K. apply FL. now apply F.
Qed.
Definition fresh_child (fi : file_info) (w : nat) (path : list N) (offs : list N) (k : key_node) : Prop :=
  In (kn_offset k) offs /\ kn_offset k <= len (fi_buffer fi) /\ kn_path k = path ++ [92] ++ kn_name k
  /\ is_text (kn_name k) /\ kn_state k = Allocated /\ fit k /\ (weight k <= w)%nat /\ cell_of fi k.
Lemma fresh_live_child fi w o p sm seq f m k offs : fresh_live fi w (mkOpt o p f sm seq m) k -> In o offs -> fresh_child fi w p offs k.
Proof. intros (E & F & R) I. cbn in *. split; [now rewrite E|]. split; [now rewrite E|exact R]. Qed.
Lemma fresh_child_filter fi w p offs k x : fresh_child fi w p offs k -> fresh_child fi w p offs (kn_set_filter x k).
Proof.
  intros (F1 & F2 & F3 & F4 & F5 & F6 & F7 & F8). repeat (split; [assumption|]). split; [|exact F8]. now rewrite (weight_same k).
Qed.
Lemma fresh_child_state fi w p offs k sm f : fresh_child fi w p offs k -> fresh_child fi w p offs (child_filter_state sm f k).
Proof.
  intros F. unfold child_filter_state. destruct (kn_filter k); [exact F|]. destruct sm; [now apply fresh_child_filter|].
  destruct (f_is_valid f); [now apply fresh_child_filter|exact F].
Qed.
Lemma children_all fi path sm f sf seq m rp offs w : bytes_ok (fi_buffer fi) -> hd_error rp = Some 92 -> is_text path -> under rp path ->
  forall st, cachedr rp st -> calm st -> room st = w ->
  exists cs found logs st', read_children fi st path sm f sf seq m offs = Ok (cs, found, logs, st')
  /\ cachedr rp st' /\ root_only st st' /\ Forall (fresh_child fi w path offs) cs.
Proof.
  intros B H T U. induction offs as [|o r IH]; intros st C Q E0; cbn [read_children].
  { exists [], false, [], st. repeat (split; [auto|]). constructor. }
  assert (W : forall cs, Forall (fresh_child fi w path r) cs -> Forall (fresh_child fi w path (o :: r)) cs).
  { intros cs. apply Forall_impl. intros k (I & R). split; [now right|exact R]. }
  destruct (read_all fi st (mkOpt o path sf sm seq m) rp B H T (or_intror U) C Q) as [E|(c & st1 & E & C1 & R1 & F1)]; rewrite E.
  - destruct (IH st C Q E0) as (cs & found & logs & st' & -> & X1 & X2 & X3).
    do 4 eexists. split; [reflexivity|]. split; [exact X1|]. split; [exact X2|]. now apply W.
  - destruct (IH st1 C1 (calm_root _ _ R1 Q)) as (cs & found & logs & st' & E2 & X1 & X2 & X3); [now rewrite (room_root _ _ R1)|].
    assert (X2' : root_only st st') by (eapply root_only_trans; eassumption).
    destruct c as [c|]; rewrite E2; do 4 eexists; (split; [reflexivity|]; split; [exact X1|]; split; [exact X2'|]).
    + constructor; [|now apply W]. apply fresh_child_state. rewrite <- E0. eapply fresh_live_child; [now apply F1|]. now left.
    + now apply W.
Qed.

(** ** Traversal *)
Definition alive (ks : list key_node) : list key_node := List.filter (fun k => is_allocated (kn_state k)) ks.
Lemma alive_app a b : alive (a ++ b) = alive a ++ alive b.
Proof. apply filter_app. Qed.
Lemma alive_dead l : Forall dead l -> alive l = [].
Proof. intros F. apply filter_none. eapply Forall_impl; [|exact F]. now intros k [D _]. Qed.
Lemma alive_all l : Forall (fun k => kn_state k = Allocated) l -> alive l = l.
Proof. unfold alive. induction 1 as [|k l E F IH]; cbn [List.filter]; [reflexivity|]. now rewrite E, IH. Qed.
Definition spots (ks : list key_node) : list N := map kn_offset (alive ks).
Lemma spots_app a b : spots (a ++ b) = spots a ++ spots b.
Proof. unfold spots. now rewrite alive_app, map_app. Qed.
Lemma weights_filter x l : weights (map (kn_set_filter x) l) = weights l.
Proof. unfold weights. rewrite map_map. f_equal. apply map_ext. intros k. now apply weight_same. Qed.
Lemma weights_rev l : weights (rev l) = weights l.
Proof. induction l as [|k l IH]; [reflexivity|]. cbn [rev]. rewrite weights_app, IH, !weights_cons. cbn. lia. Qed.
Lemma weights_bound w l : Forall (fun k => (weight k <= w)%nat) l -> (weights l <= length l * w)%nat.
Proof. induction 1 as [|k l F _ IH]; [cbn; lia|]. rewrite weights_cons. cbn [length]. lia. Qed.
Section All.
Context (fi : file_info) (root : N) (rp : list N) (w : nat).
Hypothesis (BO : bytes_ok (fi_buffer fi)) (HD : hd_error rp = Some 92) (NC : no_list_cycle fi).
Definition live_ok (k : key_node) : Prop :=
  is_text (kn_path k) /\ under rp (kn_path k)
  /\ cell_of fi k /\ exists names, lineage fi root names (kn_offset k) /\ kn_path k = path_of names.
Definition key_ok (k : key_node) : Prop := fit k /\ (is_allocated (kn_state k) = true -> live_ok k).
Definition waiting (cx : context) : list N := spots (cx_stack cx ++ cx_return cx).
Definition topmost : N := N.max (len (fi_buffer fi)) root.
Record cx_ok (cx : context) : Prop := {
  o_calm : calm (cx_state cx);
  o_room : room (cx_state cx) = w;
  o_cache : cachedr rp (cx_state cx);
  o_keys : Forall key_ok (cx_stack cx ++ cx_return cx);
  o_nodup : NoDup (waiting cx);
  o_incl : incl (waiting cx) (cx_offsets cx);
  o_fresh : NoDup (cx_offsets cx);
  o_bound : Forall (fun o => o <= topmost) (cx_offsets cx) }.
Definition left_to (cx : context) : nat := (S (N.to_nat topmost) - length (cx_offsets cx)) * w + weights (cx_stack cx).
Lemma dead_ok k : dead k -> key_ok k.
Proof. intros [D F]. split; [exact F|]. rewrite D. discriminate. Qed.
Lemma key_ok_same k k' : key_ok k -> kn_path k' = kn_path k -> kn_deleted k' = kn_deleted k -> kn_offset k' = kn_offset k ->
  kn_name k' = kn_name k -> kn_detail k' = kn_detail k -> kn_state k' = kn_state k -> key_ok k'.
Proof.
  intros (F & L) E1 E2 E3 E4 E5 E6. unfold key_ok, fit, live_ok, cell_of. rewrite E1, E2, E3, E4, E5, E6. split; [exact F|exact L].
Qed.
Definition new_ok (c : key_node) : Prop := kn_state c = Allocated /\ key_ok c /\ kn_offset c <= topmost /\ (weight c <= w)%nat.
Lemma child_ok k c offs : kn_state k = Allocated -> key_ok k -> parse_sub_key_list (list_fuel fi) fi (kd_sublist (kn_detail k)) = Ok offs ->
  fresh_child fi w (kn_path k) offs c -> new_ok c.
Proof.
  intros AK (_ & L) E (I & LB & PC & TN & A & DC & WC & CC). rewrite AK in L. destruct (L eq_refl) as (T & U & CK & names & LN & P).
  split; [exact A|]. split; [|split; [unfold topmost; lia|exact WC]]. split; [exact DC|]. intros _.
  split; [rewrite PC; apply text_app; [exact T|apply text_app; [apply text_slash|exact TN]]|]. split.
  + destruct U as (r & EU & R). rewrite PC, EU. exists (r ++ [92] ++ kn_name c). split; [now rewrite <- app_assoc|].
    right. destruct R as [-> |R]; [reflexivity|]. destruct r; [discriminate|exact R].
  + split; [exact CC|]. exists (names ++ [kn_name c]). split.
    * eapply from_parent; [exact LN| |apply CC]. exists offs. split; [|exact I]. rewrite <- (proj1 CK). exact E.
    * now rewrite path_of_snoc, <- P.
Qed.
(** What a visit adds. *)
Record added (cx cx' : context) (dks new : list key_node) : Prop := {
  a_stack : cx_stack cx' = dks ++ new ++ cx_stack cx;
  a_return : cx_return cx' = cx_return cx;
  a_offsets : cx_offsets cx' = map kn_offset new ++ cx_offsets cx;
  a_new : NoDup (map kn_offset new) /\ forall x, In x (map kn_offset new) -> ~ In x (cx_offsets cx);
  a_good : Forall new_ok new;
  a_dead : Forall dead dks }.
Lemma added_refl cx cx' : cx_stack cx' = cx_stack cx -> cx_return cx' = cx_return cx -> cx_offsets cx' = cx_offsets cx -> added cx cx' [] [].
Proof. intros. split; try assumption; [split; [constructor|intros ? []]|constructor|constructor]. Qed.
Lemma push_added cs : Forall new_ok cs -> forall cx cx0 new, added cx0 cx [] new ->
  exists new', added cx0 (fold_left (fun cx c => push_check c cx) cs cx) [] new'
    /\ cx_state (fold_left (fun cx c => push_check c cx) cs cx) = cx_state cx.
Proof.
  induction 1 as [|c cs G F IH]; intros cx cx0 new W; cbn [fold_left]; [eauto|].
  unfold push_check at 2 4. destruct (existsb _ _) eqn:X; [now apply (IH cx cx0 new)|].
  destruct W as [W1 W2 W3 (W4 & W5) W6 W7].
  match goal with |- context [fold_left _ cs ?c1] => destruct (IH c1 cx0 (c :: new)) as (new' & E1 & E2) end; [|eauto].
  assert (NI : ~ In (kn_offset c) (cx_offsets cx)).
  { intros I. enough (existsb (N.eqb (kn_offset c)) (cx_offsets cx) = true) by congruence.
    apply existsb_exists. exists (kn_offset c). split; [exact I|apply N.eqb_refl]. }
  rewrite W3, in_app_iff in NI. split; cbn.
  - now rewrite W1.
  - exact W2.
  - now rewrite W3.
  - split; [constructor; tauto|]. intros x [<-|I]; [tauto|auto].
  - now constructor.
  - constructor.
Qed.
Lemma visit_all cx node rest : cx_ok cx -> cx_stack cx = node :: rest ->
  exists node' cx' dks new, visit fi (cx_set_stack rest cx) node = Ok (node', cx') /\ added (cx_set_stack rest cx) cx' dks new
    /\ weights dks = weights (kn_deleted node)
    /\ key_ok node' /\ kn_state node' = kn_state node /\ kn_offset node' = kn_offset node /\ cachedr rp (cx_state cx') /\ root_only (cx_state cx) (cx_state cx').
Proof.
  intros G ST. set (cx0 := cx_set_stack rest cx).
  assert (GN : key_ok node) by (pose proof (o_keys cx G) as K; rewrite ST in K; now inversion K).
  unfold visit.
  assert (X : exists node' cx' new, (if 0 <? kd_nsub (kn_detail node) then
      let* (node, cs, _, st) := read_sub_keys_internal fi (cx_state cx0) node (cx_filter cx0) None (cx_modified cx0) in
      Ok (kn_set_to_return (w32 (len cs)) node, fold_left (fun cx c => push_check c cx) (rev cs) (cx_set_state st cx0))
    else Ok (node, cx0)) = Ok (node', cx') /\ added cx0 cx' [] new
    /\ key_ok node' /\ kn_state node' = kn_state node /\ kn_deleted node' = kn_deleted node /\ kn_offset node' = kn_offset node /\ cachedr rp (cx_state cx') /\ root_only (cx_state cx) (cx_state cx')).
  { pose proof (o_cache cx G) as C. pose proof (o_calm cx G) as M.
    assert (K : forall (k' : key_node), kn_path k' = kn_path node -> kn_deleted k' = kn_deleted node -> kn_offset k' = kn_offset node ->
      kn_name k' = kn_name node -> kn_detail k' = kn_detail node -> kn_state k' = kn_state node -> key_ok k') by (intros; now apply (key_ok_same node)).
    assert (V : forall k', kn_path k' = kn_path node -> kn_deleted k' = kn_deleted node -> kn_offset k' = kn_offset node ->
      kn_name k' = kn_name node -> kn_detail k' = kn_detail node -> kn_state k' = kn_state node -> exists node' cx' new,
      Ok (kn_set_to_return (w32 (len (@nil key_node))) k', fold_left (fun cx c => push_check c cx) (rev []) (cx_set_state (cx_state cx0) cx0)) = Ok (node', cx')
      /\ added cx0 cx' [] new /\ key_ok node' /\ kn_state node' = kn_state node /\ kn_deleted node' = kn_deleted node /\ kn_offset node' = kn_offset node /\ cachedr rp (cx_state cx') /\ root_only (cx_state cx) (cx_state cx')).
    { intros k' E1 E2 E3 E4 E5 E6. exists (kn_set_to_return (w32 (len (@nil key_node))) k'), (cx_set_state (cx_state cx0) cx0), []. split; [reflexivity|].
      split; [now apply added_refl|]. split; [now apply K|]. repeat (split; [assumption|]). apply root_only_refl. }
    destruct (0 <? kd_nsub (kn_detail node)) eqn:NS.
    2:{ exists node, cx0, []. split; [reflexivity|]. split; [now apply added_refl|]. split; [exact GN|]. repeat (split; [reflexivity|]).
        split; [exact C|apply root_only_refl]. }
    unfold read_sub_keys_internal. rewrite NS.
    destruct (is_allocated (kn_state node)) eqn:AL; [|now apply (V node)].
    assert (ALN : kn_state node = Allocated) by (destruct (kn_state node); try discriminate AL; reflexivity).
    destruct (1048576 <? _); [now apply V|].
    destruct (psl_total fi (kd_sublist (kn_detail node))) as [E|(offs & E)].
    { intros O. destruct (diverge_cycle _ _ O) as (c & _ & Y). exact (NC c Y). }
    { change parse_sub_key_list with psl. rewrite E. now apply V. }
    change parse_sub_key_list with psl. rewrite E.
    change (cx_state cx0) with (cx_state cx). change (cx_modified cx0) with (cx_modified cx).
    pose proof (proj2 GN AL) as LN.
    match goal with |- context [read_children fi (cx_state cx) ?p ?sm ?f ?sf ?sq ?m offs] =>
      destruct (children_all fi p sm f sf sq m rp offs w BO HD (proj1 LN) (proj1 (proj2 LN)) (cx_state cx) C M (o_room cx G))
        as (cs & found & logs & st' & -> & C1 & R1 & F1) end.
    cbv beta iota zeta.
    assert (FG : Forall new_ok (rev cs)).
    { apply Forall_rev. eapply Forall_impl; [|exact F1]. intros c Fc. now apply (child_ok node c offs). }
    assert (W0 : added cx0 (cx_set_state st' cx0) [] []) by now apply added_refl.
    destruct (push_added _ FG (cx_set_state st' cx0) cx0 [] W0) as (new & W & S).
    do 3 eexists. split; [reflexivity|]. split; [exact W|]. split; [now apply K|]. repeat (split; [reflexivity|]). rewrite S. auto. }
  destruct X as (node' & cx' & new & -> & W & GN' & ES & ED & EO & C' & R'). cbv beta iota zeta.
  set (l := map (kn_set_filter (kn_filter node')) (kn_deleted node')).
  assert (FD : Forall dead l).
  { unfold l. apply Forall_map. eapply Forall_impl; [|exact (proj1 GN')]. intros; now apply dead_filter. }
  destruct (push_dead l cx' FD) as (-> & _ & _).
  exists (kn_set_deleted l node'), (cx_set_stack (rev l ++ cx_stack cx') cx'), (rev l), new. split; [reflexivity|].
  destruct W as [W1 W2 W3 W4 W5 _]. split; [split; cbn [cx_set_stack cx_stack cx_return cx_offsets]; try assumption; [now rewrite W1|now apply Forall_rev]|].
  split; [unfold l; now rewrite weights_rev, weights_filter, ED|].
  split; [|auto]. split; [exact FD|]. exact (proj2 GN').
Qed.
Lemma offsets_fit cx : cx_ok cx -> (length (cx_offsets cx) <= S (N.to_nat topmost))%nat.
Proof. intros G. apply nodup_bound; [apply G|]. apply Forall_forall. apply G. Qed.
(** The live keys still to come are waiting or not yet known. *)
Definition to_come (cx : context) (x : N) : Prop := In x (waiting cx) \/ ~ In x (cx_offsets cx).
Definition moves (cx cx' : context) : Prop :=
  cx_ok cx' /\ incl (cx_offsets cx) (cx_offsets cx') /\ (forall x, In x (waiting cx') -> to_come cx x)
  /\ (S (left_to cx') <= left_to cx)%nat.
Lemma nodup_right {A} (a b : list A) : NoDup (a ++ b) -> NoDup b.
Proof. induction a as [|x a IH]; [auto|]. cbn. intros N. inversion N; auto. Qed.
Definition given (cx cx' : context) (k : key_node) : Prop :=
  key_ok k /\ (is_allocated (kn_state k) = true ->
    to_come cx (kn_offset k) /\ In (kn_offset k) (cx_offsets cx') /\ ~ In (kn_offset k) (waiting cx')).
Lemma spots_cons k l : spots (k :: l) = spots [k] ++ spots l.
Proof. apply (spots_app [k] l). Qed.
Lemma spots_one k : spots [k] = if is_allocated (kn_state k) then [kn_offset k] else [].
Proof. unfold spots, alive. cbn [List.filter]. destruct (is_allocated _); reflexivity. Qed.
Lemma after_visit_all cx node rest node' cx' dks new back : cx_ok cx -> cx_stack cx = node :: rest ->
  added (cx_set_stack rest cx) cx' dks new -> weights dks = weights (kn_deleted node) ->
  key_ok node' -> kn_state node' = kn_state node -> kn_offset node' = kn_offset node ->
  cachedr rp (cx_state cx') -> root_only (cx_state cx) (cx_state cx') ->
  Forall key_ok back -> spots back = spots (cx_return cx) ->
  (let c1 := cx_set_return back cx' in moves cx c1 /\ given cx c1 node')
  /\ moves cx (cx_set_return (node' :: back) cx').
Proof.
  intros G ST W WD GN ES EO C R FB MB. cbv zeta.
  assert (SN : spots [node'] = spots [node]) by (rewrite !spots_one, ES, EO; reflexivity).
  assert (PC : waiting cx = spots [node] ++ spots rest ++ spots (cx_return cx)).
  { unfold waiting. rewrite ST. cbn [app]. now rewrite spots_cons, spots_app. }
  pose proof (o_nodup cx G) as ND. rewrite PC in ND.
  pose proof (o_incl cx G) as IN. rewrite PC in IN.
  pose proof (o_keys cx G) as GK. rewrite ST in GK. cbn [app] in GK. apply Forall_cons_iff in GK as (_ & GK).
  apply Forall_app in GK as (GR & _).
  pose proof (offsets_fit cx G) as FEW.
  destruct W as [W1 W2 W3 (W4 & W5) W6 W7]. cbn [cx_set_stack cx_stack cx_return cx_offsets] in *.
  assert (FN : Forall key_ok new) by (eapply Forall_impl; [|exact W6]; now intros c (_ & g & _)).
  assert (FD : Forall key_ok dks) by (eapply Forall_impl; [|exact W7]; intros; now apply dead_ok).
  assert (NS : spots new = map kn_offset new).
  { unfold spots. rewrite alive_all; [reflexivity|]. eapply Forall_impl; [|exact W6]. now intros c (A & _). }
  assert (ND' : NoDup (spots rest ++ spots (cx_return cx))) by (now apply nodup_right in ND).
  assert (RI : forall x, In x (spots rest ++ spots (cx_return cx)) -> In x (cx_offsets cx)) by (intros x I; apply IN; apply in_or_app; now right).
  assert (ND1 : NoDup (map kn_offset new ++ spots rest ++ spots (cx_return cx))).
  { apply nodup_mid; [exact ND'|exact W4|]. intros x I J. apply (W5 x I). now apply RI. }
  assert (INN : incl (spots [node]) (cx_offsets cx)) by (intros x I; apply IN; apply in_or_app; now left).
  assert (NI1 : forall x, In x (spots [node]) -> ~ In x (map kn_offset new ++ spots rest ++ spots (cx_return cx))).
  { intros x I J. apply in_app_iff in J as [J|J]; [now apply (W5 _ J), INN|]. rewrite spots_one in I, ND. destruct (is_allocated _); [|contradiction].
    destruct I as [<-|[]]. cbn [app] in ND. apply NoDup_cons_iff in ND as (X & _). contradiction. }
  assert (N1 : NoDup (spots [node])) by (rewrite spots_one; destruct (is_allocated _); repeat constructor; intros []).
  assert (IO : incl (cx_offsets cx) (cx_offsets cx')) by (rewrite W3; intros x I; apply in_or_app; now right).
  assert (P1 : waiting (cx_set_return back cx') = map kn_offset new ++ spots rest ++ spots (cx_return cx)).
  { unfold waiting. cbn [cx_set_return cx_stack cx_return]. rewrite W1, !spots_app, MB, NS. unfold spots at 1. rewrite (alive_dead dks W7). cbn [map app]. now rewrite app_assoc. }
  assert (P2 : Permutation (waiting (cx_set_return (node' :: back) cx')) (spots [node] ++ map kn_offset new ++ spots rest ++ spots (cx_return cx))).
  { assert (E : waiting (cx_set_return (node' :: back) cx') = (map kn_offset new ++ spots rest) ++ spots [node] ++ spots (cx_return cx)).
    { unfold waiting. cbn [cx_set_return cx_stack cx_return]. rewrite W1, !spots_app, (spots_cons node' back), MB, NS, SN. unfold spots at 1. now rewrite (alive_dead dks W7). }
    rewrite E, Permutation_app_swap_app, <- app_assoc. reflexivity. }
  assert (I1 : incl (map kn_offset new ++ spots rest ++ spots (cx_return cx)) (cx_offsets cx')).
  { intros x I. apply in_app_iff in I as [I|I]; [rewrite W3; apply in_or_app; now left|]. apply IO. now apply RI. }
  assert (CM : forall x, In x (map kn_offset new ++ spots rest ++ spots (cx_return cx)) -> to_come cx x).
  { intros x I. apply in_app_iff in I as [I|I]; [right; auto|]. left. rewrite PC. apply in_or_app. now right. }
  assert (CN : forall x, In x (spots [node]) -> to_come cx x) by (intros x I; left; rewrite PC; apply in_or_app; now left).
  assert (GB : Forall (fun o => o <= topmost) (cx_offsets cx')).
  { rewrite W3. apply Forall_app. split; [|apply G]. apply Forall_map. eapply Forall_impl; [|exact W6]. now intros c (_ & _ & L & _). }
  assert (GF : NoDup (cx_offsets cx')).
  { rewrite W3, <- (app_nil_r (cx_offsets cx)). apply nodup_mid; [rewrite app_nil_r; apply G|exact W4|]. intros x I. rewrite app_nil_r. auto. }
  assert (FEW' : (length (cx_offsets cx') <= S (N.to_nat topmost))%nat) by (apply nodup_bound; [exact GF|]; now apply Forall_forall).
  assert (LO : forall b, (S (left_to (cx_set_return b cx')) <= left_to cx)%nat).
  { intros b. unfold left_to. cbn [cx_set_return cx_stack cx_offsets]. rewrite W3, app_length, map_length in FEW'.
    rewrite W1, W3, ST, !weights_app, weights_cons, weight_eq, WD, app_length, map_length.
    assert (WN : (weights new <= length new * w)%nat) by (apply weights_bound; eapply Forall_impl; [|exact W6]; now intros c (_ & _ & _ & L)).
    remember (S (N.to_nat topmost)) as top. remember (length new) as a. remember (length (cx_offsets cx)) as b0.
    assert (Q : (top - b0 = (top - (a + b0)) + a)%nat) by lia. rewrite Q, Nat.mul_add_distr_r. lia. }
  pose proof (calm_root _ _ R (o_calm cx G)) as CA.
  assert (RM : room (cx_state cx') = w) by (rewrite (room_root _ _ R); apply G).
  split; [split|].
  - split; [|split; [exact IO|split; [rewrite P1; exact CM|apply LO]]]. split; cbn [cx_set_return cx_state cx_stack cx_return cx_offsets]; auto.
    + rewrite W1. repeat (apply Forall_app; split); auto.
    + now rewrite P1.
    + now rewrite P1.
  - split; [exact GN|]. intros AL. rewrite ES in AL. rewrite EO, P1. assert (X : In (kn_offset node) (spots [node])) by (rewrite spots_one, AL; now left).
    split; [auto|]. split; [apply IO; auto|auto].
  - split; [|split; [exact IO|split; [|apply LO]]].
    2:{ intros x I. eapply Permutation_in in I; [|exact P2]. apply in_app_iff in I as [I|I]; auto. }
    split; cbn [cx_set_return cx_state cx_stack cx_return cx_offsets]; auto.
    + rewrite W1. repeat (apply Forall_app; split); auto.
    + eapply Permutation_NoDup; [symmetry; exact P2|]. apply nodup_mid; auto.
    + intros x I. eapply Permutation_in in I; [|exact P2]. apply in_app_iff in I as [I|I]; auto.
Qed.
Definition pot (cx : context) : nat := 2 * left_to cx + length (cx_return cx).
Definition goes_on (cx cx' : context) (o : option key_node) : Prop :=
  cx_ok cx' /\ incl (cx_offsets cx) (cx_offsets cx') /\ (forall x, In x (waiting cx') -> to_come cx x)
  /\ match o with Some k => (S (pot cx') <= pot cx)%nat /\ given cx cx' k | None => True end.
Lemma to_come_trans cx cx' x : incl (cx_offsets cx) (cx_offsets cx') -> (forall y, In y (waiting cx') -> to_come cx y) -> to_come cx' x -> to_come cx x.
Proof. intros I P [J|J]; [auto|right; auto]. Qed.
Lemma goes_trans cx c1 c2 o : incl (cx_offsets cx) (cx_offsets c1) ->
  (forall x, In x (waiting c1) -> to_come cx x) -> (S (pot c1) <= pot cx)%nat -> goes_on c1 c2 o -> goes_on cx c2 o.
Proof.
  intros I P L (G & I2 & P2 & O). split; [exact G|]. split; [intros x J; auto|]. split; [intros x J; eapply to_come_trans; eauto|].
  destruct o as [k|]; [|exact O]. destruct O as (L2 & GK & GV). split; [lia|]. split; [exact GK|].
  intros AL. destruct (GV AL) as (CK & IK & NK). split; [eapply to_come_trans; eauto|]. auto.
Qed.
Lemma next_pre_all fuel : forall cx, cx_ok cx -> (left_to cx < fuel)%nat ->
  exists o cx', next_key_preorder fuel fi cx = Ok (o, cx') /\ goes_on cx cx' o.
Proof.
  induction fuel as [|fuel IH]; intros cx G L; [lia|]. cbn [next_key_preorder].
  destruct (cx_stack cx) as [|node rest] eqn:ST.
  { exists None, cx. split; [reflexivity|]. split; [exact G|]. split; [intros x I; exact I|]. split; [intros x I; now left|exact I]. }
  destruct (visit_all cx node rest G ST) as (node' & cx' & dks & new & -> & W & WD & GN & ES & EO & C & R). cbv beta iota.
  pose proof (o_keys cx G) as GK. apply Forall_app in GK as (_ & GR).
  destruct (after_visit_all cx node rest node' cx' dks new (cx_return cx) G ST W WD GN ES EO C R GR eq_refl) as ((S1 & GV) & _).
  assert (E : cx_return cx = cx_return cx') by (symmetry; exact (a_return _ _ _ _ W)).
  rewrite E, cx_return_eta in *. destruct S1 as (G1 & I1 & P1 & L1).
  assert (PT : (S (pot cx') <= pot cx)%nat) by (unfold pot; rewrite E; lia).
  destruct (_ || _).
  - exists (Some node'), cx'. split; [reflexivity|]. split; [exact G1|]. split; [exact I1|]. split; [exact P1|]. split; [exact PT|exact GV].
  - destruct (IH cx' G1) as (o & c2 & -> & PR); [lia|]. exists o, c2. split; [reflexivity|]. eapply goes_trans; eassumption.
Qed.
Lemma pop_back cx top r : cx_ok cx -> cx_return cx = top :: r -> goes_on cx (cx_set_return r cx) (Some top).
Proof.
  intros G E. pose proof (o_keys cx G) as GK. apply Forall_app in GK as (GS & GR). rewrite E in GR. apply Forall_cons_iff in GR as (GT & GR).
  assert (P : Permutation (waiting cx) (spots [top] ++ waiting (cx_set_return r cx))).
  { unfold waiting. cbn [cx_set_return cx_stack cx_return]. rewrite E, !spots_app, (spots_cons top r). apply Permutation_app_swap_app. }
  pose proof (o_nodup cx G) as ND. eapply Permutation_NoDup in ND; [|exact P].
  assert (IT : forall x, In x (spots [top]) -> In x (waiting cx)) by (intros x I; eapply Permutation_in; [symmetry; exact P|apply in_or_app; now left]).
  assert (II : forall x, In x (waiting (cx_set_return r cx)) -> In x (waiting cx)) by (intros x I; eapply Permutation_in; [symmetry; exact P|apply in_or_app; now right]).
  split; [|split; [intros x I; exact I|split; [intros x I; left; auto|]]].
  - split; cbn [cx_set_return cx_state cx_stack cx_return cx_offsets]; try apply G.
    + now apply Forall_app.
    + now apply nodup_right in ND.
    + intros x I. apply (o_incl cx G). auto.
  - split.
    + unfold pot. change (left_to (cx_set_return r cx)) with (left_to cx). rewrite E. cbn. lia.
    + split; [exact GT|]. intros AL. rewrite spots_one, AL in *. cbn [app] in ND. apply NoDup_cons_iff in ND as (NI & _).
      split; [left; apply IT; now left|]. split; [apply (o_incl cx G), IT; now left|exact NI].
Qed.
Lemma next_post_all fuel : forall cx, cx_ok cx -> (left_to cx < fuel)%nat ->
  exists o cx', next_key_postorder fuel fi cx = Ok (o, cx') /\ goes_on cx cx' o.
Proof.
  induction fuel as [|fuel IH]; intros cx G L; [lia|]. cbn [next_key_postorder].
  destruct (cx_stack cx) as [|node rest] eqn:ST.
  { destruct (cx_return cx) as [|top r] eqn:RT.
    - exists None, cx. split; [reflexivity|]. split; [exact G|]. split; [intros x I; exact I|]. split; [intros x I; now left|exact I].
    - pose proof (pop_back cx top r G RT) as P. cbv zeta. destruct (_ || _).
      + eexists (Some top), _. split; [reflexivity|exact P].
      + eexists None, _. split; [reflexivity|]. destruct P as (P1 & P2 & P3 & _). repeat (split; [assumption|]). exact I. }
  assert (X : exists o cx', (let* (node, cx) := visit fi (cx_set_stack rest cx) node in
      let ret := match cx_return cx with [] => [] | last :: r => kn_set_track (kn_track last + 1) last :: r end in
      next_key_postorder fuel fi (cx_set_return (node :: ret) cx)) = Ok (o, cx') /\ goes_on cx cx' o).
  { destruct (visit_all cx node rest G ST) as (node' & cx' & dks & new & -> & W & WD & GN & ES & EO & C & R). cbv beta iota zeta.
    pose proof (o_keys cx G) as GK. apply Forall_app in GK as (_ & GR).
    set (back := match cx_return cx' with [] => [] | last :: r => kn_set_track (kn_track last + 1) last :: r end).
    assert (BB : Forall key_ok back /\ spots back = spots (cx_return cx) /\ length back = length (cx_return cx)).
    { unfold back. rewrite (a_return _ _ _ _ W). cbn [cx_set_stack cx_return]. destruct (cx_return cx) as [|last r]; [split; [constructor|split; reflexivity]|].
      apply Forall_cons_iff in GR as (GL & GR). split; [|split; [|reflexivity]]. 
      - constructor; [|exact GR]. now apply (key_ok_same last).
      - now rewrite (spots_cons last), (spots_cons (kn_set_track _ last)), !spots_one. }
    destruct BB as (B1 & B2 & B3).
    destruct (after_visit_all cx node rest node' cx' dks new back G ST W WD GN ES EO C R B1 B2) as (_ & S2).
    destruct S2 as (G1 & I1 & P1 & L1).
    match type of G1 with cx_ok ?c => destruct (IH c G1) as (o & c2 & E2 & PR) end; [lia|]. exists o, c2. split; [exact E2|].
    eapply goes_trans; [exact I1|exact P1| |exact PR]. unfold pot. cbn [cx_set_return cx_return length]. rewrite B3. lia. }
  destruct (cx_return cx) as [|last r] eqn:RT; [exact X|]. destruct (kn_track last =? kn_to_return last); [|exact X].
  eexists (Some last), _. split; [reflexivity|]. now apply pop_back.
Qed.
Lemma collect_all post n : forall cx, cx_ok cx -> (pot cx < n)%nat ->
  exists ks, collect post n fi cx = Ok ks /\ NoDup (spots ks) /\ Forall key_ok ks /\ (forall x, In x (spots ks) -> to_come cx x).
Proof.
  induction n as [|n IH]; intros cx G L; [lia|]. cbn [collect].
  assert (X : exists o cx', (if post then next_key_postorder else next_key_preorder) (S n) fi cx = Ok (o, cx') /\ goes_on cx cx' o).
  { unfold pot in L. destruct post; [apply next_post_all|apply next_pre_all]; auto; lia. }
  destruct X as (o & cx' & -> & G1 & I1 & P1 & O). cbv beta iota. destruct o as [k|].
  - destruct O as (L1 & GK & GV). destruct (IH cx' G1) as (ks & -> & ND & F & H); [lia|]. exists (k :: ks). split; [reflexivity|].
    rewrite spots_cons, spots_one. split; [|split; [now constructor|]].
    + destruct (is_allocated _); [|exact ND]. destruct (GV eq_refl) as (CK & IK & NK). constructor; [|exact ND]. intros J. destruct (H _ J); contradiction.
    + intros x J. apply in_app_iff in J as [J|J]; [|eapply to_come_trans; eauto]. destruct (is_allocated _); [|contradiction]. destruct J as [<-|[]]. now apply GV.
  - exists []. split; [reflexivity|]. split; [constructor|]. split; [constructor|]. intros x [].
Qed.
End All.

(** ** The opened file *)
Lemma apply_headed order fuel bad logs p p' : headed p -> apply_transaction_logs order fuel bad logs p = Ok p' -> headed p'.
Proof.
  intros M. unfold apply_transaction_logs. destruct logs as [|l logs]; [now intros [= <-]|].
  destruct (prepare_logs bad p (l :: logs)) as [[[go p1] logs1]| | |] eqn:E; try discriminate.
  assert (M1 : headed p1).
  { assert (X : forall p2, headed p2 -> forall l2, (let* b := or_panic (ps_base_block p2) in
        if bb_primary_seq (bb_base b) =? bb_secondary_seq (bb_base b) then Ok (false, ps_log WarningTransactionLog p2, l2) else Ok (true, p2, l2)) = Ok (go, p1, logs1) -> headed p1).
    { intros p2 M2 l2. destruct (ps_base_block p2); [|discriminate]. cbn [or_panic]. destruct (_ =? _); intros [= _ <- _]; exact M2. }
    unfold prepare_logs in E. destruct bad.
    - destruct (handle_bad_checksum p (l :: logs)) as [[p2 logs2]| | |] eqn:H; try discriminate. cbv beta iota in E. apply X in E; [exact E|].
      unfold handle_bad_checksum in H. destruct (last _ _); [|discriminate]. cbn [or_panic] in H. cbv beta zeta iota in H.
      destruct (get_range _ _ _) in H; [|discriminate]. cbn [ok_or] in H. destruct (overwrite _ _ _) in H; [|discriminate]. cbn [or_panic] in H.
      destruct (init_base_block _) as [[[s b] p3]| | |] eqn:B in H; try discriminate. injection H as <- _.
      apply init_base_ok in B as (H & _). exact H.
    - cbv beta iota in E. now apply X in E. }
  cbv beta iota. destruct go; [|now intros [= <-]].
  destruct (get_reg_items fuel p1 0) as [[items p2]| | |]; try discriminate.
  cbv beta iota. destruct (base_block_info p2) as [[sec h]| | |]; try discriminate. cbv beta iota.
  destruct (apply_logs _ _ _ _ _ _ _) as [[n p3]| | |]; try discriminate. cbv beta iota.
  unfold update_header. destruct (overwrite _ _ _); [|discriminate]. cbn [or_panic]. destruct (overwrite _ _ _); [|discriminate]. cbn [or_panic].
  destruct (get_range _ _ _); [|discriminate]. cbn [or_panic]. destruct (calculate_checksum _); try discriminate.
  cbv beta iota. destruct (overwrite _ _ _); [|discriminate]. cbn [or_panic].
  destruct (init_base_block _) as [[[s b] p4]| | |] eqn:B; try discriminate. apply init_base_ok in B as (H & _).
  intros [= <-]. exact H.
Qed.
Lemma build_root order fuel hash recover full buffer files p : known_file_type buffer ->
  build order fuel hash recover full buffer files = Ok p ->
  ps_file p = mkFI 4096 (ps_buffer p)
  /\ exists st i, ps_state p = set_info i st /\ kn_read (ps_file p) st (mkOpt 4128 [] None true None true) = Ok (ps_root p, st).
Proof.
  intros K. unfold build. destruct (parse_logs files) as [[logs w]| | |]; try discriminate. cbv beta iota zeta. unfold ps_init.
  destruct (init_base_block _) as [[[s bad] p0]| | |] eqn:B; try discriminate.
  apply init_base_ok in B as (H0 & B0 & R0 & S0 & T0). apply T0 in K. subst s. cbv beta iota.
  match goal with |- match ?x with _ => _ end = _ -> _ => destruct x as [p1| | |] eqn:E; try discriminate end.
  cbv beta iota. intros [= <-]. cbn [ps_set_state ps_state ps_root].
  change (ps_file (ps_set_state (set_info (st_info (ps_state p1) ++ w) (ps_state p1)) p1)) with (ps_file p1).
  change (ps_buffer (ps_set_state (set_info (st_info (ps_state p1) ++ w) (ps_state p1)) p1)) with (ps_buffer p1).
  assert (X : forall p2, headed p2 -> match apply_transaction_logs order fuel bad logs p2 with Ok p => init_root p | Err => Err | Panic => Panic | OutOfFuel => OutOfFuel end = Ok p1 ->
    ps_file p1 = mkFI 4096 (ps_buffer p1) /\ kn_read (ps_file p1) (ps_state p1) (mkOpt 4128 [] None true None true) = Ok (ps_root p1, ps_state p1)).
  { intros p2 M2. destruct (apply_transaction_logs order fuel bad logs p2) as [p3| | |] eqn:A; try discriminate. apply apply_headed in A; [|exact M2].
    intros I. apply init_root_ok in I as (h & root & -> & _ & R). destruct A as (HB & _). rewrite HB in R. split; [|exact R].
    unfold ps_buffer. cbn [ps_set_root ps_set_hbin ps_file]. unfold ps_hbin in HB. destruct (ps_file p3). cbn in *. now subst. }
  assert (Y : ps_file p1 = mkFI 4096 (ps_buffer p1) /\ kn_read (ps_file p1) (ps_state p1) (mkOpt 4128 [] None true None true) = Ok (ps_root p1, ps_state p1)).
  { destruct recover; [|exact (X p0 H0 E)]. destruct (ps_base_block p0) as [bb|]; [|discriminate]. cbn [or_panic] in E. cbv beta iota in E.
    destruct (find_free_keys_and_values _ _ _) as [st| | |] eqn:F in E; try discriminate. cbv beta iota in E.
    exact (X (ps_set_state st p0) H0 E). }
  destruct Y as (Y1 & Y2). split; [exact Y1|]. exists (ps_state p1), (st_info (ps_state p1) ++ w). split; [reflexivity|exact Y2].
Qed.
Lemma all_iterate order fuel hash recover full buffer files p : known_file_type buffer ->
  build order fuel hash recover full buffer files = Ok p -> bytes_ok (ps_buffer p) ->
  no_list_cycle (ps_file p) -> no_deleted_root (ps_state p) ->
  exists bound, forall n f anc m post, (bound < n)%nat ->
  exists ks, iterate n p f anc m post = Ok ks /\ NoDup (spots ks)
  /\ Forall (fun k => is_allocated (kn_state k) = true -> exists names, lineage (ps_file p) 4128 names (kn_offset k) /\ kn_path k = path_of names) ks.
Proof.
  intros K E B NC ND. pose proof (build_reached _ _ _ _ _ _ _ _ E) as RE.
  pose proof (reached_orderly _ _ _ _ _ RE ND) as O. pose proof (reached_inv _ _ _ _ _ RE) as (Z & _ & _ & D).
  destruct (build_root _ _ _ _ _ _ _ _ K E) as (FI & st & i & SI & R).
  assert (QS : calm st) by (split; [|]; rewrite SI in *; assumption).
  assert (ZS : st_root_offset st = 0) by (rewrite SI in Z; exact Z).
  destruct (read_all (ps_file p) st (mkOpt 4128 [] None true None true) [92] B eq_refl text_nil (or_introl eq_refl) (or_introl ZS) QS)
    as [F|(c & st' & F & _ & _ & FK)]; rewrite R in F; [discriminate|]. injection F as F _.
  destruct (ps_root p) as [k|] eqn:PR; [|now apply AnyOpen.read_some in R].
  destruct (FK k (eq_sym F)) as (E1 & E2 & E3 & E4 & E5 & E6 & E7 & E8). cbn [op_offset op_path] in *.
  assert (PK : kn_path k = 92 :: kn_name k) by exact E3.
  set (w := room (ps_state p)).
  assert (TO : topmost (ps_file p) 4128 = len (ps_buffer p)) by (unfold topmost; change (fi_buffer (ps_file p)) with (ps_buffer p) in *; lia).
  exists (pot (ps_file p) 4128 w (from_parser p false None false)). intros n f anc m post L.
  assert (G : cx_ok (ps_file p) 4128 (92 :: kn_name k) w (from_parser p m f anc)).
  { unfold from_parser. rewrite PR. split; cbn [cx_state cx_stack cx_return cx_offsets app].
    - now split.
    - reflexivity.
    - now left.
    - constructor; [|constructor]. split; [exact E6|]. intros _. split; [rewrite PK; now apply AnyOpen.text_root|]. split; [exists []; rewrite app_nil_r; auto|].
      split; [exact E8|]. exists [kn_name k]. rewrite E1. split.
      + apply from_root. rewrite <- E1. apply E8.
      + cbn. now rewrite app_nil_r.
    - unfold waiting. cbn [cx_stack cx_return app]. rewrite spots_one. destruct (is_allocated _); repeat constructor. intros [].
    - unfold waiting. cbn [cx_stack cx_return app]. rewrite spots_one. destruct (is_allocated _); [intros x I; exact I|intros x []].
    - repeat constructor. intros [].
    - constructor; [|constructor]. rewrite TO, E1. exact E2. }
  destruct (collect_all (ps_file p) 4128 (92 :: kn_name k) w B eq_refl NC post n _ G) as (ks & EK & NK & FG & _); [exact L|].
  exists ks. split; [exact EK|]. split; [exact NK|]. eapply Forall_impl; [|exact FG]. cbv beta. intros x (_ & X) A. destruct (X A) as (_ & _ & _ & Y). exact Y.
Qed.
(** Without logs every deleted key comes from the free space of the file. *)
Lemma scan_primary fi st n st' : keyed (fun _ k => is_deleted_primary_file (kn_state k) = true) (st_deleted_keys st) ->
  find_free_keys_and_values fi st n = Ok st' -> keyed (fun _ k => is_deleted_primary_file (kn_state k) = true) (st_deleted_keys st').
Proof.
  intros IH. unfold find_free_keys_and_values. assert (A : agree false st st) by apply agree_refl.
  destruct (recover_loop_ok fi st (S (length (fi_buffer fi))) st (fi_hbin fi) n A) as [E|(s & l & ks & vs & E & (w & G) & _ & FK & _)].
  { unfold len. lia. } { rewrite E. discriminate. }
  rewrite E. intros [= <-]. subst s. cbn [st_deleted_keys]. apply keyed_push_all; [|exact IH]. eapply Forall_impl; [|exact FK].
  intros k [(_ & K)|(h & c & _ & _ & _ & _ & K)]; destruct K as (_ & _ & _ & k0 & s & _ & _ & S & D); now rewrite S.
Qed.
Lemma no_logs_no_root order fuel hash recover full buffer p : known_file_type buffer ->
  build order fuel hash recover full buffer [] = Ok p -> no_deleted_root (ps_state p).
Proof.
  intros K. unfold build. assert (PL : exists w, parse_logs [] = Ok ([], w)) by (eexists; reflexivity). destruct PL as (w & ->). cbv beta iota zeta. unfold ps_init.
  destruct (init_base_block _) as [[[s bad] p0]| | |] eqn:B; try discriminate. pose proof (base_info _ _ _ _ B) as (i1 & S1).
  apply init_base_ok in B as (H0 & B0 & R0 & S0 & T0). apply T0 in K. subst s. cbv beta iota.
  match goal with |- match ?x with _ => _ end = _ -> _ => destruct x as [p1| | |] eqn:E; try discriminate end.
  cbv beta iota. intros [= <-].
  assert (X : keyed (fun _ k => is_deleted_primary_file (kn_state k) = true) (st_deleted_keys (ps_state p1))).
  { assert (Y : keyed (fun _ k => is_deleted_primary_file (kn_state k) = true) (st_deleted_keys (ps_state p0))) by (rewrite S1; constructor).
    destruct recover; cbn [apply_transaction_logs] in E.
    - destruct (ps_base_block p0) as [bb|]; [|discriminate]. cbn [or_panic] in E. cbv beta iota in E.
      destruct (find_free_keys_and_values _ _ _) as [st| | |] eqn:F in E; try discriminate. cbv beta iota in E.
      apply init_root_state in E. rewrite E. exact (scan_primary _ _ _ _ Y F).
    - apply init_root_state in E. now rewrite E. }
  intros path ks k I J. left. apply primary_free. change (st_deleted_keys _) with (st_deleted_keys (ps_state p1)) in I. unfold keyed in X. rewrite Forall_forall in X. specialize (X _ I). cbn [fst snd] in X.
  rewrite Forall_forall in X. now apply X.
Qed.

Lemma spots_live ks : spots ks = map kn_offset (live_keys ks).
Proof. unfold spots, alive, live_keys. now rewrite map_map. Qed.

(** ** In the words of the specification *)
Lemma held_roots st d : In d (held beq [] (st_deleted_keys st)) -> ~ from_free_space d -> N.testbit (kd_flags (kn_detail d)) 2 = true -> noted_root st d.
Proof.
  rewrite held_aget. intros I F T. split.
  - destruct (aget beq [] (st_deleted_keys st)) as [dks|]; [|contradiction]. eauto.
  - split; [|unfold is_key_root; now rewrite root_flag]. destruct (is_deleted_primary_file (kn_state d)) eqn:P; [|reflexivity]. apply primary_free in P. contradiction.
Qed.
Lemma roots_stuck st a b k fuel : In a (held beq [] (st_deleted_keys st)) -> In b (held beq [] (st_deleted_keys st)) -> kn_offset a <> kn_offset b ->
  Forall (fun d => ~ from_free_space d /\ N.testbit (kd_flags (kn_detail d)) 2 = true) [a; b; k] ->
  update_modified_lists fuel st k = OutOfFuel.
Proof.
  intros A B NE F. apply Forall_cons_iff in F as ((A1 & A2) & F). apply Forall_cons_iff in F as ((B1 & B2) & F). apply Forall_cons_iff in F as ((K1 & K2) & _).
  apply (two_roots_stuck st a b); [now apply held_roots|now apply held_roots|exact NE| |unfold is_key_root; now rewrite root_flag].
  destruct (is_deleted_primary_file (kn_state k)) eqn:P; [|reflexivity]. apply primary_free in P. contradiction.
Qed.
Lemma notes_end st k : orderly st -> exists fuel k', forall more, update_modified_lists (fuel + more) st k = Ok k'.
Proof.
  intros O. exists (S (levels (len (lookup_path k)) (st_deleted_keys st))). 
  set (L := levels (len (lookup_path k)) (st_deleted_keys st)).
  destruct (uml_ends st O (S L) k) as (k' & E); [unfold L; lia|]. exists k'.
  assert (M : forall f k k', update_modified_lists f st k = Ok k' -> forall more, update_modified_lists (f + more) st k = Ok k').
  { clear. induction f as [|f IH]; intros k k' E more; [discriminate|]. cbn [Nat.add]. rewrite uml_eq in E |- *.
    destruct (is_deleted_primary_file _); [exact E|]. destruct (aget _ _ _) as [dks|]; [|exact E].
    destruct (note f st (kn_offset k) dks) as [l| | |] eqn:N; try discriminate. 
    assert (X : note (f + more) st (kn_offset k) dks = Ok l).
    { clear E. revert l N. induction dks as [|d r IR]; intros l N; cbn [note] in N |- *; [exact N|].
      destruct (if kn_offset d =? kn_offset k then Ok d else update_modified_lists f st d) as [d'| | |] eqn:E; try discriminate.
      assert (E' : (if kn_offset d =? kn_offset k then Ok d else update_modified_lists (f + more) st d) = Ok d').
      { destruct (_ =? _); [exact E|]. now apply IH. }
      rewrite E'. destruct (note f st (kn_offset k) r) as [r'| | |]; try discriminate. rewrite (IR r' eq_refl). exact N. }
    now rewrite X. }
  intros more. now apply M.
Qed.
Lemma state_notes_end order fuel hash recover full buffer files p k : build order fuel hash recover full buffer files = Ok p -> no_deleted_root (ps_state p) ->
  exists n k', forall more, update_modified_lists (n + more) (ps_state p) k = Ok k'.
Proof. intros E ND. apply notes_end. eapply reached_orderly; [exact (build_reached _ _ _ _ _ _ _ _ E)|exact ND]. Qed.
Lemma views_agree order order' fuel fuel' hash full buffer files p q : known_file_type buffer ->
  build order fuel hash false full buffer files = Ok p -> build order' fuel' hash true full buffer files = Ok q ->
  bytes_ok (ps_buffer p) -> no_list_cycle (ps_file p) -> no_deleted_root (ps_state q) ->
  exists bound, forall n f anc m, (bound < n)%nat ->
  exists ks', iterate n p f anc m false = Ok (live_keys ks') /\ iterate n q f anc m false = Ok ks'.
Proof.
  intros K B C BO NC ND. pose proof (build_twin full hash _ _ _ _ _ _ _ _ B C) as T. pose proof T as ((F & _) & _).
  destruct (all_iterate _ _ _ _ _ _ _ _ K C) as (b & H); [unfold ps_buffer in *; now rewrite <- F|now rewrite <- F|exact ND|].
  exists (Nat.max b (2 * S (N.to_nat (len (ps_buffer p))))). intros n f anc m L.
  destruct (H n f anc m false) as (ks' & J & _); [lia|].
  destruct (file_iterates order fuel hash full buffer files p n f anc m false K B BO NC) as (ks & I & _); [lia|].
  exists ks'. split; [|exact J]. rewrite I. f_equal. rewrite <- (clean_keys ks) by exact (iterate_clean _ _ _ _ _ _ _ _ _ _ _ _ _ K B I).
  exact (twins_iterate full hash _ _ _ _ _ _ _ _ _ T I J).
Qed.
