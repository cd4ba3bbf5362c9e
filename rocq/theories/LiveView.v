(** The live view: what an iteration shows of allocated keys does not depend on
    the deleted and modified items of the parse state. *)
From Verif Require Import Base BaseFacts Util BaseBlock Types Value Node Recover Parser NodeFrame
  CellSpec CellFacts CellRead ScanSpec ScanFacts Recovered LiveSpec.

(** ** Keys that are not live *)
Inductive dead (k : key_node) : Prop :=
  dead_intro : is_allocated (kn_state k) = false -> Forall dead (kn_deleted k) -> dead k.
Definition fit (k : key_node) : Prop := Forall dead (kn_deleted k).
Definition dead_maps (st : state) : Prop :=
  forall_map dead (st_deleted_keys st) /\ forall_map (fun v => is_allocated (kv_state v) = false) (st_deleted_values st).
Lemma root_only_dead st st' : root_only st st' -> dead_maps st -> dead_maps st'.
Proof. intros H. unfold root_only in H. rewrite H. easy. Qed.

Definition fields (k : key_node) :=
  (kn_offset k, kn_detail k, kn_name k, kn_path k, kn_state k, kn_seq k, kn_updated_by k, kn_logs k, kn_sub_offsets k, kn_hash k,
   (kn_to_return k, kn_track k, kn_filter k, kn_index k)).
Definition live_values (k : key_node) := map live_value (List.filter (fun v => is_allocated (kv_state v)) (kn_values k)).
Lemma live_iff k k' : live_key k = live_key k' <-> fields k = fields k' /\ live_values k = live_values k'.
Proof.
  unfold live_key, fields, live_values. split.
  - destruct k, k'. intros E. cbn in E |- *. injection E. intros. subst. split; [reflexivity|assumption].
  - destruct k, k'. intros [E V]. cbn in E, V |- *. injection E. intros. subst. unfold kn_set_deleted, kn_set_versions, kn_set_values. cbn. now rewrite V.
Qed.
Lemma fields_state k k' : fields k = fields k' -> kn_state k = kn_state k'.
Proof. unfold fields. intros E. injection E. intros. assumption. Qed.
Lemma live_fields k k' : live_key k = live_key k' ->
  kn_offset k = kn_offset k' /\ kn_detail k = kn_detail k' /\ kn_path k = kn_path k' /\ kn_state k = kn_state k' /\ kn_logs k = kn_logs k'
  /\ kn_filter k = kn_filter k'.
Proof. intros E. apply live_iff in E as [E _]. unfold fields in E. injection E. intros. repeat split; assumption. Qed.

(** ** Noting earlier versions *)
Lemma filter_none {A} (t : A -> bool) l : Forall (fun x => t x = false) l -> List.filter t l = [].
Proof. induction 1 as [|x l X F IH]; cbn [List.filter]; [reflexivity|]. now rewrite X. Qed.
Lemma versions_live st path vs :
  map live_value (List.filter (fun v => is_allocated (kv_state v))
    (map (fun v => match aget pair_eqb (path, vd_name (kv_detail v)) (st_modified_values st) with
                   | None => v
                   | Some ms => kv_set_versions (sort_by (fun a b => opt_le (kv_seq b) (kv_seq a)) ms) v
                   end) vs))
  = map live_value (List.filter (fun v => is_allocated (kv_state v)) vs).
Proof.
  induction vs as [|v vs IH]; [reflexivity|]. cbn [map List.filter].
  destruct (aget pair_eqb _ _); cbn [kv_set_versions kv_state]; destruct (is_allocated (kv_state v)); cbn [map]; rewrite ?IH; reflexivity.
Qed.
Lemma uml_live st : dead_maps st -> forall fuel k,
  match update_modified_lists fuel st k with
  | Ok k' => live_key k' = live_key k /\ (fit k -> fit k') /\ (dead k -> dead k')
  | OutOfFuel => True
  | _ => False
  end.
Proof.
  intros (MK & MV). induction fuel as [|fuel IH]; intros k; [exact I|]. cbn [update_modified_lists].
  destruct (is_deleted_primary_file (kn_state k)); [auto|]. set (path := lookup_path k).
  set (st1 := match aget beq path (st_deleted_keys st) with None => Ok k | Some _ => _ end).
  assert (S1 : match st1 with
    | Ok k1 => live_key k1 = live_key k /\ (fit k -> fit k1) /\ (dead k -> dead k1) | OutOfFuel => True | _ => False end).
  { unfold st1. destruct (aget beq path (st_deleted_keys st)) as [dks|] eqn:A; [|auto].
    pose proof (aget_forall _ _ _ _ _ MK A) as F. clear A st1.
    match goal with |- context [match ?g dks with _ => _ end] => set (go := g) end.
    assert (GO : forall dks, Forall dead dks -> match go dks with Ok l => Forall dead l | OutOfFuel => True | _ => False end).
    { clear dks F. induction dks as [|dk r IHr]; intros F; [constructor|]. inversion F as [|? ? D F']; subst.
      change (go (dk :: r)) with (let* dk' := if kn_offset dk =? kn_offset k then Ok dk else update_modified_lists fuel st dk in
        let* r' := go r in Ok (dk' :: r')).
      specialize (IHr F'). specialize (IH dk). destruct (kn_offset dk =? kn_offset k).
      - destruct (go r); [constructor; assumption|exact IHr..].
      - destruct (update_modified_lists fuel st dk) as [dk'| | |]; try exact IH.
        destruct (go r); [|exact IHr..]. constructor; [now apply IH|assumption]. }
    specialize (GO dks F). destruct (go dks) as [l| | |]; try exact GO.
    split; [apply live_iff; now split|]. split; [now intros _|]. intros [D _]. now constructor. }
  destruct st1 as [k1| | |]; try exact S1. destruct S1 as (L1 & F1 & D1). cbv beta iota zeta.
  set (k2 := match aget beq path (st_modified_keys st) with None => k1 | Some _ => _ end).
  assert (E2 : fields k2 = fields k1 /\ kn_values k2 = kn_values k1 /\ kn_deleted k2 = kn_deleted k1)
    by (unfold k2; destruct (aget beq path (st_modified_keys st)); repeat split).
  destruct E2 as (E2 & V2 & X2). split; [|split].
  - rewrite <- L1. apply live_iff. unfold live_values. cbn [kn_set_values kn_values]. rewrite filter_app, map_app, versions_live, V2. split.
    + revert E2. unfold fields. cbn [kn_set_values kn_offset kn_detail kn_name kn_path kn_state kn_seq kn_updated_by kn_logs kn_sub_offsets kn_hash kn_to_return kn_track kn_filter kn_index].
      now intros ->.
    + rewrite (filter_none _ (match aget beq path (st_deleted_values st) with Some _ => _ | None => _ end)); [now rewrite app_nil_r|].
      destruct (aget beq path (st_deleted_values st)) as [dvs|] eqn:A; [|constructor].
      apply sort_forall. exact (aget_forall _ _ _ _ _ MV A).
  - intros FK. unfold fit. cbn [kn_set_values kn_deleted]. rewrite X2. now apply F1.
  - intros DK. specialize (D1 DK). destruct D1 as [D1 D3]. constructor; cbn [kn_set_values kn_deleted kn_state]; [|now rewrite X2].
    now rewrite (fields_state _ _ E2).
Qed.

(** ** Reading *)
Definition rel {A} (P : A -> A -> Prop) (r r' : res (A * state)) : Prop :=
  r = OutOfFuel \/ r' = OutOfFuel \/
  match r, r' with
  | Ok (a, s), Ok (a', s') => P a a' /\ agree false s s'
  | Err, Err | Panic, Panic => True
  | _, _ => False
  end.
Definition pair_ok (a b : state) : Prop := agree false a b /\ dead_maps a /\ dead_maps b.
Definition like (k k' : key_node) : Prop := live_key k = live_key k' /\ fit k /\ fit k'.
Definition like_o (o o' : option key_node) : Prop :=
  match o, o' with Some k, Some k' => like k k' | None, None => True | _, _ => False end.
Lemma slice_like fi slice o a b : pair_ok a b -> rel like_o (read_from_slice fi a slice o) (read_from_slice fi b slice o).
Proof.
  intros (A & DA & DB). unfold read_from_slice. rewrite (kn_from_bytes_agree false a b) by assumption.
  destruct (kn_cases b slice (op_offset o) (op_path o) (op_seq o)) as [(_ & nm & w & _ & E)|(_ & E)]; rewrite E; [|right; right; exact I].
  cbv beta iota. set (k := kn_at _ _ _ _ _ _ _).
  assert (F : same false match op_filter o with Some f => check_cell f a k | None => Ok (IterateKeys, a) end
                     match op_filter o with Some f => check_cell f b k | None => Ok (IterateKeys, b) end).
  { destruct (op_filter o); [now apply check_cell_agree|now split]. }
  assert (SA : forall fl s, match op_filter o with Some f => check_cell f a k | None => Ok (IterateKeys, a) end = Ok (fl, s) -> dead_maps s).
  { intros fl s. destruct (op_filter o); [intros X; apply (root_only_dead a); [exact (check_cell_state _ _ _ _ _ X)|exact DA]|now intros [= _ <-]]. }
  assert (SB : forall fl s, match op_filter o with Some f => check_cell f b k | None => Ok (IterateKeys, b) end = Ok (fl, s) -> dead_maps s).
  { intros fl s. destruct (op_filter o); [intros X; apply (root_only_dead b); [exact (check_cell_state _ _ _ _ _ X)|exact DB]|now intros [= _ <-]]. }
  destruct (match op_filter o with Some f => check_cell f a k | None => _ end) as [[fl s]| | |],
           (match op_filter o with Some f => check_cell f b k | None => _ end) as [[fl' s']| | |];
    try contradiction; try (right; right; exact I). 2: now left.
  specialize (SA _ _ eq_refl). specialize (SB _ _ eq_refl).
  destruct F as [<- F]. cbv beta iota.
  assert (V : forall k, read_values fi s (op_seq o) k = read_values fi s' (op_seq o) k).
  { intros. now apply (read_values_agree false). }
  rewrite V. destruct fl. { right; right. now split. }
  all: destruct (if _ && _ then _ else _) as [k1| | |] eqn:EV; [|solve [right; right; exact I|now left]..].
  all: assert (D1 : kn_deleted k1 = []);
    [destruct (_ && _) in EV; [|injection EV as <-; reflexivity]; destruct (read_values _ _ _ _) as [[k2 ok]| | |] eqn:RV in EV; try discriminate;
     apply read_values_alloc in RV as (_ & _ & R3); [|constructor]; injection EV as <-; destruct ok; exact R3|].
  all: cbv beta iota zeta.
  all: match goal with |- context [update_modified_lists _ _ ?x] => set (k2 := x) end.
  all: assert (D2 : fit k2) by (unfold fit; change (kn_deleted k2) with (kn_deleted k1); rewrite D1; constructor).
  all: destruct (op_modified o); [|right; right; cbv beta iota; split; [split; [reflexivity|now split]|exact F]].
  all: pose proof (uml_live s SA (uml_fuel s) k2) as UA; pose proof (uml_live s' SB (uml_fuel s') k2) as UB;
    destruct (update_modified_lists (uml_fuel s) s k2) as [ka| | |]; try contradiction; [|now left];
    destruct (update_modified_lists (uml_fuel s') s' k2) as [kb| | |]; try contradiction; [|now right; left].
  all: right; right; cbv beta iota; split; [|exact F]; destruct UA as (LA & FA & _), UB as (LB & FB & _); split; [congruence|split; auto].
Qed.
Lemma read_like fi o a b : pair_ok a b -> rel like_o (kn_read fi a o) (kn_read fi b o).
Proof. intros P. unfold kn_read. destruct (get_from _ _); [|right; right; exact I]. cbn [ok_or]. now apply slice_like. Qed.
Lemma pair_next a b s s' : root_only a s -> root_only b s' -> agree false s s' -> pair_ok a b -> pair_ok s s'.
Proof. intros A B G (_ & DA & DB). split; [exact G|]. split; [now apply (root_only_dead a)|now apply (root_only_dead b)]. Qed.

Definition likes (cs cs' : list key_node) : Prop := Forall2 like cs cs'.
Lemma like_upd (g : key_node -> key_node) k k' : (forall q q', fields q = fields q' -> fields (g q) = fields (g q')) ->
  (forall q, kn_values (g q) = kn_values q) -> (forall q, kn_deleted (g q) = kn_deleted q) -> like k k' -> like (g k) (g k').
Proof.
  intros H1 H2 H3 (L & F & F'). apply live_iff in L as [L1 L2]. split.
  - apply live_iff. split; [now apply H1|]. unfold live_values. now rewrite !H2.
  - split; unfold fit; now rewrite H3.
Qed.
Ltac upd_fields := let E := fresh in intros [] [] E; unfold fields in E |- *; cbn in E |- *; injection E; intros; subst; reflexivity.
Lemma like_child sm f c c' : like c c' -> like (child_filter_state sm f c) (child_filter_state sm f c').
Proof.
  intros L. pose proof (live_fields _ _ (proj1 L)) as (_ & _ & _ & _ & _ & E). unfold child_filter_state. rewrite <- E.
  destruct (kn_filter c) eqn:KC; [exact L|].
  destruct sm; [|destruct (f_is_valid f); [|exact L]]; (apply like_upd; [upd_fields|reflexivity|reflexivity|exact L]).
Qed.
Lemma like_exact c c' : like c c' -> is_exact c = is_exact c'.
Proof. intros (L & _). apply live_fields in L as (_ & _ & _ & _ & _ & E). unfold is_exact. now rewrite E. Qed.
Lemma children_like fi path sm f sf seq m offs : forall a b, pair_ok a b ->
  rel (fun x y => likes (fst (fst x)) (fst (fst y)) /\ snd (fst x) = snd (fst y) /\ snd x = snd y)
    (read_children fi a path sm f sf seq m offs) (read_children fi b path sm f sf seq m offs).
Proof.
  induction offs as [|o offs IH]; intros a b P; cbn [read_children].
  { right; right. split; [split; [constructor|now split]|apply P]. }
  pose proof (read_like fi (mkOpt o path sf sm seq m) a b P) as R.
  destruct (kn_read fi a _) as [[c s]| | |] eqn:RA; destruct (kn_read fi b _) as [[c' s']| | |] eqn:RB;
    destruct R as [R|[R|R]]; try discriminate R; try contradiction; try (right; right; exact I); try (left; reflexivity); try (right; left; reflexivity).
  - destruct R as (R & G). pose proof (pair_next _ _ _ _ (kn_read_state _ _ _ _ _ RA) (kn_read_state _ _ _ _ _ RB) G P) as P'.
    specialize (IH s s' P'). destruct c as [c|], c' as [c'|]; try contradiction; [|exact IH].
    cbn [like_o] in R.
    destruct (read_children fi s _ _ _ _ _ _ _) as [[[[cs fd] lg] t]| | |], (read_children fi s' _ _ _ _ _ _ _) as [[[[cs' fd'] lg'] t']| | |];
      destruct IH as [H|[H|H]]; try discriminate H; try contradiction; try (right; right; exact I); try (left; reflexivity); try (right; left; reflexivity).
    destruct H as ((H1 & H2 & H3) & H4). cbn [fst snd] in *. right; right. split; [|exact H4]. cbn [fst snd].
    split; [constructor; [now apply like_child|exact H1]|]. split; [rewrite H2; f_equal; now apply like_exact|exact H3].
  - specialize (IH a b P).
    destruct (read_children fi a _ _ _ _ _ _ _) as [[[[cs fd] lg] t]| | |], (read_children fi b _ _ _ _ _ _ _) as [[[[cs' fd'] lg'] t']| | |];
      destruct IH as [H|[H|H]]; try discriminate H; try contradiction; try (right; right; exact I); try (left; reflexivity); try (right; left; reflexivity).
    destruct H as ((H1 & H2 & H3) & H4). cbn [fst snd] in *. right; right. split; [|exact H4]. cbn [fst snd].
    split; [exact H1|]. split; [exact H2|now rewrite H3].
Qed.
Lemma sub_keys_like fi f seq m k k' a b : like k k' -> pair_ok a b ->
  rel (fun x y => like (fst (fst x)) (fst (fst y)) /\ likes (snd (fst x)) (snd (fst y)) /\ snd x = snd y)
    (read_sub_keys_internal fi a k f seq m) (read_sub_keys_internal fi b k' f seq m).
Proof.
  intros L P. pose proof (live_fields _ _ (proj1 L)) as (EO & ED & EP & ES & EL & EF). unfold read_sub_keys_internal.
  assert (LG : like (kn_add_log WarningParse k) (kn_add_log WarningParse k')) by (apply like_upd; [upd_fields|reflexivity|reflexivity|exact L]).
  rewrite <- ED, <- ES, <- EP. destruct (is_allocated _); [|right; right; split; [split; [exact L|split; [constructor|reflexivity]]|apply P]].
  destruct (1048576 <? _); [right; right; split; [split; [exact LG|split; [constructor|reflexivity]]|apply P]|].
  destruct (0 <? _); [|right; right; split; [split; [exact L|split; [constructor|reflexivity]]|apply P]].
  destruct (parse_sub_key_list _ _ _) as [offs| | |]; [|right; right; split; [split; [exact LG|split; [constructor|reflexivity]]|apply P]|right; right; exact I|now left].
  replace (is_match_or_desc k') with (is_match_or_desc k) by (unfold is_match_or_desc; now rewrite EF). cbv beta zeta iota.
  match goal with |- context [read_children fi a ?p ?s ?g ?h ?q m ?o] =>
    pose proof (children_like fi p s g h q m o a b P) as C;
    destruct (read_children fi a p s g h q m o) as [[[[cs fd] lg] t]| | |],
             (read_children fi b p s g h q m o) as [[[[cs' fd'] lg'] t']| | |];
      destruct C as [H|[H|H]]; try discriminate H; try contradiction; try (right; right; exact I); try (left; reflexivity); try (right; left; reflexivity)
  end.
  destruct H as ((H1 & H2 & H3) & H4). cbn [fst snd] in *. right; right. split; [|exact H4]. cbn [fst snd].
  split; [|split; [exact H1|exact H2]]. rewrite <- EL, <- H3. apply (like_upd (fun q => kn_set_sub_offsets offs (kn_set_logs (kn_logs k ++ lg) q)) k k'); [upd_fields|reflexivity|reflexivity|exact L].
Qed.

(** ** Iteration in pre-order *)
Definition alike (c d : context) : Prop :=
  pair_ok (cx_state c) (cx_state d) /\ live_keys (cx_stack c) = live_keys (cx_stack d)
  /\ Forall fit (cx_stack c) /\ Forall fit (cx_stack d) /\ cx_offsets c = cx_offsets d
  /\ cx_filter c = cx_filter d /\ cx_modified c = cx_modified d /\ cx_ancestors c = cx_ancestors d.
Lemma live_keys_cons k l : live_keys (k :: l) = if is_allocated (kn_state k) then live_key k :: live_keys l else live_keys l.
Proof. unfold live_keys. cbn [List.filter]. now destruct (is_allocated _). Qed.
Lemma live_keys_app k l : live_keys (k ++ l) = live_keys k ++ live_keys l.
Proof. unfold live_keys. now rewrite filter_app, map_app. Qed.
Lemma like_state k k' : live_key k = live_key k' -> is_allocated (kn_state k) = is_allocated (kn_state k').
Proof. intros L. apply live_fields in L as (_ & _ & _ & E & _). now rewrite E. Qed.
Lemma push_check_alike k k' c d : like k k' -> alike c d -> alike (push_check k c) (push_check k' d).
Proof.
  intros (L & F & F') (P & S & A & B & O & R). pose proof (live_fields _ _ L) as (EO & _). unfold push_check. rewrite <- EO, <- O.
  destruct (existsb _ _); [now repeat (split; [assumption|])|].
  split; [exact P|]. cbn [cx_stack cx_offsets cx_filter cx_modified cx_ancestors].
  split; [rewrite !live_keys_cons, <- (like_state _ _ L), S, L; reflexivity|].
  split; [now constructor|]. split; [now constructor|]. split; [congruence|exact R].
Qed.
Lemma fold_push_check cs cs' : likes cs cs' -> forall c d, alike c d ->
  alike (fold_left (fun cx k => push_check k cx) cs c) (fold_left (fun cx k => push_check k cx) cs' d).
Proof. induction 1 as [|k k' cs cs' L F IH]; intros c d A; [exact A|]. cbn [fold_left]. apply IH. now apply push_check_alike. Qed.
Lemma likes_rev cs cs' : likes cs cs' -> likes (rev cs) (rev cs').
Proof. induction 1; cbn [rev]; [constructor|]. apply Forall2_app; [assumption|now constructor]. Qed.
Lemma likes_len cs cs' : likes cs cs' -> len cs = len cs'.
Proof. intros F. unfold len. f_equal. induction F; cbn [length]; congruence. Qed.
Lemma push_dead l : forall c, Forall dead l -> fold_left (fun cx d => push d cx) l c = cx_set_stack (rev l ++ cx_stack c) c
  /\ live_keys (rev l ++ cx_stack c) = live_keys (cx_stack c) /\ Forall fit (rev l).
Proof.
  induction l as [|k l IH]; intros c F; cbn [fold_left rev app]; [split; [now destruct c|split; [reflexivity|constructor]]|].
  inversion F as [|? ? D F']; subst. destruct (IH (push k c) F') as (-> & E2 & E3). cbn [push cx_stack] in E2 |- *. rewrite <- app_assoc. cbn [app].
  split; [reflexivity|]. split.
  - rewrite live_keys_app in E2 |- *. rewrite live_keys_cons. destruct D as [D _]. rewrite D.
    rewrite <- live_keys_app. rewrite live_keys_app. rewrite live_keys_cons, D in E2. exact E2.
  - apply Forall_app. split; [exact E3|]. constructor; [now destruct D|constructor].
Qed.
(** A key that is not allocated leaves the live part alone. *)
Definition side (c c' : context) : Prop :=
  cx_state c' = cx_state c /\ live_keys (cx_stack c') = live_keys (cx_stack c) /\ (Forall fit (cx_stack c) -> Forall fit (cx_stack c'))
  /\ cx_offsets c' = cx_offsets c /\ cx_filter c' = cx_filter c /\ cx_modified c' = cx_modified c /\ cx_ancestors c' = cx_ancestors c.
Lemma dead_filter f k : dead k -> dead (kn_set_filter f k).
Proof. intros [A B]. now constructor. Qed.
Lemma visit_dead fi c k k' c' : is_allocated (kn_state k) = false -> fit k -> visit fi c k = Ok (k', c') ->
  kn_state k' = kn_state k /\ side c c'.
Proof.
  intros D F. unfold visit. set (x := if 0 <? kd_nsub (kn_detail k) then _ else _).
  assert (X : exists k1, x = Ok (k1, c) /\ kn_state k1 = kn_state k /\ kn_deleted k1 = kn_deleted k).
  { unfold x. destruct (0 <? _); [|now exists k]. unfold read_sub_keys_internal. rewrite D. cbv beta iota.
    exists (kn_set_to_return (w32 (len (@nil key_node))) k). cbn [rev fold_left]. split; [|now split].
    f_equal. f_equal. now destruct c. }
  destruct X as (k1 & -> & S1 & D1). cbv beta iota zeta. intros [= <- <-]. split; [exact S1|].
  assert (F1 : Forall dead (map (kn_set_filter (kn_filter k1)) (kn_deleted k1))).
  { rewrite D1. apply Forall_map. eapply Forall_impl; [|exact F]. intros; now apply dead_filter. }
  destruct (push_dead _ c F1) as (-> & E2 & E3). split; [reflexivity|]. split; [exact E2|]. split; [|now repeat split].
  intros FC. apply Forall_app. now split.
Qed.
Lemma visit_live fi c d k k' k1 k1' c1 d1 : like k k' -> alike c d ->
  visit fi c k = Ok (k1, c1) -> visit fi d k' = Ok (k1', d1) ->
  live_key k1 = live_key k1' /\ kn_state k1 = kn_state k /\ alike c1 d1.
Proof.
  intros L A. pose proof A as (P & _ & _ & _ & _ & EF & EM & _).
  pose proof (live_fields _ _ (proj1 L)) as (_ & ED & _). unfold visit.
  set (x := if 0 <? kd_nsub (kn_detail k) then _ else _). set (y := if 0 <? kd_nsub (kn_detail k') then _ else _).
  assert (X : match x, y with
    | Ok (n, c1), Ok (n', d1) => like n n' /\ kn_state n = kn_state k /\ alike c1 d1 | _, _ => True end).
  { unfold x, y. rewrite <- ED, <- EF, <- EM. destruct (0 <? _); [|split; [exact L|split; [reflexivity|exact A]]].
    pose proof (sub_keys_like fi (cx_filter c) None (cx_modified c) k k' _ _ L P) as R.
    destruct (read_sub_keys_internal fi (cx_state c) k (cx_filter c) None (cx_modified c)) as [[[[n cs] fd] s]| | |] eqn:RA; [|exact I..].
    destruct (read_sub_keys_internal fi (cx_state d) k' (cx_filter c) None (cx_modified c)) as [[[[n' cs'] fd'] s']| | |] eqn:RB; [|exact I..].
    destruct R as [R|[R|R]]; try discriminate R. destruct R as ((R1 & R2 & R3) & R4). cbn [fst snd] in *. cbv beta iota.
    split; [rewrite <- (likes_len _ _ R2); apply like_upd; [upd_fields|reflexivity|reflexivity|exact R1]|].
    split.
    - unfold read_sub_keys_internal in RA. destruct (is_allocated _) in RA; [|now injection RA as <- _ _ _].
      destruct (1048576 <? _) in RA; [now injection RA as <- _ _ _|]. destruct (0 <? _) in RA; [|now injection RA as <- _ _ _].
      destruct (parse_sub_key_list _ _ _) in RA; try discriminate; [|now injection RA as <- _ _ _].
      destruct (read_children _ _ _ _ _ _ _ _ _) as [[[[? ?] ?] ?]| | |] in RA; try discriminate. now injection RA as <- _ _ _.
    - apply fold_push_check; [now apply likes_rev|]. destruct A as (_ & A). split; [|exact A].
      exact (pair_next _ _ _ _ (read_sub_keys_state _ _ _ _ _ _ _ _ _ _ RA) (read_sub_keys_state _ _ _ _ _ _ _ _ _ _ RB) R4 P). }
  destruct x as [[n c2]| | |]; try discriminate. destruct y as [[n' d2]| | |]; try discriminate.
  destruct X as (Ln & Sn & An). cbv beta iota zeta. intros [= <- <-] [= <- <-].
  assert (F1 : Forall dead (map (kn_set_filter (kn_filter n)) (kn_deleted n))).
  { apply Forall_map. eapply Forall_impl; [|exact (proj1 (proj2 Ln))]. intros; now apply dead_filter. }
  assert (F2 : Forall dead (map (kn_set_filter (kn_filter n')) (kn_deleted n'))).
  { apply Forall_map. eapply Forall_impl; [|exact (proj2 (proj2 Ln))]. intros; now apply dead_filter. }
  destruct (push_dead _ c2 F1) as (-> & E2 & E3). destruct (push_dead _ d2 F2) as (-> & G2 & G3).
  split; [|split; [exact Sn|]].
  - destruct Ln as (Ln & _). apply live_iff in Ln as [L1 L2]. apply live_iff. split; [|exact L2].
    clear - L1. revert L1. generalize (map (kn_set_filter (kn_filter n)) (kn_deleted n)), (map (kn_set_filter (kn_filter n')) (kn_deleted n')).
    destruct n, n'. intros l l2 E. unfold fields in E |- *. cbn in E |- *. injection E. intros. subst. reflexivity.
  - destruct An as (B1 & B2 & B3 & B4 & B5). split; [exact B1|]. cbn [cx_set_stack cx_stack cx_offsets cx_filter cx_modified cx_ancestors].
    split; [congruence|]. split; [now apply Forall_app|]. split; [now apply Forall_app|exact B5].
Qed.

(** An iteration as a sequence of visits. *)
Definition returned (c : context) (k : key_node) : bool := cx_ancestors c || negb (f_is_valid (cx_filter c)) || is_match_or_desc k.
Inductive walk (fi : file_info) : context -> list key_node -> Prop :=
| walk_end c : cx_stack c = [] -> walk fi c []
| walk_step c k rest k' c' ks : cx_stack c = k :: rest -> visit fi (cx_set_stack rest c) k = Ok (k', c') -> walk fi c' ks ->
    walk fi c (if returned c' k' then k' :: ks else ks).
Lemma next_walk fi : forall fuel c o c', next_key_preorder fuel fi c = Ok (o, c') ->
  match o with
  | None => walk fi c []
  | Some k => forall ks, walk fi c' ks -> walk fi c (k :: ks)
  end.
Proof.
  induction fuel as [|fuel IH]; intros c o c'; [discriminate|]. cbn [next_key_preorder].
  destruct (cx_stack c) as [|k rest] eqn:S; [intros [= <- <-]; now constructor|].
  destruct (visit fi (cx_set_stack rest c) k) as [[k' c2]| | |] eqn:V; try discriminate. cbv beta iota.
  change (cx_ancestors c2 || negb (f_is_valid (cx_filter c2)) || is_match_or_desc k') with (returned c2 k').
  destruct (returned c2 k') eqn:R.
  - intros [= <- <-] ks W. pose proof (walk_step fi c k rest k' c2 ks S V W) as X. now rewrite R in X.
  - intros N. apply IH in N. destruct o as [q|].
    + intros ks W. apply N in W. pose proof (walk_step fi c k rest k' c2 _ S V W) as X. now rewrite R in X.
    + pose proof (walk_step fi c k rest k' c2 _ S V N) as X. now rewrite R in X.
Qed.
Lemma collect_walk fi : forall fuel c ks, collect false fuel fi c = Ok ks -> walk fi c ks.
Proof.
  induction fuel as [|fuel IH]; intros c ks; [discriminate|]. cbn [collect].
  destruct (next_key_preorder (S fuel) fi c) as [[o c1]| | |] eqn:E; try discriminate. cbv beta iota. apply next_walk in E.
  destruct o as [k|]; [|intros [= <-]; exact E].
  destruct (collect false fuel fi c1) as [r| | |] eqn:R; try discriminate. intros [= <-]. apply E. now apply IH.
Qed.
Lemma cons_eq {A} (x y : A) l m : x :: l = y :: m -> x = y /\ l = m.
Proof. now intros [= -> ->]. Qed.
Lemma alike_pop c d k k' rest rest' : alike c d -> cx_stack c = k :: rest -> cx_stack d = k' :: rest' ->
  is_allocated (kn_state k) = true -> is_allocated (kn_state k') = true -> like k k' /\ alike (cx_set_stack rest c) (cx_set_stack rest' d).
Proof.
  intros (P & S & A & B & R) Ec Ed K K'. rewrite Ec in S, A. rewrite Ed in S, B. rewrite !live_keys_cons, K, K' in S. apply cons_eq in S as [S1 S2].
  inversion A; subst. inversion B; subst. split; [split; [exact S1|now split]|].
  split; [exact P|]. split; [exact S2|]. split; [assumption|]. split; [assumption|exact R].
Qed.
Lemma side_alike_l c c' d : side c c' -> alike c d -> alike c' d.
Proof.
  intros (A1 & A2 & A3 & A4 & A5 & A6 & A7) (B1 & B2 & B3 & B4 & B5 & B6 & B7 & B8). unfold alike. rewrite A1, A2, A4, A5, A6, A7. auto 10.
Qed.
Lemma alike_sym c d : alike c d -> alike d c.
Proof.
  intros ((A & D & D') & B2 & B3 & B4 & B5 & B6 & B7 & B8). split; [split; [|now split]|auto 10].
  destruct A as (A1 & A2 & A3 & _). split; [now symmetry|]. split; [now symmetry|]. split; [now symmetry|discriminate].
Qed.
Lemma pop_side c k rest : cx_stack c = k :: rest -> is_allocated (kn_state k) = false -> side c (cx_set_stack rest c).
Proof.
  intros E D. split; [reflexivity|]. cbn [cx_set_stack cx_stack]. rewrite E, live_keys_cons, D. split; [reflexivity|].
  split; [now inversion 1|now repeat split].
Qed.
Lemma side_trans a b c : side a b -> side b c -> side a c.
Proof. intros (A1 & A2 & A3 & A4 & A5 & A6 & A7) (B1 & B2 & B3 & B4 & B5 & B6 & B7). unfold side. rewrite B1, B2, B4, B5, B6, B7. auto 10. Qed.
Lemma dead_step fi c k rest k' c' ks : Forall fit (cx_stack c) -> cx_stack c = k :: rest -> is_allocated (kn_state k) = false ->
  visit fi (cx_set_stack rest c) k = Ok (k', c') ->
  side c c' /\ live_keys (if returned c' k' then k' :: ks else ks) = live_keys ks.
Proof.
  intros F E D V. assert (FK : fit k) by (rewrite E in F; now inversion F).
  apply (visit_dead fi _ _ _ _ D FK) in V as (V1 & V2). split; [exact (side_trans _ _ _ (pop_side _ _ _ E D) V2)|].
  destruct (returned c' k'); [|reflexivity]. now rewrite live_keys_cons, V1, D.
Qed.
Lemma walks_alike fi c ks : walk fi c ks -> forall d ks', walk fi d ks' -> alike c d -> live_keys ks = live_keys ks'.
Proof.
  induction 1 as [c E|c k rest k' c' ks E V W IH]; intros d ks' W' A.
  - induction W' as [d E'|d q rq q' d' ks' E' V' W' IH']; [reflexivity|].
    pose proof A as (_ & S & _ & FD & _). destruct (is_allocated (kn_state q)) eqn:D.
    + rewrite E, E', live_keys_cons, D in S. discriminate S.
    + destruct (dead_step fi d q rq q' d' ks' FD E' D V') as (SD & ->). apply IH'. apply alike_sym, (side_alike_l d); [exact SD|now apply alike_sym].
  - destruct (is_allocated (kn_state k)) eqn:D.
    + induction W' as [d E'|d q rq q' d' ks' E' V' W' IH'].
      * pose proof A as (_ & S & _). rewrite E, E', live_keys_cons, D in S. discriminate S.
      * destruct (is_allocated (kn_state q)) eqn:D'.
        -- destruct (alike_pop c d k q rest rq A E E' D D') as (L & A').
           destruct (visit_live fi _ _ k q k' q' c' d' L A' V V') as (L1 & S1 & A1).
           specialize (IH d' ks' W' A1).
           assert (R : returned d' q' = returned c' k').
           { destruct A1 as (_ & _ & _ & _ & _ & G1 & _ & G2). unfold returned, is_match_or_desc. rewrite G1, G2.
             apply live_fields in L1 as (_ & _ & _ & _ & _ & G3). now rewrite G3. }
           rewrite R. destruct (returned c' k'); [|exact IH]. rewrite !live_keys_cons, <- (like_state _ _ L1), S1, D, L1, IH. reflexivity.
        -- pose proof A as (_ & _ & _ & FD & _). destruct (dead_step fi d q rq q' d' ks' FD E' D' V') as (SD & ->).
           apply IH'. apply alike_sym, (side_alike_l d); [exact SD|now apply alike_sym].
    + pose proof A as (_ & _ & FC & _). destruct (dead_step fi c k rest k' c' ks FC E D V) as (SC & ->).
      apply (IH d ks' W'). now apply (side_alike_l c).
Qed.
