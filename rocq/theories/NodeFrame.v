(** Which parts of the parse state the readers of cells depend on and change. *)
From Verif Require Import Base BaseFacts Util BaseBlock Types Value Node Recover Parser.

(** ** Only the cached root offset ever changes *)
Definition root_only (st st' : state) : Prop := st' = set_root_offset (st_root_offset st') st.
Lemma root_only_refl st : root_only st st. Proof. now destruct st. Qed.
Lemma root_only_trans a b c : root_only a b -> root_only b c -> root_only a c.
Proof. unfold root_only. intros -> ->. reflexivity. Qed.
#[export] Hint Resolve root_only_refl : core.

Lemma root_path_offset_state st p o st' : st_get_root_path_offset st p = (o, st') -> root_only st st'.
Proof.
  unfold st_get_root_path_offset. destruct (_ =? 0); intros [= _ <-]; [reflexivity|auto].
Qed.
Lemma check_cell_state f st k fl st' : check_cell f st k = Ok (fl, st') -> root_only st st'.
Proof.
  unfold check_cell. destruct f as [q|]; [|intros [= _ <-]; auto].
  destruct (_ && _); [intros [= _ <-]; auto|].
  destruct (st_get_root_path_offset _ _) as [o s] eqn:E. apply root_path_offset_state in E.
  destruct (check_key_match _ _ _); try discriminate. now intros [= _ <-].
Qed.
Lemma read_from_slice_state fi st slice o k st' :
  read_from_slice fi st slice o = Ok (k, st') -> root_only st st'.
Proof.
  unfold read_from_slice. destruct (kn_from_bytes _ _ _ _ _) as [[n r]| | |]; try discriminate.
  cbv beta iota.
  destruct (match op_filter o with Some f => _ | None => _ end) as [[fl s]| | |] eqn:F; try discriminate.
  assert (S : root_only st s).
  { destruct (op_filter o); [now apply check_cell_state in F|]. injection F as _ <-. auto. }
  cbv beta iota. destruct fl.
  { now intros [= _ <-]. }
  all: destruct (if _ && _ then _ else _) as [n1| | |]; try discriminate; cbv beta iota;
    destruct (if op_modified o then _ else _); try discriminate; now intros [= _ <-].
Qed.
Lemma kn_read_state fi st o k st' : kn_read fi st o = Ok (k, st') -> root_only st st'.
Proof.
  unfold kn_read. destruct (get_from _ _); cbn [ok_or]; [|discriminate]. apply read_from_slice_state.
Qed.
Lemma read_children_state fi path sm f sf seq m offs st cs b l st' :
  read_children fi st path sm f sf seq m offs = Ok (cs, b, l, st') -> root_only st st'.
Proof.
  revert st cs b l st'. induction offs as [|o r IH]; intros st cs b l st'; cbn [read_children].
  { intros [= _ _ _ <-]. auto. }
  destruct (kn_read fi st _) as [[[c|] s]| | |] eqn:E; try discriminate.
  - apply kn_read_state in E. destruct (read_children fi s _ _ _ _ _ _ r) as [[[[? ?] ?] ?]| | |] eqn:R; try discriminate.
    apply IH in R. intros [= _ _ _ <-]. eapply root_only_trans; eassumption.
  - apply kn_read_state in E. intros R. apply IH in R. eapply root_only_trans; eassumption.
  - destruct (read_children fi st _ _ _ _ _ _ r) as [[[[? ?] ?] ?]| | |] eqn:R; try discriminate.
    apply IH in R. now intros [= _ _ _ <-].
Qed.
Lemma read_sub_keys_state fi st k f seq m k' cs b st' :
  read_sub_keys_internal fi st k f seq m = Ok (k', cs, b, st') -> root_only st st'.
Proof.
  unfold read_sub_keys_internal. destruct (is_allocated _); [|intros [= _ _ _ <-]; auto].
  destruct (_ <? _); [intros [= _ _ _ <-]; auto|]. destruct (_ <? _); [|intros [= _ _ _ <-]; auto].
  destruct (parse_sub_key_list _ _ _); try discriminate; [|intros [= _ _ _ <-]; auto].
  destruct (read_children _ _ _ _ _ _ _ _ _) as [[[[? ?] ?] ?]| | |] eqn:R; try discriminate.
  apply read_children_state in R. now intros [= _ _ _ <-].
Qed.

(** ** What the result depends on *)
Definition maps_eq (a b : state) : Prop :=
  st_deleted_keys a = st_deleted_keys b /\ st_modified_keys a = st_modified_keys b
  /\ st_deleted_values a = st_deleted_values b /\ st_modified_values a = st_modified_values b.
Definition agree (m : bool) (a b : state) : Prop :=
  st_root_offset a = st_root_offset b /\ st_full a = st_full b /\ st_hasher a = st_hasher b
  /\ (m = true -> maps_eq a b).
Definition same {A} (m : bool) (r r' : res (A * state)) : Prop :=
  match r, r' with
  | Ok (a, s), Ok (a', s') => a = a' /\ agree m s s'
  | Err, Err | Panic, Panic | OutOfFuel, OutOfFuel => True
  | _, _ => False
  end.
Lemma agree_refl m a : agree m a a. Proof. repeat split. Qed.
Lemma agree_set m a b o : agree m a b -> agree m (set_root_offset o a) (set_root_offset o b).
Proof. intros (? & ? & ? & M). repeat split; cbn; try tauto. all: intros; now apply M. Qed.

Lemma kn_from_bytes_agree m a b i off p seq : agree m a b ->
  kn_from_bytes a i off p seq = kn_from_bytes b i off p seq.
Proof.
  intros (_ & F & H & _). unfold kn_from_bytes, kn_hash_of. now rewrite F, H.
Qed.
Lemma read_value_bytes_agree m a b fi v : agree m a b -> read_value_bytes fi a v = read_value_bytes fi b v.
Proof. intros (_ & F & H & _). unfold read_value_bytes, kv_hash_of. now rewrite H. Qed.
Lemma read_values_loop_agree m a b fi seq offs acc : agree m a b ->
  read_values_loop fi a seq offs acc = read_values_loop fi b seq offs acc.
Proof.
  intros A. revert acc. induction offs as [|v r IH]; intros acc; cbn [read_values_loop]; [reflexivity|].
  destruct (get_at _ _); [|reflexivity]. destruct (get_from _ _); [|reflexivity].
  destruct A as (R & F & H & M). rewrite F. destruct (kv_from_bytes _ _ _ _) as [[x ?]| | |]; try reflexivity.
  rewrite (read_value_bytes_agree m a b) by (repeat split; assumption || apply M; assumption). apply IH.
Qed.
Lemma read_values_agree m a b fi seq k : agree m a b ->
  read_values fi a seq k = read_values fi b seq k.
Proof.
  intros A. unfold read_values. destruct (_ && _); [|reflexivity]. destruct (_ <? _); [reflexivity|].
  destruct (parse_key_values _ _ _); [|reflexivity]. now rewrite (read_values_loop_agree m a b).
Qed.
Lemma uml_agree fuel a b k : maps_eq a b -> update_modified_lists fuel a k = update_modified_lists fuel b k.
Proof.
  intros (D & M & DV & MV). revert k. induction fuel as [|fuel IH]; intros k; [reflexivity|].
  cbn [update_modified_lists]. rewrite D, M, DV, MV.
  destruct (is_deleted_primary_file _); [reflexivity|].
  destruct (aget beq (lookup_path k) (st_deleted_keys b)) as [dks|]; [|reflexivity].
  f_equal.
  assert (G : forall l, (fix go (dks : list key_node) : res (list key_node) :=
                   match dks with
                   | [] => Ok []
                   | dk :: r =>
                       let* dk' :=
                         if kn_offset dk =? kn_offset k then Ok dk
                         else update_modified_lists fuel a dk in
                       let* r' := go r in
                       Ok (dk' :: r')
                   end) l =
               (fix go (dks : list key_node) : res (list key_node) :=
                   match dks with
                   | [] => Ok []
                   | dk :: r =>
                       let* dk' :=
                         if kn_offset dk =? kn_offset k then Ok dk
                         else update_modified_lists fuel b dk in
                       let* r' := go r in
                       Ok (dk' :: r')
                   end) l).
  { induction l as [|x l IHl]; [reflexivity|]. rewrite IHl, IH. reflexivity. }
  now rewrite G.
Qed.
Lemma check_cell_agree m a b f k : agree m a b -> same m (check_cell f a k) (check_cell f b k).
Proof.
  intros A. unfold check_cell. destruct f as [q|]; [|now split].
  destruct (_ && _); [now split|]. unfold st_get_root_path_offset.
  destruct A as (R & A). rewrite R. destruct (_ =? 0).
  - destruct (check_key_match _ _ _); try exact I. split; [reflexivity|].
    apply agree_set. now split.
  - destruct (check_key_match _ _ _); try exact I. split; [reflexivity|]. now split.
Qed.
Lemma read_from_slice_agree m a b fi slice o : op_modified o = m -> agree m a b ->
  same m (read_from_slice fi a slice o) (read_from_slice fi b slice o).
Proof.
  intros OM A. unfold read_from_slice. rewrite (kn_from_bytes_agree m a b) by assumption.
  destruct (kn_from_bytes b slice _ _ _) as [[k r]| | |]; try exact I. cbv beta iota.
  assert (F : same m match op_filter o with Some f => check_cell f a k | None => Ok (IterateKeys, a) end
                     match op_filter o with Some f => check_cell f b k | None => Ok (IterateKeys, b) end).
  { destruct (op_filter o); [now apply check_cell_agree|now split]. }
  destruct (match op_filter o with Some f => check_cell f a k | None => _ end) as [[fl s]| | |],
           (match op_filter o with Some f => check_cell f b k | None => _ end) as [[fl' s']| | |];
    try contradiction; try exact I.
  destruct F as [<- F]. cbv beta iota.
  assert (V : forall k, read_values fi s (op_seq o) k = read_values fi s' (op_seq o) k).
  { intros. now apply (read_values_agree m). }
  rewrite V.
  assert (U : forall k, (if op_modified o then update_modified_lists (uml_fuel s) s k else Ok k) =
                   (if op_modified o then update_modified_lists (uml_fuel s') s' k else Ok k)).
  { intros n. destruct (op_modified o) eqn:E; [|reflexivity]. subst m.
    destruct F as (_ & _ & _ & M). specialize (M eq_refl). rewrite (uml_agree _ s s') by assumption.
    unfold uml_fuel. destruct M as [-> _]. reflexivity. }
  destruct fl.
  { now split. }
  all: destruct (if _ && _ then _ else _) as [n1| | |]; try exact I; cbv beta iota; rewrite U;
    destruct (if op_modified o then _ else _); try exact I; now split.
Qed.
Lemma kn_read_agree m a b fi o : op_modified o = m -> agree m a b ->
  same m (kn_read fi a o) (kn_read fi b o).
Proof.
  intros OM A. unfold kn_read. destruct (get_from _ _); [|exact I]. cbn [ok_or].
  now apply read_from_slice_agree.
Qed.
Lemma read_children_agree m fi path sm f sf seq offs a b : agree m a b ->
  same m (read_children fi a path sm f sf seq m offs) (read_children fi b path sm f sf seq m offs).
Proof.
  revert a b. induction offs as [|o r IH]; intros a b A; cbn [read_children]; [now split|].
  pose proof (kn_read_agree m a b fi (mkOpt o path sf sm seq m) eq_refl A) as K.
  destruct (kn_read fi a _) as [[c s]| | |], (kn_read fi b _) as [[c' s']| | |]; try contradiction; try exact I.
  - destruct K as [<- K]. destruct c as [c|].
    + specialize (IH s s' K).
      destruct (read_children fi s _ _ _ _ _ _ _) as [[[[? ?] ?] ?]| | |],
               (read_children fi s' _ _ _ _ _ _ _) as [[[[? ?] ?] ?]| | |]; try contradiction; try exact I.
      destruct IH as [[= <- <- <-] ?]. now split.
    + now apply IH.
  - specialize (IH a b A).
    destruct (read_children fi a _ _ _ _ _ _ _) as [[[[? ?] ?] ?]| | |],
             (read_children fi b _ _ _ _ _ _ _) as [[[[? ?] ?] ?]| | |]; try contradiction; try exact I.
    destruct IH as [[= <- <- <-] ?]. now split.
Qed.
Lemma read_sub_keys_agree m fi k f seq a b : agree m a b ->
  same m (read_sub_keys_internal fi a k f seq m) (read_sub_keys_internal fi b k f seq m).
Proof.
  intros A. unfold read_sub_keys_internal. destruct (is_allocated _); [|now split].
  destruct (_ <? _); [now split|]. destruct (_ <? _); [|now split].
  destruct (parse_sub_key_list _ _ _); try exact I; [|now split].
  match goal with |- context [read_children fi a ?p ?s ?g ?h ?q m ?o] =>
    pose proof (read_children_agree m fi p s g h q o a b A) as C;
    destruct (read_children fi a p s g h q m o) as [[[[? ?] ?] ?]| | |],
             (read_children fi b p s g h q m o) as [[[[? ?] ?] ?]| | |]; try contradiction; try exact I
  end.
  destruct C as [[= <- <- <-] ?]. now split.
Qed.

(** ** Iteration *)
Definition cx_agree (c d : context) : Prop :=
  agree (cx_modified c) (cx_state c) (cx_state d) /\ d = cx_set_state (cx_state d) c.
Definition same_cx {A} (r r' : res (A * context)) : Prop :=
  match r, r' with
  | Ok (a, c), Ok (a', c') => a = a' /\ cx_agree c c'
  | Err, Err | Panic, Panic | OutOfFuel, OutOfFuel => True
  | _, _ => False
  end.
Lemma cx_agree_stack c d s : cx_agree c d -> cx_agree (cx_set_stack s c) (cx_set_stack s d).
Proof. intros [A ->]. split; [exact A|reflexivity]. Qed.
Lemma cx_agree_return c d s : cx_agree c d -> cx_agree (cx_set_return s c) (cx_set_return s d).
Proof. intros [A ->]. split; [exact A|reflexivity]. Qed.
Lemma push_check_agree k c d : cx_agree c d -> cx_agree (push_check k c) (push_check k d).
Proof.
  intros [A ->]. unfold push_check. cbn [cx_set_state cx_offsets]. destruct (existsb _ _); split; try exact A; reflexivity.
Qed.
Lemma push_agree k c d : cx_agree c d -> cx_agree (push k c) (push k d).
Proof. intros [A ->]. split; [exact A|reflexivity]. Qed.
Lemma fold_agree (g : context -> key_node -> context) l c d :
  (forall k c d, cx_agree c d -> cx_agree (g c k) (g d k)) ->
  cx_agree c d -> cx_agree (fold_left g l c) (fold_left g l d).
Proof. intros G. revert c d. induction l; intros c d A; cbn [fold_left]; auto. Qed.
Lemma visit_agree fi c d k : cx_agree c d -> same_cx (visit fi c k) (visit fi d k).
Proof.
  intros A. unfold visit.
  assert (S : same_cx
   (if 0 <? kd_nsub (kn_detail k) then
      let* (node, cs, _, st) :=
        read_sub_keys_internal fi (cx_state c) k (cx_filter c) None (cx_modified c) in
      Ok (kn_set_to_return (w32 (len cs)) node,
          fold_left (fun cx c => push_check c cx) (rev cs) (cx_set_state st c))
    else Ok (k, c))
   (if 0 <? kd_nsub (kn_detail k) then
      let* (node, cs, _, st) :=
        read_sub_keys_internal fi (cx_state d) k (cx_filter d) None (cx_modified d) in
      Ok (kn_set_to_return (w32 (len cs)) node,
          fold_left (fun cx c => push_check c cx) (rev cs) (cx_set_state st d))
    else Ok (k, d))).
  { destruct (_ <? _); [|now split]. destruct A as [A E]. rewrite E. cbn [cx_set_state cx_filter cx_modified cx_state].
    pose proof (read_sub_keys_agree (cx_modified c) fi k (cx_filter c) None _ _ A) as R.
    destruct (read_sub_keys_internal fi (cx_state c) _ _ _ _) as [[[[n cs] ?] s]| | |],
             (read_sub_keys_internal fi (cx_state d) _ _ _ _) as [[[[n' cs'] ?] s']| | |]; try contradiction; try exact I.
    destruct R as [[= <- <- <-] R]. split; [reflexivity|].
    apply fold_agree; [intros; now apply push_check_agree|]. split; [exact R|reflexivity]. }
  destruct (if _ <? _ then _ else _) as [[n c1]| | |] in S |- *; 
  destruct (if _ <? _ then _ else _) as [[n' c1']| | |] in S |- *; try contradiction; try exact I.
  destruct S as [<- S]. split; [reflexivity|]. apply fold_agree; [|exact S].
  intros. now apply push_agree.
Qed.
Lemma next_pre_agree fuel fi c d : cx_agree c d ->
  same_cx (next_key_preorder fuel fi c) (next_key_preorder fuel fi d).
Proof.
  revert c d. induction fuel as [|fuel IH]; intros c d A; [exact I|]. cbn [next_key_preorder].
  replace (cx_stack d) with (cx_stack c) by now destruct A as [_ ->].
  destruct (cx_stack c) as [|n r]; [now split|].
  pose proof (visit_agree fi _ _ n (cx_agree_stack _ _ r A)) as V.
  destruct (visit fi (cx_set_stack r c) n) as [[x cx]| | |], (visit fi (cx_set_stack r d) n) as [[y cy]| | |];
    try contradiction; try exact I.
  destruct V as [<- V].
  replace (cx_ancestors cy) with (cx_ancestors cx) by now destruct V as [_ ->].
  replace (cx_filter cy) with (cx_filter cx) by now destruct V as [_ ->].
  destruct (_ || _); [now split|]. now apply IH.
Qed.
Lemma next_post_agree fuel fi c d : cx_agree c d ->
  same_cx (next_key_postorder fuel fi c) (next_key_postorder fuel fi d).
Proof.
  revert c d. induction fuel as [|fuel IH]; intros c d A; [exact I|]. cbn [next_key_postorder].
  replace (cx_stack d) with (cx_stack c) by now destruct A as [_ ->].
  replace (cx_return d) with (cx_return c) by now destruct A as [_ ->].
  destruct (cx_stack c) as [|n r].
  { destruct (cx_return c) as [|t s]; [now split|]. cbn [cx_set_return cx_ancestors].
    replace (cx_ancestors d) with (cx_ancestors c) by now destruct A as [_ ->].
    destruct (_ || _); (split; [reflexivity|]); now apply cx_agree_return. }
  assert (ST : same_cx
     (let* (node, cx) := visit fi (cx_set_stack r c) n in
            let ret :=
              match cx_return cx with
              | [] => []
              | last :: r => kn_set_track (kn_track last + 1) last :: r
              end in
            next_key_postorder fuel fi (cx_set_return (node :: ret) cx))
     (let* (node, cx) := visit fi (cx_set_stack r d) n in
            let ret :=
              match cx_return cx with
              | [] => []
              | last :: r => kn_set_track (kn_track last + 1) last :: r
              end in
            next_key_postorder fuel fi (cx_set_return (node :: ret) cx))).
  { pose proof (visit_agree fi _ _ n (cx_agree_stack _ _ r A)) as V.
    destruct (visit fi (cx_set_stack r c) n) as [[x cx]| | |], (visit fi (cx_set_stack r d) n) as [[y cy]| | |];
      try contradiction; try exact I.
    destruct V as [<- V]. cbv zeta.
    replace (cx_return cy) with (cx_return cx) by now destruct V as [_ ->].
    apply IH. now apply cx_agree_return. }
  destruct (cx_return c) as [|t s]; [exact ST|].
  destruct (_ =? _); [|exact ST]. split; [reflexivity|]. now apply cx_agree_return.
Qed.
Lemma collect_agree post fuel fi c d : cx_agree c d -> collect post fuel fi c = collect post fuel fi d.
Proof.
  revert c d. induction fuel as [|fuel IH]; intros c d A; [reflexivity|]. cbn [collect].
  assert (N : same_cx ((if post then next_key_postorder else next_key_preorder) (S fuel) fi c)
                      ((if post then next_key_postorder else next_key_preorder) (S fuel) fi d)).
  { destruct post; [now apply next_post_agree|now apply next_pre_agree]. }
  destruct ((if post then _ else _) (S fuel) fi c) as [[o x]| | |],
           ((if post then _ else _) (S fuel) fi d) as [[o' y]| | |]; try contradiction; try reflexivity.
  destruct N as [<- N]. destruct o; [|reflexivity]. now rewrite (IH _ _ N).
Qed.
(** Two parsers over the same bytes, whose states agree and which have the
    same root, are iterated alike. *)
Lemma iterate_agree fuel p q f anc m post :
  ps_file p = ps_file q -> ps_root p = ps_root q -> agree m (ps_state p) (ps_state q) ->
  iterate fuel p f anc m post = iterate fuel q f anc m post.
Proof.
  intros F R A. unfold iterate. rewrite F. apply collect_agree. unfold from_parser. rewrite R.
  split; [exact A|reflexivity].
Qed.
Lemma get_root_key_agree p q : ps_file p = ps_file q -> ps_base_block p = ps_base_block q ->
  agree true (ps_state p) (ps_state q) ->
  match get_root_key p, get_root_key q with
  | Ok (k, p'), Ok (k', q') =>
      k = k' /\ agree true (ps_state p') (ps_state q') /\ ps_file p' = ps_file p /\ ps_file q' = ps_file q
  | Err, Err | Panic, Panic | OutOfFuel, OutOfFuel => True
  | _, _ => False
  end.
Proof.
  intros F B A. unfold get_root_key, ps_hbin. rewrite <- B, <- F. destruct (ps_base_block p).
  2:{ split; [reflexivity|]. split; [exact A|]. split; [reflexivity|congruence]. }
  match goal with |- context [kn_read ?fi (ps_state p) ?o] =>
    pose proof (kn_read_agree true _ _ fi o eq_refl A) as K;
    destruct (kn_read fi (ps_state p) o) as [[? ?]| | |], (kn_read fi (ps_state q) o) as [[? ?]| | |];
    try contradiction; try exact I end.
  destruct K as [<- K]. split; [reflexivity|]. split; [exact K|]. split; [reflexivity|]. symmetry. exact F.
Qed.
