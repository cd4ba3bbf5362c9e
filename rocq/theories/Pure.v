(** Look-ups change nothing but the cached length of the root's part of the
    paths, and iteration without a filter does not depend on it. *)
From Verif Require Import Base BaseFacts Util UtilSpec BaseBlock Types Value Node Recover Parser NodeFrame.

(** ** Calls of the API that can change the parser *)
(** Any history of them; [ok] says which keys are passed in. *)
Inductive used (ok : key_node -> Prop) (p : parser) : parser -> Prop :=
| used_not : used ok p p
| used_root p1 p2 k : used ok p p1 -> get_root_key p1 = Ok (k, p2) -> used ok p p2
| used_key p1 p2 fuel path has_root k : used ok p p1 -> get_key fuel p1 path has_root = Ok (k, p2) -> used ok p p2
| used_sub_key p1 p2 parent name k : used ok p p1 -> ok parent -> get_sub_key p1 parent name = Ok (k, p2) -> used ok p p2
| used_parent p1 p2 child k : used ok p p1 -> ok child -> get_parent_key p1 child = Ok (k, p2) -> used ok p p2
| used_sub_keys p1 parent k ks st : used ok p p1 -> ok parent ->
    read_sub_keys (ps_file p1) (ps_state p1) parent = Ok (k, ks, st) -> used ok p (ps_set_state st p1)
| used_by_path p1 fuel parent path k st : used ok p p1 -> ok parent ->
    get_sub_key_by_path fuel (ps_file p1) (ps_state p1) parent path = Ok (k, st) -> used ok p (ps_set_state st p1)
| used_by_index p1 parent i k c st : used ok p p1 -> ok parent ->
    get_sub_key_by_index (ps_file p1) (ps_state p1) parent i = Ok (k, c, st) -> used ok p (ps_set_state st p1)
| used_next p1 parent k c st : used ok p p1 -> ok parent ->
    next_sub_key (ps_file p1) (ps_state p1) parent = Ok (k, c, st) -> used ok p (ps_set_state st p1).

Lemma gsk_state fi f seq : forall fuel st k o st', get_sub_key_internal fuel fi st k f seq = Ok (o, st') -> root_only st st'.
Proof.
  induction fuel as [|fuel IH]; intros st k o st'; [discriminate|]. cbn [get_sub_key_internal].
  destruct (read_sub_keys_internal fi st k f seq false) as [[[[n cs] found] s]| | |] eqn:E; try discriminate.
  apply read_sub_keys_state in E. cbv beta iota. destruct found; [intros [= _ <-]; exact E|].
  revert s E. induction cs as [|c r I]; intros s E; [intros [= _ <-]; exact E|].
  destruct (get_sub_key_internal fuel fi s c f seq) as [[o2 s2]| | |] eqn:G; try discriminate. apply IH in G.
  assert (E2 : root_only st s2) by (eapply root_only_trans; eassumption).
  cbv beta iota. destruct o2; [intros [= _ <-]; exact E2|]. now apply I.
Qed.
Lemma by_path_state fuel fi st k path o st' : get_sub_key_by_path fuel fi st k path = Ok (o, st') -> root_only st st'.
Proof. unfold get_sub_key_by_path. destruct path; [intros [= _ <-]; auto|]. apply gsk_state. Qed.
Definition moved (p p' : parser) : Prop := exists st, p' = ps_set_state st p /\ root_only (ps_state p) st.
Lemma moved_refl p : moved p p. Proof. exists (ps_state p). split; [now destruct p|auto]. Qed.
Lemma moved_trans a b c : moved a b -> moved b c -> moved a c.
Proof. intros (s & -> & R) (s2 & -> & R2). exists s2. split; [reflexivity|]. cbn in R2. eapply root_only_trans; eassumption. Qed.
Lemma root_key_moved p k p' : get_root_key p = Ok (k, p') -> moved p p'.
Proof.
  unfold get_root_key. destruct (ps_base_block p); [|intros [= _ <-]; apply moved_refl].
  destruct (kn_read _ _ _) as [[r s]| | |] eqn:E; try discriminate. apply kn_read_state in E. intros [= _ <-]. now exists s.
Qed.
Lemma by_index_state fi st k i k' c st' : get_sub_key_by_index fi st k i = Ok (k', c, st') -> root_only st st'.
Proof.
  unfold get_sub_key_by_index. destruct (_ <? _); [|intros [= _ _ <-]; auto].
  destruct (parse_sub_key_list _ _ _); try discriminate; [|intros [= _ _ <-]; auto].
  destruct (get_at _ _); [|intros [= _ _ <-]; auto].
  destruct (kn_read _ _ _) as [[c2 s]| | |] eqn:E; try discriminate; [|intros [= _ _ <-]; auto].
  apply kn_read_state in E. now intros [= _ _ <-].
Qed.
Lemma get_key_moved fuel p path hr k p' : get_key fuel p path hr = Ok (k, p') -> moved p p'.
Proof.
  unfold get_key. intros E. destruct (get_root_key p) as [[[r|] p3]| | |] eqn:G; try discriminate.
  - apply root_key_moved in G. eapply moved_trans; [exact G|].
    destruct (get_sub_key_by_path _ _ _ _ _) as [[o s]| | |] eqn:B; try discriminate. apply by_path_state in B.
    injection E as _ <-. now exists s.
  - injection E as _ <-. now apply root_key_moved in G.
  - injection E as _ <-. apply moved_refl.
Qed.
Lemma get_sub_key_moved p parent name k p' : get_sub_key p parent name = Ok (k, p') -> moved p p'.
Proof.
  unfold get_sub_key. intros E. destruct (st_get_root_path_offset _ _) as [o s] eqn:R.
  apply root_path_offset_state in R. destruct (str_from _ _); try discriminate. cbv beta iota zeta in E.
  destruct (read_sub_keys_internal _ _ _ _ _ _) as [[[[n cs] found] s2]| | |] eqn:G; try discriminate.
  apply read_sub_keys_state in G. injection E as _ <-. exists s2. split; [reflexivity|]. eapply root_only_trans; eassumption.
Qed.
Lemma get_parent_moved p child k p' : get_parent_key p child = Ok (k, p') -> moved p p'.
Proof.
  unfold get_parent_key. intros E. cbv zeta in E.
  destruct (kn_read _ _ _) as [[r s]| | |] eqn:G; try discriminate. apply kn_read_state in G. injection E as _ <-. now exists s.
Qed.
Lemma read_sub_keys_state' fi st k k' ks st' : read_sub_keys fi st k = Ok (k', ks, st') -> root_only st st'.
Proof.
  unfold read_sub_keys. destruct (read_sub_keys_internal _ _ _ _ _ _) as [[[[n cs] found] s2]| | |] eqn:G; try discriminate.
  apply read_sub_keys_state in G. now intros [= _ _ <-].
Qed.
Lemma next_sub_key_state fi st k k' c st' : next_sub_key fi st k = Ok (k', c, st') -> root_only st st'.
Proof.
  unfold next_sub_key. destruct (get_sub_key_by_index _ _ _ _) as [[[n [c2|]] s2]| | |] eqn:G; try discriminate;
  apply by_index_state in G; now intros [= _ _ <-].
Qed.
Lemma used_moved ok p p' : used ok p p' -> moved p p'.
Proof.
  induction 1 as [|p1 p2 k U IH E|p1 p2 fuel path hr k U IH E|p1 p2 parent name k U IH KO E|p1 p2 child k U IH KO E
    |p1 parent k ks st U IH KO E|p1 fuel parent path k st U IH KO E|p1 parent i k c st U IH KO E|p1 parent k c st U IH KO E].
  - apply moved_refl.
  - eapply moved_trans; [exact IH|]. now apply root_key_moved in E.
  - eapply moved_trans; [exact IH|]. now apply get_key_moved in E.
  - eapply moved_trans; [exact IH|]. now apply get_sub_key_moved in E.
  - eapply moved_trans; [exact IH|]. now apply get_parent_moved in E.
  - eapply moved_trans; [exact IH|]. apply read_sub_keys_state' in E. now exists st.
  - eapply moved_trans; [exact IH|]. apply by_path_state in E. now exists st.
  - eapply moved_trans; [exact IH|]. apply by_index_state in E. now exists st.
  - eapply moved_trans; [exact IH|]. apply next_sub_key_state in E. now exists st.
Qed.

(** ** Reading without a filter *)
Notation sro := set_root_offset.
Definition lift {A} (o : N) (r : res (A * state)) : res (A * state) :=
  match r with Ok (a, s) => Ok (a, sro o s) | Err => Err | Panic => Panic | OutOfFuel => OutOfFuel end.
Lemma read_values_loop_sro fi o st seq offs : forall acc,
  read_values_loop fi (sro o st) seq offs acc = read_values_loop fi st seq offs acc.
Proof.
  induction offs as [|v r IH]; intros acc; cbn [read_values_loop]; [reflexivity|].
  destruct (get_at _ _); [|reflexivity]. destruct (get_from _ _); [|reflexivity].
  change (st_full (sro o st)) with (st_full st). destruct (kv_from_bytes _ _ _ _) as [[x ?]| | |]; try reflexivity. apply IH.
Qed.
Lemma read_values_sro fi o st seq k : read_values fi (sro o st) seq k = read_values fi st seq k.
Proof.
  unfold read_values. destruct (_ && _); [|reflexivity]. destruct (_ <? _); [reflexivity|].
  destruct (parse_key_values _ _ _); [|reflexivity]. now rewrite read_values_loop_sro.
Qed.
Lemma kn_read_sro fi o st op : op_filter op = None \/ op_filter op = Some None ->
  kn_read fi (sro o st) op = lift o (kn_read fi st op).
Proof.
  intros F. unfold kn_read. destruct (get_from _ _) as [slice|]; [|reflexivity]. cbn [ok_or]. unfold read_from_slice.
  change (kn_from_bytes (sro o st) slice (op_offset op) (op_path op) (op_seq op))
    with (kn_from_bytes st slice (op_offset op) (op_path op) (op_seq op)).
  destruct (kn_from_bytes st slice _ _ _) as [[k r]| | |]; try reflexivity. cbv beta iota.
  assert (C : forall s, match op_filter op with Some f => check_cell f s k | None => Ok (IterateKeys, s) end = Ok (IterateKeys, s))
    by (intros s; destruct F as [-> | ->]; reflexivity).
  rewrite !C. cbv beta iota.
  set (X := if _ && _ then _ else Ok k). 
  assert (XE : X = if (0 <? kd_nvalues (kn_detail k)) && should_read_values (op_filter op) IterateKeys (op_self_match op)
        then let* (k, ok) := read_values fi st (op_seq op) k in Ok (if ok : bool then k else kn_add_log WarningParse k) else Ok k).
  { unfold X. destruct (_ && _); [|reflexivity]. now rewrite read_values_sro. }
  rewrite XE. clear X XE. destruct (if _ && _ then _ else Ok k) as [k1| | |]; try reflexivity. cbv beta iota zeta.
  destruct (op_modified op); [|reflexivity].
  change (uml_fuel (sro o st)) with (uml_fuel st). rewrite (uml_agree _ (sro o st) st) by (repeat split).
  destruct (update_modified_lists _ _ _); reflexivity.
Qed.
Lemma read_children_sro fi o path sm f sf seq m offs : sf = None \/ sf = Some None -> forall st,
  read_children fi (sro o st) path sm f sf seq m offs = lift o (read_children fi st path sm f sf seq m offs).
Proof.
  intros SF. induction offs as [|off r IH]; intros st; cbn [read_children]; [reflexivity|].
  rewrite kn_read_sro by exact SF. destruct (kn_read fi st _) as [[[c|] s]| | |]; cbn [lift]; try reflexivity.
  - rewrite IH. destruct (read_children fi s path sm f sf seq m r) as [[[[cs fo] l] s2]| | |]; reflexivity.
  - apply IH.
  - rewrite IH. destruct (read_children fi st path sm f sf seq m r) as [[[[cs fo] l] s2]| | |]; reflexivity.
Qed.
Lemma read_sub_keys_sro fi o st k seq m :
  read_sub_keys_internal fi (sro o st) k None seq m = lift o (read_sub_keys_internal fi st k None seq m).
Proof.
  unfold read_sub_keys_internal. destruct (is_allocated _); [|reflexivity]. destruct (_ <? _); [reflexivity|].
  destruct (_ <? _); [|reflexivity]. destruct (parse_sub_key_list _ _ _); try reflexivity. cbv beta iota zeta.
  rewrite read_children_sro by (destruct (_ && _); [now left|now right]).
  destruct (read_children fi st _ _ _ _ _ _ _) as [[[[cs fo] l] s2]| | |]; reflexivity.
Qed.
Definition shifted (o : N) (c d : context) : Prop := d = cx_set_state (sro o (cx_state c)) c /\ cx_filter c = None.
Definition shifted_res {A} (o : N) (r r' : res (A * context)) : Prop :=
  match r, r' with
  | Ok (a, c), Ok (a', c') => a = a' /\ shifted o c c'
  | Err, Err | Panic, Panic | OutOfFuel, OutOfFuel => True
  | _, _ => False
  end.
Lemma shifted_stack o c d s : shifted o c d -> shifted o (cx_set_stack s c) (cx_set_stack s d).
Proof. intros [-> F]. now split. Qed.
Lemma shifted_return o c d s : shifted o c d -> shifted o (cx_set_return s c) (cx_set_return s d).
Proof. intros [-> F]. now split. Qed.
Lemma push_check_shifted o k c d : shifted o c d -> shifted o (push_check k c) (push_check k d).
Proof. intros [-> F]. unfold push_check. cbn [cx_set_state cx_offsets]. destruct (existsb _ _); split; try exact F; reflexivity. Qed.
Lemma push_shifted o k c d : shifted o c d -> shifted o (push k c) (push k d).
Proof. intros [-> F]. now split. Qed.
Lemma fold_shifted o (g : context -> key_node -> context) l c d :
  (forall k c d, shifted o c d -> shifted o (g c k) (g d k)) ->
  shifted o c d -> shifted o (fold_left g l c) (fold_left g l d).
Proof. intros G. revert c d. induction l; intros c d A; cbn [fold_left]; auto. Qed.
Lemma visit_shifted o fi c d k : shifted o c d -> shifted_res o (visit fi c k) (visit fi d k).
Proof.
  intros [-> F]. unfold visit. destruct (0 <? kd_nsub (kn_detail k)).
  - cbn [cx_set_state cx_filter cx_modified cx_state]. rewrite F, read_sub_keys_sro.
    destruct (read_sub_keys_internal fi (cx_state c) _ _ _ _) as [[[[n cs] ?] s]| | |]; try exact I. cbn [lift]. cbv beta iota zeta.
    split; [reflexivity|]. apply fold_shifted; [intros; now apply push_shifted|].
    apply fold_shifted; [intros; now apply push_check_shifted|]. split; [reflexivity|exact F].
  - cbv beta iota zeta. split; [reflexivity|]. apply fold_shifted; [intros; now apply push_shifted|]. now split.
Qed.
Lemma next_pre_shifted o fi : forall fuel c d, shifted o c d ->
  shifted_res o (next_key_preorder fuel fi c) (next_key_preorder fuel fi d).
Proof.
  induction fuel as [|fuel IH]; intros c d A; [exact I|]. cbn [next_key_preorder].
  replace (cx_stack d) with (cx_stack c) by now destruct A as [-> _].
  destruct (cx_stack c) as [|n r]; [now split|].
  pose proof (visit_shifted o fi _ _ n (shifted_stack _ _ _ r A)) as V.
  destruct (visit fi (cx_set_stack r c) n) as [[x cx]| | |], (visit fi (cx_set_stack r d) n) as [[y cy]| | |];
    try contradiction; try exact I.
  destruct V as [<- V].
  replace (cx_ancestors cy) with (cx_ancestors cx) by now destruct V as [-> _].
  replace (cx_filter cy) with (cx_filter cx) by now destruct V as [-> _].
  destruct (_ || _); [now split|]. now apply IH.
Qed.
Lemma next_post_shifted o fi : forall fuel c d, shifted o c d ->
  shifted_res o (next_key_postorder fuel fi c) (next_key_postorder fuel fi d).
Proof.
  induction fuel as [|fuel IH]; intros c d A; [exact I|]. cbn [next_key_postorder].
  replace (cx_stack d) with (cx_stack c) by now destruct A as [-> _].
  replace (cx_return d) with (cx_return c) by now destruct A as [-> _].
  destruct (cx_stack c) as [|n r].
  { destruct (cx_return c) as [|t s]; [now split|]. cbn [cx_set_return cx_ancestors].
    replace (cx_ancestors d) with (cx_ancestors c) by now destruct A as [-> _].
    destruct (_ || _); (split; [reflexivity|]); now apply shifted_return. }
  assert (ST : shifted_res o
     (let* (node, cx) := visit fi (cx_set_stack r c) n in
            let ret :=
              match cx_return cx with
              | [] => []
              | last :: r => kn_set_track (kn_track last + 1) last :: r
              end in
            next_key_postorder fuel fi (cx_set_return (node :: ret) cx))
     (let* (node, cx) := visit fi (cx_set_stack r d) n in
            let ret :=
              match cx_return cx with
              | [] => []
              | last :: r => kn_set_track (kn_track last + 1) last :: r
              end in
            next_key_postorder fuel fi (cx_set_return (node :: ret) cx))).
  { pose proof (visit_shifted o fi _ _ n (shifted_stack _ _ _ r A)) as V.
    destruct (visit fi (cx_set_stack r c) n) as [[x cx]| | |], (visit fi (cx_set_stack r d) n) as [[y cy]| | |];
      try contradiction; try exact I.
    destruct V as [<- V]. cbv zeta.
    replace (cx_return cy) with (cx_return cx) by now destruct V as [-> _].
    apply IH. now apply shifted_return. }
  destruct (cx_return c) as [|t s]; [exact ST|].
  destruct (_ =? _); [|exact ST]. split; [reflexivity|]. now apply shifted_return.
Qed.
Lemma collect_shifted o post fi : forall fuel c d, shifted o c d -> collect post fuel fi c = collect post fuel fi d.
Proof.
  induction fuel as [|fuel IH]; intros c d A; [reflexivity|]. cbn [collect].
  assert (N : shifted_res o ((if post then next_key_postorder else next_key_preorder) (S fuel) fi c)
                      ((if post then next_key_postorder else next_key_preorder) (S fuel) fi d)).
  { destruct post; [now apply next_post_shifted|now apply next_pre_shifted]. }
  destruct ((if post then _ else _) (S fuel) fi c) as [[k x]| | |],
           ((if post then _ else _) (S fuel) fi d) as [[k' y]| | |]; try contradiction; try reflexivity.
  destruct N as [<- N]. destruct k; [|reflexivity]. now rewrite (IH _ _ N).
Qed.
Lemma moved_iterate p p' n anc m post : moved p p' -> iterate n p' None anc m post = iterate n p None anc m post.
Proof.
  intros (st & -> & R). unfold iterate. symmetry. apply (collect_shifted (st_root_offset st)). unfold from_parser.
  cbn [ps_set_state ps_root ps_state]. split; [|reflexivity]. cbn [cx_state cx_set_state]. unfold root_only in R. now rewrite <- R.
Qed.
Lemma moved_same p p' : moved p p' -> ps_file p' = ps_file p /\ ps_root p' = ps_root p /\ ps_base_block p' = ps_base_block p
  /\ set_root_offset 0 (ps_state p') = set_root_offset 0 (ps_state p).
Proof. intros (st & -> & R). repeat (split; [reflexivity|]). cbn [ps_set_state ps_state]. rewrite R. reflexivity. Qed.

(** ** Two iterators over one parser, their calls of [next] in any order *)
Definition next (post : bool) (n : nat) (fi : file_info) (cx : context) : res (option key_node * context) :=
  (if post then next_key_postorder else next_key_preorder) n fi cx.
(** The keys each of the two gets, until a call fails. *)
Fixpoint interleaved (n : nat) (fi : file_info) (post1 post2 : bool) (turns : list bool) (c1 c2 : context)
  : res (list (option key_node) * list (option key_node)) :=
  match turns with
  | [] => Ok ([], [])
  | true :: r => let* (k, c1) := next post1 n fi c1 in
                 let* (a, b) := interleaved n fi post1 post2 r c1 c2 in Ok (k :: a, b)
  | false :: r => let* (k, c2) := next post2 n fi c2 in
                  let* (a, b) := interleaved n fi post1 post2 r c1 c2 in Ok (a, k :: b)
  end.
Fixpoint alone (n : nat) (fi : file_info) (post : bool) (calls : nat) (c : context) : res (list (option key_node)) :=
  match calls with
  | O => Ok []
  | S calls => let* (k, c) := next post n fi c in let* a := alone n fi post calls c in Ok (k :: a)
  end.
Lemma interleaved_alone n fi post1 post2 : forall turns c1 c2 a b,
  interleaved n fi post1 post2 turns c1 c2 = Ok (a, b) ->
  alone n fi post1 (count_occ bool_dec turns true) c1 = Ok a
  /\ alone n fi post2 (count_occ bool_dec turns false) c2 = Ok b.
Proof.
  induction turns as [|[] r IH]; intros c1 c2 a b; cbn [interleaved].
  - intros [= <- <-]. now split.
  - destruct (next post1 n fi c1) as [[k c]| | |] eqn:E; try discriminate. cbv beta iota.
    destruct (interleaved n fi post1 post2 r c c2) as [[a' b']| | |] eqn:I; try discriminate. intros [= <- <-].
    apply IH in I as [I1 I2]. cbn [count_occ]. destruct (bool_dec true true); [|contradiction]. destruct (bool_dec true false); [discriminate|].
    cbn [alone]. rewrite E. cbv beta iota. rewrite I1. now split.
  - destruct (next post2 n fi c2) as [[k c]| | |] eqn:E; try discriminate. cbv beta iota.
    destruct (interleaved n fi post1 post2 r c1 c) as [[a' b']| | |] eqn:I; try discriminate. intros [= <- <-].
    apply IH in I as [I1 I2]. cbn [count_occ]. destruct (bool_dec false false); [|contradiction]. destruct (bool_dec false true); [discriminate|].
    cbn [alone]. rewrite E. cbv beta iota. rewrite I2. now split.
Qed.
