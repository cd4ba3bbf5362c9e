(** Iteration over arbitrary file contents. *)
From Coq Require Import Permutation.
From Verif Require Import Base BaseFacts Util UtilSpec UtilText UtilLz LayoutSpec LayoutFacts BaseBlock Types Value Node Recover
  Parser NodeFrame CellSpec CellFacts CellData CellList CellRead TreeRead.

(** ** Specification *)
(** The name in the key cell at [o], and the positions of its sub keys. *)
Definition name_at (fi : file_info) (o : N) (name : list N) : Prop :=
  exists w, string_from_bytes (N.testbit (num_at (fi_buffer fi) (o + 6) 2) 5)
    (bytes_at (fi_buffer fi) (o + 80) (num_at (fi_buffer fi) (o + 76) 2)) (num_at (fi_buffer fi) (o + 76) 2) = Ok (name, w).
Definition sub_key_at (fi : file_info) (o c : N) : Prop :=
  exists offs, parse_sub_key_list (list_fuel fi) fi (num_at (fi_buffer fi) (o + 32) 4) = Ok offs /\ In c offs.
(** The names on a way from the key cell at [root] to that at [o], each in the
    list of sub keys of the one before. *)
Inductive lineage (fi : file_info) (root : N) : list (list N) -> N -> Prop :=
| from_root name : name_at fi root name -> lineage fi root [name] root
| from_parent names o c name : lineage fi root names o -> sub_key_at fi o c -> name_at fi c name ->
    lineage fi root (names ++ [name]) c.
Definition path_of (names : list (list N)) : list N := flat_map (fun n => 92 :: n) names.
(** No list of lists contains itself. *)
Definition no_list_cycle (fi : file_info) : Prop := forall c, ~ index_path fi c c.

(** ** The cached length of the root's part of the paths *)
Definition under (rp path : list N) : Prop := exists r, path = rp ++ r /\ (r = [] \/ hd_error r = Some 92).
Definition rv (rp : list N) : N := get_root_path_offset (rp ++ [92]).
Definition cachedr (rp : list N) (st : state) : Prop := st_root_offset st = 0 \/ st_root_offset st = rv rp.
Lemma find_lower s : find_byte 92 (to_lower s) = find_byte 92 s.
Proof.
  unfold to_lower. induction s as [|c s IH]; [reflexivity|]. cbn [map find_byte]. rewrite IH.
  destruct (N.eqb_spec (lower c) 92) as [E|E], (N.eqb_spec c 92) as [F|F]; try reflexivity.
  - apply (proj1 (lower_92 c)) in E. contradiction.
  - apply (proj2 (lower_92 c)) in F. contradiction.
Qed.
Lemma offset_lower s : get_root_path_offset (to_lower s) = get_root_path_offset s.
Proof.
  unfold get_root_path_offset. destruct s as [|c s]; [reflexivity|]. change (to_lower (c :: s)) with (lower c :: to_lower s). cbv beta iota.
  destruct (N.eqb_spec (lower c) 92) as [E|E], (N.eqb_spec c 92) as [F|F].
  - now rewrite find_lower.
  - apply (proj1 (lower_92 c)) in E. contradiction.
  - apply (proj2 (lower_92 c)) in F. contradiction.
  - reflexivity.
Qed.
Lemma find_same n x : find_byte 92 (n ++ 92 :: x) = find_byte 92 (n ++ [92]).
Proof. induction n as [|c n IH]; [reflexivity|]. cbn [app find_byte]. now rewrite IH. Qed.
Lemma find_ends n : exists i, find_byte 92 (n ++ [92]) = Some i.
Proof. induction n as [|c n (i & IH)]; [now exists 0|]. cbn [app find_byte]. rewrite IH. destruct (c =? 92); cbn [option_map]; eauto. Qed.
Lemma rv_child rp x : hd_error rp = Some 92 -> get_root_path_offset (rp ++ 92 :: x) = rv rp.
Proof. destruct rp as [|c n]; [discriminate|]. intros [= ->]. unfold rv, get_root_path_offset. cbn [app]. now rewrite find_same. Qed.
Lemma rv_at rp : hd_error rp = Some 92 -> get_at (rp ++ [92]) (rv rp - 1) = Some 92.
Proof.
  intros H. destruct (root_offset_split (rp ++ [92])) as [Z|(a & r & E & L)].
  - destruct rp as [|c n]; [discriminate|]. injection H as ->. unfold get_root_path_offset in Z. cbn [app] in Z.
    change (92 =? 92) with true in Z. destruct (find_ends n) as (i & F). rewrite F in Z. lia.
  - unfold rv. rewrite <- L, E. apply get_at_app. lia.
Qed.
Lemma cachedr_ok rp st path : hd_error rp = Some 92 -> under rp path -> cachedr rp st -> cache_ok st path.
Proof.
  intros H (r & -> & R) [Z|E]; [now left|]. right. rewrite E. pose proof (rv_at rp H) as A.
  assert (X : exists s, (rp ++ r) ++ [92] = (rp ++ [92]) ++ s).
  { destruct R as [-> |R]; [exists []; now rewrite !app_nil_r|]. destruct r as [|c r]; [discriminate|]. injection R as ->.
    exists (r ++ [92]). now rewrite <- !app_assoc. }
  destruct X as (s & ->). unfold get_at in *. destruct (N.ltb_spec (rv rp - 1) (len (rp ++ [92]))) as [L|L]; [|discriminate].
  rewrite len_app. destruct (N.ltb_spec (rv rp - 1) (len (rp ++ [92]) + len s)); [|lia].
  rewrite nth_error_app1; [exact A|]. unfold len in L. lia.
Qed.
Lemma check_cell_cached rp f st k fl st' x : hd_error rp = Some 92 -> kn_path k = rp ++ 92 :: x -> cachedr rp st ->
  check_cell f st k = Ok (fl, st') -> cachedr rp st'.
Proof.
  intros H P C. unfold check_cell. destruct f as [q|]; [|now intros [= _ <-]]. destruct (_ && _); [now intros [= _ <-]|]. cbv zeta.
  unfold st_get_root_path_offset. destruct (N.eqb_spec (st_root_offset st) 0).
  - rewrite offset_lower, P, rv_child by exact H. destruct (check_key_match _ _ _); try discriminate. intros [= _ <-]. now right.
  - destruct (check_key_match _ _ _); try discriminate. now intros [= _ <-].
Qed.

(** ** Reading *)
Definition cell_of (fi : file_info) (k : key_node) : Prop :=
  kd_sublist (kn_detail k) = num_at (fi_buffer fi) (kn_offset k + 32) 4 /\ name_at fi (kn_offset k) (kn_name k).
Definition fresh_key (fi : file_info) (o : read_options) (k : key_node) : Prop :=
  kn_offset k = op_offset o /\ op_offset o <= len (fi_buffer fi) /\ kn_path k = op_path o ++ [92] ++ kn_name k
  /\ is_text (kn_name k) /\ kn_state k = Allocated /\ kn_deleted k = [] /\ cell_of fi k.
Lemma quiet_root_only' st st' : root_only st st' -> quiet st -> quiet st'.
Proof. intros -> (A & B & C & D). repeat split; assumption. Qed.
Lemma read_values_keeps fi st seq k k' ok : read_values fi st seq k = Ok (k', ok) ->
  kn_offset k' = kn_offset k /\ kn_path k' = kn_path k /\ kn_name k' = kn_name k /\ kn_state k' = kn_state k
  /\ kn_deleted k' = kn_deleted k /\ kn_detail k' = kn_detail k.
Proof.
  unfold read_values. destruct (_ && _); [|intros [= <- _]; repeat split]. destruct (_ <? _); [intros [= <- _]; repeat split|].
  destruct (parse_key_values _ _ _); [|intros [= <- _]; repeat split].
  destruct (read_values_loop _ _ _ _ _) as [[[? ?] ?]| | |]; try discriminate. intros [= <- _]; repeat split.
Qed.
Lemma under_sub rp p s : under rp p -> exists x, p ++ 92 :: s = rp ++ 92 :: x.
Proof.
  intros (r & -> & [-> |R]); [exists s; now rewrite app_nil_r|]. destruct r as [|c r]; [discriminate|]. injection R as ->.
  exists (r ++ 92 :: s). now rewrite <- app_assoc.
Qed.
Lemma read_any fi st o rp : bytes_ok (fi_buffer fi) -> hd_error rp = Some 92 -> is_text (op_path o) -> op_filter o = None \/ under rp (op_path o) ->
  cachedr rp st -> op_modified o = false \/ quiet st ->
  kn_read fi st o = Err \/ exists c st', kn_read fi st o = Ok (c, st') /\ cachedr rp st' /\ root_only st st'
    /\ forall k, c = Some k -> fresh_key fi o k.
Proof.
  intros B H T U C M. unfold kn_read. destruct (get_from _ _) as [s|] eqn:G; [|now left]. cbn [ok_or].
  apply get_from_some in G as (LO & GE & _). unfold read_from_slice.
  destruct (kn_cases st s (op_offset o) (op_path o) (op_seq o)) as [(NK & name & w & NM & ->)|(_ & ->)]; [|now left].
  right. cbv beta iota.
  assert (BS : bytes_ok s) by (rewrite GE; now apply bytes_ok_skipn).
  assert (TN : is_text name) by (eapply string_text; [|exact NM]; now apply bytes_ok_at).
  set (k := kn_at st s (op_offset o) (op_path o) (op_seq o) name w) in *.
  assert (CO : cell_of fi k).
  { assert (SR : s = rest_at (fi_buffer fi) (op_offset o)) by exact GE. split.
    - unfold k; cbn [kn_detail kn_offset kn_at nk_detail_at kd_sublist]. now rewrite SR, num_at_rest.
    - exists w. unfold k; cbn [kn_offset kn_name kn_at]. rewrite <- !num_at_rest, <- bytes_at_rest, <- SR, <- compressed_flag. exact NM. }
  assert (X : exists fl st', match op_filter o with Some f => check_cell f st k | None => Ok (IterateKeys, st) end = Ok (fl, st')
    /\ cachedr rp st' /\ root_only st st').
  { destruct (op_filter o) as [f|]; [|exists IterateKeys, st; auto]. destruct U as [U|U]; [discriminate|].
    destruct (check_cell_total f st k (op_path o)) as (fl & st' & E).
    - unfold k. rewrite kn_path_at. apply text_app; [easy|]. apply text_app; [apply text_slash|easy].
    - now apply (cachedr_ok rp).
    - exists name. reflexivity.
    - exists fl, st'. split; [easy|]. split; [|now apply check_cell_state in E].
      destruct (under_sub rp (op_path o) name U) as (x & PX). eapply check_cell_cached; [exact H| |exact C|exact E].
      unfold k. rewrite kn_path_at. exact PX. }
  destruct X as (fl & st' & -> & C' & RO). cbv beta iota.
  assert (Y : exists k1, (if (0 <? kd_nvalues (kn_detail k)) && should_read_values (op_filter o) fl (op_self_match o)
    then let* (k0, ok) := read_values fi st' (op_seq o) k in Ok (if ok : bool then k0 else kn_add_log WarningParse k0)
    else Ok k) = Ok k1 /\ fresh_key fi o k1).
  { assert (F0 : fresh_key fi o k) by (split; [reflexivity|]; split; [exact LO|]; split; [reflexivity|]; split; [exact TN|]; split; [reflexivity|]; split; [reflexivity|]; exact CO).
    destruct (_ && _); [|eauto]. destruct (read_values_total fi st' (op_seq o) k) as (k' & ok & E). rewrite E.
    exists (if ok then k' else kn_add_log WarningParse k'). split; [reflexivity|].
    apply read_values_keeps in E as (E1 & E2 & E3 & E4 & E5 & E6).
    assert (F1 : fresh_key fi o k').
    { destruct F0 as (F1 & F2 & F3 & F4 & F5 & F6 & F7). unfold fresh_key, cell_of. rewrite E1, E2, E3, E4, E5, E6. repeat (split; [assumption|]). assumption. }
    destruct ok; exact F1. }
  destruct Y as (k1 & Y & F1). rewrite Y. cbv beta iota.
  set (k2 := match fl with KeyMatch => kn_set_filter (Some MExact) k1 | _ => k1 end).
  assert (F2 : fresh_key fi o k2) by (unfold k2; destruct fl; exact F1).
  assert (Z : (if op_modified o then update_modified_lists (uml_fuel st') st' k2 else Ok k2) = Ok k2).
  { destruct M as [M|M]; [now rewrite M|]. destruct (op_modified o); [|reflexivity].
    unfold uml_fuel. apply uml_quiet. now apply (quiet_root_only' st). }
  destruct fl; [exists None, st'; split; [reflexivity|]; split; [exact C'|]; split; [exact RO|]; discriminate| |];
    rewrite Z; exists (Some k2), st'; (split; [reflexivity|]; split; [exact C'|]; split; [exact RO|]; now intros k3 [= <-]).
Qed.
(** A sub key read from a list. *)
Definition fresh_sub (fi : file_info) (path : list N) (offs : list N) (k : key_node) : Prop :=
  In (kn_offset k) offs /\ kn_offset k <= len (fi_buffer fi) /\ kn_path k = path ++ [92] ++ kn_name k
  /\ is_text (kn_name k) /\ kn_state k = Allocated /\ kn_deleted k = [] /\ cell_of fi k.
Lemma fresh_of fi o p sm seq f m k offs : fresh_key fi (mkOpt o p f sm seq m) k -> In o offs -> fresh_sub fi p offs k.
Proof. intros (E & F & R) I. cbn in *. split; [now rewrite E|]. split; [now rewrite E|exact R]. Qed.
Lemma fresh_state fi p offs k sm f : fresh_sub fi p offs k -> fresh_sub fi p offs (child_filter_state sm f k).
Proof. unfold child_filter_state. destruct (kn_filter k); [auto|]. destruct sm; [auto|]. destruct (f_is_valid f); auto. Qed.
Lemma children_any fi path sm f sf seq m rp offs : bytes_ok (fi_buffer fi) -> hd_error rp = Some 92 -> is_text path -> under rp path ->
  forall st, cachedr rp st -> m = false \/ quiet st ->
  exists cs found logs st', read_children fi st path sm f sf seq m offs = Ok (cs, found, logs, st')
  /\ cachedr rp st' /\ root_only st st' /\ Forall (fresh_sub fi path offs) cs /\ (length cs <= length offs)%nat.
Proof.
  intros B H T U. induction offs as [|o r IH]; intros st C M; cbn [read_children].
  { exists [], false, [], st. repeat (split; [auto|]). cbn. lia. }
  assert (W : forall cs, Forall (fresh_sub fi path r) cs -> Forall (fresh_sub fi path (o :: r)) cs).
  { intros cs. apply Forall_impl. intros k (I & R). split; [now right|exact R]. }
  destruct (read_any fi st (mkOpt o path sf sm seq m) rp B H T (or_intror U) C M) as [E|(c & st1 & E & C1 & R1 & F1)]; rewrite E.
  - destruct (IH st C M) as (cs & found & logs & st' & -> & X1 & X2 & X3 & X4).
    do 4 eexists. split; [reflexivity|]. split; [exact X1|]. split; [exact X2|]. split; [now apply W|]. cbn. lia.
  - assert (M1 : m = false \/ quiet st1) by (destruct M; [now left|right; eapply quiet_root_only'; eassumption]).
    destruct (IH st1 C1 M1) as (cs & found & logs & st' & E2 & X1 & X2 & X3 & X4).
    assert (X2' : root_only st st') by (eapply root_only_trans; eassumption).
    destruct c as [c|]; rewrite E2; do 4 eexists; (split; [reflexivity|]; split; [exact X1|]; split; [exact X2'|]; split; [|cbn; lia]).
    + constructor; [|now apply W]. apply fresh_state. eapply fresh_of; [now apply F1|]. now left.
    + now apply W.
Qed.

(** ** Traversal *)
Section Any.
Context (fi : file_info) (root : N) (rp : list N).
Hypothesis (BO : bytes_ok (fi_buffer fi)) (HD : hd_error rp = Some 92) (NC : no_list_cycle fi).
Definition good_key (k : key_node) : Prop :=
  is_text (kn_path k) /\ under rp (kn_path k) /\ kn_deleted k = []
  /\ cell_of fi k /\ exists names, lineage fi root names (kn_offset k) /\ kn_path k = path_of names.
Definition pend (cx : context) : list N := map kn_offset (cx_stack cx ++ cx_return cx).
Definition top_offset : N := N.max (len (fi_buffer fi)) root.
Record good_cx (cx : context) : Prop := {
  g_mod : cx_modified cx = false \/ quiet (cx_state cx);
  g_cache : cachedr rp (cx_state cx);
  g_keys : Forall good_key (cx_stack cx ++ cx_return cx);
  g_nodup : NoDup (pend cx);
  g_incl : incl (pend cx) (cx_offsets cx);
  g_fresh : NoDup (cx_offsets cx);
  g_bound : Forall (fun o => o <= top_offset) (cx_offsets cx);
  g_left : (length (cx_stack cx) <= length (cx_offsets cx))%nat }.
Definition left_over (cx : context) : nat := S (N.to_nat top_offset) + length (cx_stack cx) - length (cx_offsets cx).

Lemma path_of_snoc names n : path_of (names ++ [n]) = path_of names ++ [92] ++ n.
Proof. unfold path_of. rewrite flat_map_app. cbn. now rewrite app_nil_r. Qed.
Lemma good_sub k c offs : good_key k -> parse_sub_key_list (list_fuel fi) fi (kd_sublist (kn_detail k)) = Ok offs ->
  fresh_sub fi (kn_path k) offs c -> good_key c /\ kn_offset c <= top_offset.
Proof.
  intros (T & U & D & CK & names & L & P) E (I & LB & PC & TN & A & DC & CC). split.
  - split; [rewrite PC; apply text_app; [exact T|apply text_app; [apply text_slash|exact TN]]|]. split.
    + destruct U as (r & EU & R). rewrite PC, EU. exists (r ++ [92] ++ kn_name c). split; [now rewrite <- app_assoc|].
      right. destruct R as [-> |R]; [reflexivity|]. destruct r; [discriminate|exact R].
    + split; [exact DC|]. split; [exact CC|]. exists (names ++ [kn_name c]). split.
      * eapply from_parent; [exact L| |apply CC]. exists offs. split; [|exact I]. rewrite <- (proj1 CK). exact E.
      * now rewrite path_of_snoc, <- P.
  - unfold top_offset. lia.
Qed.
Lemma good_same k k' : good_key k -> kn_path k' = kn_path k -> kn_deleted k' = kn_deleted k -> kn_offset k' = kn_offset k ->
  kn_name k' = kn_name k -> kn_detail k' = kn_detail k -> good_key k'.
Proof.
  intros (T & U & D & CK & names & L & P) E1 E2 E3 E4 E5. unfold good_key, cell_of. rewrite E1, E2, E3, E4, E5.
  repeat (split; [assumption|]). now exists names.
Qed.

(** What a visit adds. *)
Record grown (cx cx' : context) (new : list key_node) : Prop := {
  w_stack : cx_stack cx' = new ++ cx_stack cx;
  w_return : cx_return cx' = cx_return cx;
  w_offsets : cx_offsets cx' = map kn_offset new ++ cx_offsets cx;
  w_new : NoDup (map kn_offset new) /\ forall x, In x (map kn_offset new) -> ~ In x (cx_offsets cx);
  w_good : Forall (fun c => good_key c /\ kn_offset c <= top_offset) new;
  w_flags : cx_modified cx' = cx_modified cx /\ cx_ancestors cx' = cx_ancestors cx /\ cx_filter cx' = cx_filter cx }.
Lemma grown_refl cx : grown cx cx [].
Proof. split; try reflexivity; [split; [constructor|intros ? []]|constructor|repeat split]. Qed.
Lemma push_grown cs : Forall (fun c => good_key c /\ kn_offset c <= top_offset) cs -> forall cx cx0 new, grown cx0 cx new ->
  exists new', grown cx0 (fold_left (fun cx c => push_check c cx) cs cx) new'
    /\ cx_state (fold_left (fun cx c => push_check c cx) cs cx) = cx_state cx.
Proof.
  induction 1 as [|c cs G F IH]; intros cx cx0 new W; cbn [fold_left]; [eauto|].
  unfold push_check at 2 4. destruct (existsb _ _) eqn:X; [now apply (IH cx cx0 new)|].
  destruct W as [W1 W2 W3 (W4 & W5) W6 (W7 & W8 & W9)].
  match goal with |- context [fold_left _ cs ?c1] => destruct (IH c1 cx0 (c :: new)) as (new' & E1 & E2) end; [|eauto].
  assert (NI : ~ In (kn_offset c) (cx_offsets cx)).
  { intros I. enough (existsb (N.eqb (kn_offset c)) (cx_offsets cx) = true) by congruence.
    apply existsb_exists. exists (kn_offset c). split; [exact I|apply N.eqb_refl]. }
  rewrite W3, in_app_iff in NI. split; cbn.
  - now rewrite W1.
  - exact W2.
  - now rewrite W3.
  - split; [constructor; tauto|]. intros x [<-|I]; [tauto|auto].
  - now constructor.
  - auto.
Qed.
Lemma visit_any cx node rest : good_cx cx -> cx_stack cx = node :: rest ->
  exists node' cx' new, visit fi (cx_set_stack rest cx) node = Ok (node', cx') /\ grown (cx_set_stack rest cx) cx' new
    /\ good_key node' /\ kn_offset node' = kn_offset node /\ cachedr rp (cx_state cx') /\ root_only (cx_state cx) (cx_state cx').
Proof.
  intros G ST. set (cx0 := cx_set_stack rest cx).
  assert (GN : good_key node) by (pose proof (g_keys cx G) as K; rewrite ST in K; now inversion K).
  unfold visit.
  assert (X : exists node' cx' new, (if 0 <? kd_nsub (kn_detail node) then
      let* (node, cs, _, st) := read_sub_keys_internal fi (cx_state cx0) node (cx_filter cx0) None (cx_modified cx0) in
      Ok (kn_set_to_return (w32 (len cs)) node, fold_left (fun cx c => push_check c cx) (rev cs) (cx_set_state st cx0))
    else Ok (node, cx0)) = Ok (node', cx') /\ grown cx0 cx' new
    /\ good_key node' /\ kn_offset node' = kn_offset node /\ cachedr rp (cx_state cx') /\ root_only (cx_state cx) (cx_state cx')).
  { pose proof (g_cache cx G) as C. pose proof (g_mod cx G) as M.
    assert (Z : exists node' cx' new, Ok (node, cx0) = Ok (node', cx') /\ grown cx0 cx' new
      /\ good_key node' /\ kn_offset node' = kn_offset node /\ cachedr rp (cx_state cx') /\ root_only (cx_state cx) (cx_state cx')).
    { exists node, cx0, []. split; [reflexivity|]. split; [apply grown_refl|]. split; [exact GN|]. split; [reflexivity|].
      split; [exact C|apply root_only_refl]. }
    destruct (0 <? kd_nsub (kn_detail node)) eqn:NS; [|exact Z].
    assert (K : forall (k' : key_node), kn_path k' = kn_path node -> kn_deleted k' = kn_deleted node -> kn_offset k' = kn_offset node ->
      kn_name k' = kn_name node -> kn_detail k' = kn_detail node -> good_key k') by (intros; now apply (good_same node)).
    unfold read_sub_keys_internal. rewrite NS.
    assert (V : forall k', good_key k' -> kn_offset k' = kn_offset node -> exists node' cx' new,
      Ok (kn_set_to_return (w32 (len (@nil key_node))) k', fold_left (fun cx c => push_check c cx) (rev []) (cx_set_state (cx_state cx0) cx0)) = Ok (node', cx')
      /\ grown cx0 cx' new /\ good_key node' /\ kn_offset node' = kn_offset node /\ cachedr rp (cx_state cx') /\ root_only (cx_state cx) (cx_state cx')).
    { intros k' G' E. exists (kn_set_to_return (w32 (len (@nil key_node))) k'), (cx_set_state (cx_state cx0) cx0), []. split; [reflexivity|].
      split; [split; try reflexivity; [split; [constructor|intros ? []]|constructor|repeat split]|]. split; [now apply (good_same k')|]. split; [exact E|]. split; [exact C|apply root_only_refl]. }
    destruct (is_allocated (kn_state node)); [|apply (V node GN eq_refl)].
    destruct (1048576 <? _); [apply V; [now apply K|reflexivity]|].
    destruct (psl_total fi (kd_sublist (kn_detail node))) as [E|(offs & E)].
    { intros O. destruct (diverge_cycle _ _ O) as (c & _ & Y). exact (NC c Y). }
    { change parse_sub_key_list with psl. rewrite E. apply V; [now apply K|reflexivity]. }
    change parse_sub_key_list with psl. rewrite E.
    change (cx_state cx0) with (cx_state cx). change (cx_modified cx0) with (cx_modified cx).
    match goal with |- context [read_children fi (cx_state cx) ?p ?sm ?f ?sf ?sq ?m offs] =>
      destruct (children_any fi p sm f sf sq m rp offs BO HD (proj1 GN) (proj1 (proj2 GN)) (cx_state cx) C M)
        as (cs & found & logs & st' & -> & C1 & R1 & F1 & _) end.
    cbv beta iota zeta.
    assert (FG : Forall (fun c => good_key c /\ kn_offset c <= top_offset) (rev cs)).
    { apply Forall_rev. eapply Forall_impl; [|exact F1]. intros c Fc. now apply (good_sub node c offs). }
    assert (W0 : grown cx0 (cx_set_state st' cx0) []) by (split; try reflexivity; [split; [constructor|intros ? []]|constructor|repeat split]).
    destruct (push_grown _ FG (cx_set_state st' cx0) cx0 [] W0) as (new & W & S).
    do 3 eexists. split; [reflexivity|]. split; [exact W|]. split; [now apply K|]. split; [reflexivity|]. rewrite S. auto. }
  destruct X as (node' & cx' & new & -> & W & GN' & EO & C' & R'). cbv beta iota zeta.
  rewrite (proj1 (proj2 (proj2 GN'))). cbn [map fold_left].
  exists (kn_set_deleted [] node'), cx', new. split; [reflexivity|]. split; [exact W|]. split; [|auto].
  apply (good_same node'); try reflexivity; [exact GN'|]. symmetry. apply GN'.
Qed.
Lemma offsets_few cx : good_cx cx -> (length (cx_offsets cx) <= S (N.to_nat top_offset))%nat.
Proof. intros G. apply nodup_bound; [apply G|]. apply Forall_forall. apply G. Qed.
Lemma quiet_cx cx cx' : good_cx cx -> cx_modified cx' = cx_modified cx -> root_only (cx_state cx) (cx_state cx') ->
  cx_modified cx' = false \/ quiet (cx_state cx').
Proof. intros G E R. rewrite E. destruct (g_mod cx G) as [M|M]; [now left|right; eapply quiet_root_only'; eassumption]. Qed.
Lemma nodup_mid {A} (a b c : list A) : NoDup (b ++ c) -> NoDup a -> (forall x, In x a -> ~ In x (b ++ c)) -> NoDup (a ++ b ++ c).
Proof.
  intros N1 N2 D. induction N2 as [|x a NI N2 IH]; [exact N1|]. cbn. constructor.
  - rewrite in_app_iff. intros [I|I]; [contradiction|]. apply (D x); [now left|exact I].
  - apply IH. intros y I. apply D. now right.
Qed.
(** The keys still to come are pending or not yet known. *)
Definition comes (cx : context) (x : N) : Prop := In x (pend cx) \/ ~ In x (cx_offsets cx).
Lemma grown_offsets cx cx' new : grown cx cx' new -> Forall (fun o => o <= top_offset) (cx_offsets cx) -> NoDup (cx_offsets cx) ->
  Forall (fun o => o <= top_offset) (cx_offsets cx') /\ NoDup (cx_offsets cx').
Proof.
  intros [W1 W2 W3 (W4 & W5) W6 W7] B N. rewrite W3. split.
  - apply Forall_app. split; [|exact B]. apply Forall_map. eapply Forall_impl; [|exact W6]. now intros c (_ & L).
  - rewrite <- (app_nil_r (cx_offsets cx)). apply nodup_mid; [now rewrite app_nil_r|exact W4|]. intros x I. rewrite app_nil_r. auto.
Qed.
Definition step_to (cx cx' : context) : Prop :=
  good_cx cx' /\ incl (cx_offsets cx) (cx_offsets cx') /\ (forall x, In x (pend cx') -> comes cx x)
  /\ (S (left_over cx') <= left_over cx)%nat.
Lemma after_visit cx node rest node' cx' new back : good_cx cx -> cx_stack cx = node :: rest ->
  grown (cx_set_stack rest cx) cx' new -> good_key node' -> kn_offset node' = kn_offset node ->
  cachedr rp (cx_state cx') -> root_only (cx_state cx) (cx_state cx') ->
  Forall good_key back -> map kn_offset back = map kn_offset (cx_return cx) ->
  (* the key is handed out *)
  (let c1 := cx_set_return back cx' in step_to cx c1 /\ comes cx (kn_offset node')
    /\ In (kn_offset node') (cx_offsets c1) /\ ~ In (kn_offset node') (pend c1) /\ length (cx_return c1) = length (cx_return cx))
  (* or kept *)
  /\ (let c2 := cx_set_return (node' :: back) cx' in step_to cx c2 /\ length (cx_return c2) = S (length (cx_return cx))).
Proof.
  intros G ST W GN EO C R FB MB. cbv zeta.
  pose proof (g_nodup cx G) as ND. unfold pend in ND. rewrite ST in ND. cbn [app map] in ND. rewrite map_app in ND.
  apply NoDup_cons_iff in ND as (NI & ND).
  pose proof (g_incl cx G) as IN. unfold pend in IN. rewrite ST in IN. cbn [app map] in IN. rewrite map_app in IN.
  pose proof (g_keys cx G) as GK. rewrite ST in GK. cbn [app] in GK. apply Forall_cons_iff in GK as (_ & GK).
  apply Forall_app in GK as (GR & _).
  destruct (grown_offsets _ _ _ W (g_bound cx G) (g_fresh cx G)) as (GB & GF).
  pose proof (offsets_few cx G) as FEW. pose proof (g_left cx G) as GL. rewrite ST in GL. cbn [length] in GL.
  destruct W as [W1 W2 W3 (W4 & W5) W6 (W7 & W8 & W9)]. cbn [cx_set_stack cx_stack cx_return cx_offsets cx_modified cx_ancestors cx_filter] in *.
  assert (FN : Forall good_key new) by (eapply Forall_impl; [|exact W6]; now intros c (g & _)).
  assert (M' : cx_modified cx' = false \/ quiet (cx_state cx')) by (now apply (quiet_cx cx)).
  assert (LB : length back = length (cx_return cx)) by (rewrite <- (map_length kn_offset), MB; apply map_length).
  assert (RI : forall x, In x (map kn_offset rest ++ map kn_offset (cx_return cx)) -> In x (cx_offsets cx)) by (intros x I; apply IN; now right).
  assert (ND1 : NoDup (map kn_offset new ++ map kn_offset rest ++ map kn_offset (cx_return cx))).
  { apply nodup_mid; [exact ND|exact W4|]. intros x I J. apply (W5 x I). now apply RI. }
  assert (INN : In (kn_offset node) (cx_offsets cx)) by (apply IN; now left).
  assert (NI1 : ~ In (kn_offset node) (map kn_offset new ++ map kn_offset rest ++ map kn_offset (cx_return cx))).
  { rewrite in_app_iff. intros [I|I]; [|contradiction]. now apply (W5 _ I). }
  assert (IO : incl (cx_offsets cx) (cx_offsets cx')) by (rewrite W3; intros x I; apply in_or_app; now right).
  assert (P1 : pend (cx_set_return back cx') = map kn_offset new ++ map kn_offset rest ++ map kn_offset (cx_return cx)).
  { unfold pend. cbn [cx_set_return cx_stack cx_return]. now rewrite W1, !map_app, MB, app_assoc. }
  assert (P2 : Permutation (pend (cx_set_return (node' :: back) cx')) (kn_offset node :: map kn_offset new ++ map kn_offset rest ++ map kn_offset (cx_return cx))).
  { unfold pend. cbn [cx_set_return cx_stack cx_return]. rewrite W1, !map_app. cbn [map]. rewrite MB, EO.
    rewrite <- Permutation_middle. now rewrite app_assoc. }
  assert (I1 : incl (map kn_offset new ++ map kn_offset rest ++ map kn_offset (cx_return cx)) (cx_offsets cx')).
  { intros x I. apply in_app_iff in I as [I|I]; [rewrite W3; apply in_or_app; now left|]. apply IO. now apply RI. }
  assert (CM : forall x, In x (map kn_offset new ++ map kn_offset rest ++ map kn_offset (cx_return cx)) -> comes cx x).
  { intros x I. apply in_app_iff in I as [I|I]; [right; auto|]. left. unfold pend. rewrite ST. cbn [app map]. right. now rewrite map_app. }
  assert (CN : comes cx (kn_offset node)) by (left; unfold pend; rewrite ST; now left).
  assert (LO : forall b, (S (left_over (cx_set_return b cx')) <= left_over cx)%nat /\ (length (cx_stack (cx_set_return b cx')) <= length (cx_offsets (cx_set_return b cx')))%nat).
  { intros b. unfold left_over. cbn [cx_set_return cx_stack cx_offsets]. rewrite W1, W3, ST, !app_length, map_length. cbn [length]. lia. }
  split; (split; [|]).
  - split; [|split; [exact IO|split; [rewrite P1; exact CM|apply LO]]]. split; cbn [cx_set_return cx_modified cx_state cx_stack cx_return cx_offsets]; auto.
    + rewrite W1. repeat (apply Forall_app; split); auto.
    + now rewrite P1.
    + now rewrite P1.
    + apply (LO back).
  - rewrite EO, P1. split; [exact CN|]. split; [now apply IO|]. split; [exact NI1|exact LB].
  - split; [|split; [exact IO|split; [|apply LO]]].
    2:{ intros x I. eapply Permutation_in in I; [|exact P2]. destruct I as [<-|I]; auto. }
    split; cbn [cx_set_return cx_modified cx_state cx_stack cx_return cx_offsets]; auto.
    + rewrite W1. repeat (apply Forall_app; split); auto.
    + eapply Permutation_NoDup; [symmetry; exact P2|]. now constructor.
    + intros x I. eapply Permutation_in in I; [|exact P2]. destruct I as [<-|I]; auto.
    + apply (LO (node' :: back)).
  - cbn. now rewrite LB.
Qed.
Definition potential (cx : context) : nat := 2 * left_over cx + length (cx_return cx).
Definition handed (cx cx' : context) (k : key_node) : Prop :=
  good_key k /\ comes cx (kn_offset k) /\ In (kn_offset k) (cx_offsets cx') /\ ~ In (kn_offset k) (pend cx').
Definition progress (cx cx' : context) (o : option key_node) : Prop :=
  good_cx cx' /\ incl (cx_offsets cx) (cx_offsets cx') /\ (forall x, In x (pend cx') -> comes cx x)
  /\ match o with Some k => (S (potential cx') <= potential cx)%nat /\ handed cx cx' k | None => True end.
Lemma comes_trans cx cx' x : incl (cx_offsets cx) (cx_offsets cx') -> (forall y, In y (pend cx') -> comes cx y) -> comes cx' x -> comes cx x.
Proof. intros I P [J|J]; [auto|right; auto]. Qed.
Lemma progress_trans cx c1 c2 o : incl (cx_offsets cx) (cx_offsets c1) ->
  (forall x, In x (pend c1) -> comes cx x) -> (S (potential c1) <= potential cx)%nat -> progress c1 c2 o -> progress cx c2 o.
Proof.
  intros I P L (G & I2 & P2 & O). split; [exact G|]. split; [intros x J; auto|]. split; [intros x J; eapply comes_trans; eauto|].
  destruct o as [k|]; [|exact O]. destruct O as (L2 & GK & CK & IK & NK). split; [lia|]. split; [exact GK|].
  split; [eapply comes_trans; eauto|]. auto.
Qed.
Lemma cx_return_eta cx : cx_set_return (cx_return cx) cx = cx.
Proof. now destruct cx. Qed.
Lemma next_pre_any fuel : forall cx, good_cx cx -> (left_over cx < fuel)%nat ->
  exists o cx', next_key_preorder fuel fi cx = Ok (o, cx') /\ progress cx cx' o.
Proof.
  induction fuel as [|fuel IH]; intros cx G L; [lia|]. cbn [next_key_preorder].
  destruct (cx_stack cx) as [|node rest] eqn:ST.
  { exists None, cx. split; [reflexivity|]. split; [exact G|]. split; [intros x I; exact I|]. split; [intros x I; now left|exact I]. }
  destruct (visit_any cx node rest G ST) as (node' & cx' & new & -> & W & GN & EO & C & R). cbv beta iota.
  pose proof (g_keys cx G) as GK. apply Forall_app in GK as (_ & GR).
  destruct (after_visit cx node rest node' cx' new (cx_return cx) G ST W GN EO C R GR eq_refl) as ((S1 & CK & IK & NK & LR) & _).
  assert (E : cx_return cx = cx_return cx') by (symmetry; exact (w_return _ _ _ W)).
  rewrite E, cx_return_eta in *. destruct S1 as (G1 & I1 & P1 & L1).
  assert (PT : (S (potential cx') <= potential cx)%nat) by (unfold potential; rewrite E; lia).
  destruct (_ || _).
  - exists (Some node'), cx'. split; [reflexivity|]. split; [exact G1|]. split; [exact I1|]. split; [exact P1|]. split; [exact PT|].
    split; [exact GN|]. auto.
  - destruct (IH cx' G1) as (o & c2 & -> & PR); [lia|]. exists o, c2. split; [reflexivity|]. eapply progress_trans; eassumption.
Qed.
Lemma pop_return cx top r : good_cx cx -> cx_return cx = top :: r -> progress cx (cx_set_return r cx) (Some top).
Proof.
  intros G E. pose proof (g_keys cx G) as GK. apply Forall_app in GK as (GS & GR). rewrite E in GR. apply Forall_cons_iff in GR as (GT & GR).
  assert (P : Permutation (pend cx) (kn_offset top :: pend (cx_set_return r cx))).
  { unfold pend. cbn [cx_set_return cx_stack cx_return]. rewrite E, !map_app. cbn [map]. symmetry. apply Permutation_middle. }
  pose proof (g_nodup cx G) as ND. eapply Permutation_NoDup in ND; [|exact P]. apply NoDup_cons_iff in ND as (NI & ND).
  assert (IT : In (kn_offset top) (pend cx)) by (eapply Permutation_in; [symmetry; exact P|now left]).
  assert (II : forall x, In x (pend (cx_set_return r cx)) -> In x (pend cx)) by (intros x I; eapply Permutation_in; [symmetry; exact P|now right]).
  split; [|split; [intros x I; exact I|split; [intros x I; left; auto|]]].
  - split; cbn [cx_set_return cx_modified cx_state cx_stack cx_return cx_offsets]; try apply G; auto.
    + now apply Forall_app.
    + intros x I. apply (g_incl cx G). auto.
  - split; [|split; [exact GT|split; [now left|split; [now apply (g_incl cx G)|exact NI]]]].
    unfold potential. change (left_over (cx_set_return r cx)) with (left_over cx). rewrite E. cbn. lia.
Qed.
Lemma next_post_any fuel : forall cx, good_cx cx -> (left_over cx < fuel)%nat ->
  exists o cx', next_key_postorder fuel fi cx = Ok (o, cx') /\ progress cx cx' o.
Proof.
  induction fuel as [|fuel IH]; intros cx G L; [lia|]. cbn [next_key_postorder].
  destruct (cx_stack cx) as [|node rest] eqn:ST.
  { destruct (cx_return cx) as [|top r] eqn:RT.
    - exists None, cx. split; [reflexivity|]. split; [exact G|]. split; [intros x I; exact I|]. split; [intros x I; now left|exact I].
    - pose proof (pop_return cx top r G RT) as P. cbv zeta. destruct (_ || _).
      + eexists (Some top), _. split; [reflexivity|exact P].
      + eexists None, _. split; [reflexivity|]. destruct P as (P1 & P2 & P3 & _). repeat (split; [assumption|]). exact I. }
  assert (X : exists o cx', (let* (node, cx) := visit fi (cx_set_stack rest cx) node in
      let ret := match cx_return cx with [] => [] | last :: r => kn_set_track (kn_track last + 1) last :: r end in
      next_key_postorder fuel fi (cx_set_return (node :: ret) cx)) = Ok (o, cx') /\ progress cx cx' o).
  { destruct (visit_any cx node rest G ST) as (node' & cx' & new & -> & W & GN & EO & C & R). cbv beta iota zeta.
    pose proof (g_keys cx G) as GK. apply Forall_app in GK as (_ & GR).
    set (back := match cx_return cx' with [] => [] | last :: r => kn_set_track (kn_track last + 1) last :: r end).
    assert (BB : Forall good_key back /\ map kn_offset back = map kn_offset (cx_return cx)).
    { unfold back. rewrite (w_return _ _ _ W). cbn [cx_set_stack cx_return]. destruct (cx_return cx) as [|last r]; [split; [constructor|reflexivity]|].
      apply Forall_cons_iff in GR as (GL & GR). split; [|reflexivity]. constructor; [|exact GR]. now apply (good_same last). }
    destruct BB as (B1 & B2).
    destruct (after_visit cx node rest node' cx' new back G ST W GN EO C R B1 B2) as (_ & S2 & LR).
    destruct S2 as (G1 & I1 & P1 & L1).
    match type of G1 with good_cx ?c => destruct (IH c G1) as (o & c2 & E2 & PR) end; [lia|]. exists o, c2. split; [exact E2|].
    eapply progress_trans; [exact I1|exact P1| |exact PR]. unfold potential. rewrite LR. lia. }
  destruct (cx_return cx) as [|last r] eqn:RT; [exact X|]. destruct (kn_track last =? kn_to_return last); [|exact X].
  eexists (Some last), _. split; [reflexivity|]. now apply pop_return.
Qed.
Lemma collect_any post n : forall cx, good_cx cx -> (potential cx < n)%nat ->
  exists ks, collect post n fi cx = Ok ks /\ NoDup (map kn_offset ks) /\ Forall good_key ks /\ (forall x, In x (map kn_offset ks) -> comes cx x).
Proof.
  induction n as [|n IH]; intros cx G L; [lia|]. cbn [collect].
  assert (X : exists o cx', (if post then next_key_postorder else next_key_preorder) (S n) fi cx = Ok (o, cx') /\ progress cx cx' o).
  { unfold potential in L. destruct post; [apply next_post_any|apply next_pre_any]; auto; lia. }
  destruct X as (o & cx' & -> & G1 & I1 & P1 & O). cbv beta iota. destruct o as [k|].
  - destruct O as (L1 & GK & CK & IK & NK). destruct (IH cx' G1) as (ks & -> & ND & F & H); [lia|]. exists (k :: ks). split; [reflexivity|].
    cbn [map]. split; [|split; [now constructor|]].
    + constructor; [|exact ND]. intros J. destruct (H _ J); contradiction.
    + intros x [<-|J]; [exact CK|]. eapply comes_trans; eauto.
  - exists []. split; [reflexivity|]. split; [constructor|]. split; [constructor|]. intros x [].
Qed.
End Any.
