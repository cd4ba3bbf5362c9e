(** C61, C62: the Python bindings. *)
From Coq Require Import String.
From Verif Require Import Base BaseFacts Util UtilSpec LayoutSpec Types Value Node Parser TxSpec TxLog CellSpec TreeSpec TreeIter TreeOpen TreeUse Pure TreeCount TreeSession
  Demo DemoTree DemoExport NavSpec NavFacts Log Export ExportSpec Date DateSpec DateFacts Show ShowSpec PropsNav Python PythonSpec PythonFacts DecodeSpec DecodeFacts.
Open Scope string_scope.
Open Scope N_scope.
Open Scope list_scope.

(** ** C61: dates *)

(** Every stored time gives a [datetime], and no call raises for it; if the time
    lies between the years 1677 and 2262 it is the nearest microsecond. *)
Theorem C61_dates : forall filetime, exists d, date_to_pyobject (get_date_time_from_filetime filetime) = Some d
  /\ (fits_i64 (filetime_instant filetime) -> shows_time d filetime).
Proof. intros ft. destruct (date_total ft) as (d & E). exists d. split; [exact E|]. intros F. exact (date_shown ft d F E). Qed.
Print Assumptions C61_dates.
(** A [datetime] names one microsecond, a microsecond is named by one [datetime],
    and a time has one nearest microsecond. *)
Theorem C61_one_meaning : forall d m, names_micro d m ->
  (forall m', names_micro d m' -> m' = m) /\ (forall d', names_micro d' m -> d' = d) /\ (forall a n, nearest_micro a m -> nearest_micro a n -> n = m).
Proof. intros d m M. split; [intros m' M'; eapply names_one; eassumption|]. split; [intros d' M'; eapply named_one; eassumption|]. intros a n A B. eapply nearest_one; eassumption. Qed.
Print Assumptions C61_one_meaning.
(** Comparing the [datetime]s of two keys does not contradict their times. *)
Theorem C61_order : forall a b d e m n, shows_time d a -> shows_time e b -> names_micro d m -> names_micro e n -> a <= b -> m <= n.
Proof. exact dates_order. Qed.
Print Assumptions C61_order.
Example C61_example : fits_i64 (filetime_instant 132655520530000015)
  /\ date_to_pyobject (get_date_time_from_filetime 132655520530000015) = Some (mkPyDate 2021 5 15 11 34 13 2)
  /\ date_to_pyobject (get_date_time_from_filetime 132655520530000005) = Some (mkPyDate 2021 5 15 11 34 13 0)
  /\ date_to_pyobject (get_date_time_from_filetime 125963423999999999) = Some (mkPyDate 2000 3 1 0 0 0 0)
  /\ fits_i64 (filetime_instant 208678456368547758)
  /\ date_to_pyobject (get_date_time_from_filetime 208678456368547758) = Some (mkPyDate 2262 4 11 23 47 16 854776).
Proof. split; [split; vm_compute; congruence|]. split; [vm_compute; reflexivity|]. split; [vm_compute; reflexivity|]. split; [vm_compute; reflexivity|].
  split; [split; vm_compute; congruence|]. vm_compute; reflexivity. Qed.
(** Times that differ by less than a microsecond are not told apart. *)
Theorem C61_exact_refuted : exists a b, a <> b /\ fits_i64 (filetime_instant a) /\ fits_i64 (filetime_instant b)
  /\ date_to_pyobject (get_date_time_from_filetime a) = date_to_pyobject (get_date_time_from_filetime b).
Proof. exists 132655520530000001, 132655520530000002. split; [discriminate|]. split; [split; vm_compute; congruence|]. split; [split; vm_compute; congruence|]. vm_compute. reflexivity. Qed.
Print Assumptions C61_exact_refuted.
(** Outside those years the [datetime] is another one: a key without a date shows
    one of 2185. *)
Theorem C61_zero_refuted : exists d, date_to_pyobject (get_date_time_from_filetime 0) = Some d /\ dt_year d = 2185 /\ ~ shows_time d 0.
Proof.
  eexists. split; [vm_compute; reflexivity|]. split; [reflexivity|]. intros (m & (days & A & _ & _ & _ & _ & E) & (N1 & _)).
  assert (D : days = 0) by lia. subst days. discriminate A.
Qed.
Print Assumptions C61_zero_refuted.

(** ** C62: keys and values *)

(** A key in hand, after any calls, shows one key of the hive. *)
Theorem C62_held : forall buffer files t p0 s ks, python_on buffer files t p0 s ks -> forall k, In k ks ->
  exists names x, py_stands t k names x /\ sees_key (ps_buffer p0) k names x
  /\ forall names' x', py_stands t k names' x' -> names' = names /\ x' = x.
Proof. exact on_held. Qed.
Print Assumptions C62_held.
(** Iterating gives every key once, in the order of the hive. *)
Theorem C62_iteration : forall buffer files t p0 p ks, python_on buffer files t p0 (Some p) ks -> forall fuel, (2 * List.length (positions t) < fuel)%nat ->
  exists l, py_reg_keys fuel (Some p) = Ok (Returned l, None) /\ sees_keys (ps_buffer p0) l (preorder [] t).
Proof. exact on_iteration. Qed.
Print Assumptions C62_iteration.
Theorem C62_root : forall buffer files t p0 p ks, python_on buffer files t p0 (Some p) ks ->
  exists k s', py_root (Some p) = Ok (Returned (Some k), s') /\ sees_key (ps_buffer p0) k [t_name t] t.
Proof. exact on_root. Qed.
Print Assumptions C62_root.
(** A key by its path. *)
Theorem C62_open : forall buffer files t p0 p ks, python_on buffer files t p0 (Some p) ks -> forall a segs b fuel,
  path_names segs -> (List.length segs <= fuel)%nat ->
  exists o s', py_open fuel (Some p) (utf8 (repeat 92 a ++ joined segs ++ repeat 92 b)) = Ok (Returned o, s')
  /\ match hd_error (reached [] segs t) with
     | None => o = None
     | Some (names, x) => exists k, o = Some k /\ sees_key (ps_buffer p0) k names x
     end.
Proof. exact on_open. Qed.
Print Assumptions C62_open.
(** From a key in hand: its sub keys, a key below it, its parent. *)
Theorem C62_sub_keys : forall buffer files t p0 p ks, python_on buffer files t p0 (Some p) ks -> forall k names x fuel,
  In k ks -> py_stands t k names x -> (List.length (t_subs x) < fuel)%nat ->
  exists l k' s', py_subkeys fuel (Some p) k = Ok (l, k', s') /\ sees_keys (ps_buffer p0) l (map (fun c => (names ++ [t_name c], c)) (t_subs x)).
Proof. exact on_sub_keys. Qed.
Print Assumptions C62_sub_keys.
Theorem C62_find : forall buffer files t p0 p ks, python_on buffer files t p0 (Some p) ks -> forall k names x above segs b fuel,
  In k ks -> py_stands t k names x -> names = above ++ [t_name x] ->
  Forall (Forall scalar) segs -> Forall (fun n => ~ In 92 n) segs -> segs <> [] -> hd_error (rev segs) <> Some [] -> (List.length segs <= fuel)%nat ->
  exists o s', py_find_key fuel (Some p) k (utf8 (joined segs ++ repeat 92 b)) = Ok (o, s')
  /\ match hd_error (reached above segs x) with
     | None => o = None
     | Some y => exists c, o = Some c /\ sees_key (ps_buffer p0) c (fst y) (snd y)
     end.
Proof. exact on_find. Qed.
Print Assumptions C62_find.
Theorem C62_parent : forall buffer files t p0 p ks, python_on buffer files t p0 (Some p) ks -> forall k names x names' x',
  In k ks -> py_stands t k names x -> In (names', x') (preorder [] t) -> In x (t_subs x') ->
  exists c s', py_get_parent (Some p) k = Ok (Returned (Some c), s') /\ sees_key (ps_buffer p0) c names' x'.
Proof. exact on_parent. Qed.
Print Assumptions C62_parent.
(** The recorded versions of a value, one after the other. *)
Theorem C62_versions : forall v fuel, (List.length (kv_versions v) < fuel)%nat -> py_versions fuel v = kv_versions v.
Proof. exact versions_all. Qed.
Print Assumptions C62_versions.

(** The root in hand; its date is one Python shows, and its first value is the
    number 1. *)
Example C62_example : exists p k, python_on demo_hive [] demo_tree p (Some p) [k] /\ py_stands demo_tree k [n_root] demo_tree
  /\ fits_i64 (filetime_instant (stored_time (ps_buffer p) demo_tree)) /\ In t_alpha (t_subs demo_tree)
  /\ hd_error (reached [] [n_alpha] demo_tree) = Some ([n_root; n_alpha], t_alpha) /\ path_names [n_alpha]
  /\ exists x, hd_error (t_vals demo_tree) = Some x /\ stored_content (shown_type (v_type x)) (value_data (v_type x mod 4096) (v_data x)) (CU32 1)
  /\ in_python (CU32 1) (PyInt 1).
Proof.
  destruct demo_header as (K & R & H & C).
  destruct (hive_opens keep 0 no_hash false demo_hive demo_tree K R demo_is_hive) as (p & E & B & _).
  assert (OP : opens demo_hive [] demo_tree p) by (split; [exact K|]; split; [rewrite B; exact demo_is_hive|]; exists keep, O, no_hash, false; exact E).
  assert (CN : clean_names demo_tree) by (repeat constructor; cbn; intuition discriminate).
  assert (RT : num_at (ps_buffer p) 36 4 = 32) by (rewrite B; exact H). assert (PS : parents_stored (ps_buffer p) demo_tree) by (rewrite B; exact demo_parents).
  assert (P0 : python_on demo_hive [] demo_tree p (Some p) []) by (repeat (split; [assumption|]); constructor).
  destruct (opened_read_root demo_tree p (opens_opened _ _ _ _ OP) RT) as (k & GR & W). destruct (made_some k) as (d & M & _).
  exists p, (mkPyKey k d). split; [repeat (split; [assumption|])|].
  { apply (py_rooted _ _ (Some p) []); [constructor|]. unfold py_root, key_for. now rewrite GR, M. }
  split; [split; [now left|apply (waits_shown _ _ _ W)]|]. split; [rewrite B; split; vm_compute; congruence|]. split; [now left|]. split; [vm_compute; reflexivity|].
  split; [split; [repeat constructor|split; [repeat constructor; cbn; intuition discriminate|split; discriminate]]|].
  eexists. split; [reflexivity|]. split; [|exact (py_u32 1)].
  change (stored_content 4 (enc 4 1 ++ []) (CU32 1)). constructor; [now left|reflexivity].
Qed.
(** Once the keys have been iterated over, the parser answers as if the hive were
    empty, and the keys in hand as if they had nothing below or above them. *)
Theorem C62_after_iteration_refuted : forall buffer files t p0 p ks, python_on buffer files t p0 (Some p) ks -> forall fuel, (2 * List.length (positions t) < fuel)%nat ->
  exists l s', py_reg_keys fuel (Some p) = Ok (Returned l, s')
  /\ (exists k s1, py_root (Some p) = Ok (Returned (Some k), s1)) /\ py_root s' = Ok (Returned None, s')
  /\ (forall n path, py_open n s' path = Ok (Returned None, s'))
  /\ (forall k, py_get_parent s' k = Ok (Returned None, s')) /\ (forall n k path, py_find_key n s' k path = Ok (None, s'))
  /\ (forall n k, exists k', py_subkeys n s' k = Ok ([], k', s')) /\ (forall n, py_reg_keys n s' = Ok (Raised, s')).
Proof.
  intros buffer files t p0 p ks ON fuel L. destruct (C62_iteration _ _ _ _ _ _ ON fuel L) as (l & E & _). exists l, None. split; [exact E|].
  split; [destruct (C62_root _ _ _ _ _ _ ON) as (k & s1 & R & _); now exists k, s1|]. repeat (split; [intros; reflexivity|]). split; [|reflexivity]. intros n k. eexists. reflexivity.
Qed.
Print Assumptions C62_after_iteration_refuted.

(** ** C65: decoders, one after another *)
Theorem C65_decoders : forall f off a b, decoded f off a b -> decode f a off = Ok (b, []).
Proof. exact step_decodes. Qed.
Print Assumptions C65_decoders.
Theorem C65_chain : forall v c l f off steps d, get_content v = Ok (c, l) -> decoded_by ((f, off) :: steps) c d ->
  exists o, decode_value v f off steps = Ok o /\ in_python d o.
Proof.
  intros v c l f off steps d G D. exists (prepare_content d). split; [exact (value_decodes _ _ _ _ _ _ _ G D)|].
  apply in_python_text. eapply chain_text; [exact D|discriminate].
Qed.
Print Assumptions C65_chain.
(** The values of a key in hand. *)
Theorem C65_hive : forall buffer files t p0 s ks, python_on buffer files t p0 s ks -> forall k, In k ks ->
  exists names x, py_stands t k names x /\ forall fuel, (List.length (t_vals x) < fuel)%nat ->
  Forall2 (fun v y => forall c, stored_content (shown_type (v_type y)) (value_data (v_type y mod 4096) (v_data y)) c ->
    forall f off steps d, decoded_by ((f, off) :: steps) c d -> exists o, decode_value v f off steps = Ok o /\ in_python d o) (py_values fuel k) (t_vals x).
Proof.
  intros buffer files t p0 s ks O k J. destruct (C62_held _ _ _ _ _ _ O k J) as (names & x & S & (_ & _ & _ & _ & _ & _ & V & _) & _).
  exists names, x. split; [exact S|]. intros fuel L. specialize (V fuel L). clear - V.
  induction V as [|v y vs ys (_ & _ & _ & _ & D) V IH]; constructor; [|exact IH]. intros c C. exact (proj2 (D c C)).
Qed.
Print Assumptions C65_hive.
(** Compressed bytes with a text in them: after two bytes of other data the
    stream, and in it, after one byte, the text, which is turned in the end. *)
Example C65_example : let packed := [9; 9] ++ stream_bytes [Comp [] [Lit 7; Lit 85; Lit 0; Lit 118; Lit 0]; Raw [33; 0; 0; 0; 5]] in
  decoded_by [(Lznt1, 2); (Utf16, 1); (Rot13, 0)] (CBinary packed) (CString (utf8 [72; 105; 33]))
  /\ (forall v, get_content v = Ok (CBinary packed, []) -> decode_value v Lznt1 2 [(Utf16, 1); (Rot13, 0)] = Ok (PyStr [72; 105; 33])).
Proof.
  intros packed.
  assert (D : decoded_by [(Lznt1, 2); (Utf16, 1); (Rot13, 0)] (CBinary packed) (CString (utf8 [72; 105; 33]))).
  { eapply decoded_then; [subst packed; rewrite <- (app_nil_r (stream_bytes _)); apply (decoded_bytes [9; 9]); [repeat constructor; try (vm_compute; congruence)|now left]|].
    eapply decoded_then; [apply (decoded_text [7] [85; 118; 33] [0; 0; 5]); [repeat constructor; unfold scalar; lia|cbn; lia|right; now exists [5]]|].
    eapply decoded_then; [apply (decoded_turned 0 [85; 118; 33]); repeat constructor; unfold scalar; lia|]. apply decoded_no_more. }
  split; [exact D|]. intros v G. rewrite (value_decodes _ _ _ _ _ _ _ G D). vm_compute. reflexivity.
Qed.
