(** What the documents of keys and values say. *)
From Coq Require Import String.
From Verif Require Import Base BaseFacts Util UtilSpec UtilText LayoutSpec Types Value CellSpec CellData CellRead TreeSpec Log Export ExportSpec ExportFacts Date DateSpec DateFacts Show ShowSpec ShowFacts Json JsonSpec JsonFacts JsonDoc.
Open Scope string_scope.
Open Scope N_scope.
Open Scope list_scope.

Section KvInd.
Context (P : key_value -> Prop) (H : forall v, Forall P (kv_versions v) -> P v).
Fixpoint kv_ind' (v : key_value) : P v :=
  H v (match v return Forall P (kv_versions v) with
       | mkKV _ _ _ _ _ _ _ vs _ _ _ => (fix go l := match l return Forall P l with [] => Forall_nil P | x :: l => Forall_cons x (kv_ind' x) (go l) end) vs
       end).
End KvInd.

(** ** Documents *)
Definition doc_notes (type : list N) (names : list (list N * N)) (bits : N) : list (string * json) :=
  ("interpreted", Str (show_flags type names bits))
  :: if N.land bits (fold_right N.lor 0 (map snd names)) =? bits then []
     else [("logs", Str (code_name WarningUnrecognizedBitflag ++ text " notatin::cell_key_node::" ++ type ++ text "::from_bits_checked: 0x"
                              ++ hex_upper (S (N.size_nat bits)) bits [] ++ text ";"))].
Lemma notes_text type names bits : flag_notes type names bits = texts (doc_notes type names bits).
Proof. unfold flag_notes, doc_notes. now destruct (_ =? _). Qed.
Lemma notes_plain type names bits : plain_more (doc_notes type names bits) = true.
Proof. unfold doc_notes. now destruct (_ =? _). Qed.
(** *** Bits without a name *)
Lemma base16_app a b : forall n, read_base16 n (a ++ b) = match read_base16 n a with Some m => read_base16 m b | None => None end.
Proof. induction a as [|c a IH]; intros n; [reflexivity|]. cbn [app read_base16]. destruct (hex_value c); [apply IH|reflexivity]. Qed.
Lemma hex_large_value d : d < 16 -> hex_value (hex_large d) = Some d.
Proof.
  intros H. unfold hex_large, hex_value. destruct (N.ltb_spec d 10).
  - replace (48 <=? 48 + d) with true by (symmetry; apply N.leb_le; lia). replace (48 + d <=? 57) with true by (symmetry; apply N.leb_le; lia). cbn [andb]. f_equal. lia.
  - replace (55 + d <=? 57) with false by (symmetry; apply N.leb_gt; lia). rewrite andb_false_r.
    replace (65 <=? 55 + d) with true by (symmetry; apply N.leb_le; lia). replace (55 + d <=? 70) with true by (symmetry; apply N.leb_le; lia). cbn [andb]. f_equal. lia.
Qed.
Lemma hex_large_zero d : d < 16 -> hex_large d = 48 -> d = 0.
Proof. unfold hex_large. destruct (d <? 10); lia. Qed.
Lemma hex_upper_is : forall fuel n r, n < 2 ^ N.of_nat fuel -> exists ds, hex_upper (S fuel) n r = ds ++ r /\ hex_numeral ds n.
Proof.
  induction fuel as [|fuel IH]; intros n r L.
  - assert (n = 0) by (change (2 ^ N.of_nat 0) with 1 in L; lia). subst n. exists [48]. split; [reflexivity|]. split; [reflexivity|]. split; [discriminate|reflexivity].
  - set (u := S fuel) in *. cbn [hex_upper]. assert (D : n mod 16 < 16) by (apply N.mod_lt; lia). destruct (N.ltb_spec n 16) as [S0|S0].
    + exists [hex_large (n mod 16)]. split; [reflexivity|]. rewrite N.mod_small in * by exact S0. split; [cbn [read_base16]; now rewrite hex_large_value|]. split; [discriminate|]. cbn [hd_error]. now intros [= ->].
    + destruct (IH (n / 16) (hex_large (n mod 16) :: r)) as (ds & E & R & NE & HD).
      { unfold u in L. rewrite Nnat.Nat2N.inj_succ, N.pow_succ_r' in L. apply N.div_lt_upper_bound; [lia|]. lia. }
      exists (ds ++ [hex_large (n mod 16)]). rewrite <- app_assoc. split; [exact E|]. split; [|split].
      * rewrite base16_app, R. cbn [read_base16]. rewrite hex_large_value by exact D. f_equal. rewrite (N.div_mod' n 16) at 3. reflexivity.
      * now destruct ds.
      * destruct ds as [|d ds]; [contradiction|]. cbn [app hd_error] in *. intros X. specialize (HD X). injection HD as -> ->. cbn in R. injection R as R.
        exfalso. assert (16 / 16 <= n / 16) by (apply N.div_le_mono; lia). change (16 / 16) with 1 in *. lia.
Qed.
Lemma hex_upper_numeral n : hex_numeral (hex_upper (S (N.size_nat n)) n []) n.
Proof.
  destruct (hex_upper_is (N.size_nat n) n []) as (ds & -> & H); [|now rewrite app_nil_r].
  destruct n as [|p]; [reflexivity|]. cbn [N.size_nat]. assert (H := Pos.size_gt p). replace (N.of_nat (Pos.size_nat p)) with (N.pos (Pos.size p)); [exact H|].
  clear H. induction p; cbn [Pos.size_nat Pos.size]; [rewrite Nnat.Nat2N.inj_succ, <- IHp; reflexivity..|reflexivity].
Qed.
Lemma mask_bit (bits : list (list N * N)) i : N.testbit (fold_right N.lor 0 (map snd (map (fun x => (fst x, 2 ^ snd x)) bits))) i = true <-> In i (map snd bits).
Proof.
  induction bits as [|[m b] bits IH]; cbn [map fst snd fold_right In]; [rewrite N.bits_0; split; [discriminate|contradiction]|].
  rewrite N.lor_spec, orb_true_iff, IH, N.pow2_bits_eqb, N.eqb_eq. reflexivity.
Qed.
Lemma all_named_is names bits n : names = map (fun x => (fst x, 2 ^ snd x)) bits -> (N.land n (fold_right N.lor 0 (map snd names)) =? n) = true <-> all_named bits n.
Proof.
  intros ->. rewrite N.eqb_eq. split.
  - intros E i T. rewrite <- E, N.land_spec, andb_true_iff in T. now apply mask_bit.
  - intros A. apply N.bits_inj. intros i. rewrite N.land_spec. destruct (N.testbit n i) eqn:T; [|reflexivity]. apply mask_bit. now apply A.
Qed.
Lemma field_warned places l name value type names bits n : distinct (map fst l) = true -> names = map (fun x => (fst x, 2 ^ snd x)) bits ->
  In (name, (value, doc_notes type names n)) l -> warned name type bits n (doc_detail places l).
Proof.
  intros D E I. destruct (field_place_of places l name value _ D I) as (tag & inner & place & T & M). exists tag, inner, (doc_field place value (doc_notes type names n)). split; [exact T|]. split; [exact M|].
  pose proof (all_named_is names bits n E) as A. pose proof (notes_plain type names n) as P. unfold doc_notes in *. destruct (_ =? n).
  - left. split; [now apply A|]. apply member_none. now destruct place as [[? ?]|].
  - right. split; [intros X; apply A in X; discriminate X|]. exists (hex_upper (S (N.size_nat n)) n []). split; [apply hex_upper_numeral|].
    rewrite (field_more place value _ "logs" _ P (or_intror (or_introl eq_refl))). reflexivity.
Qed.
Definition bare (x : json) : json * list (string * json) := (x, []).
Definition key_entries (d : nk_detail) : list (string * (json * list (string * json))) :=
  [("size", bare (Num (kd_size d))); ("signature", bare (Str (text "nk")));
   ("key_node_flag_bits", (num (kd_flags d), doc_notes (text "KeyNodeFlags") key_flag_names (kd_flags d)));
   ("last_key_written_date_and_time", (num (kd_time d), [("interpreted", Str (format_date_time (get_date_time_from_filetime (kd_time d))))]));
   ("access_flag_bits", (num (kd_access d), doc_notes (text "AccessFlags") access_flag_names (kd_access d)));
   ("parent_key_offset_relative", bare (Num (kd_parent d))); ("number_of_sub_keys", bare (num (kd_nsub d)));
   ("number_of_volatile_sub_keys", bare (num (kd_nvol d))); ("sub_keys_list_offset_relative", bare (num (kd_sublist d)));
   ("volatile_sub_keys_list_offset_relative", bare (Num (kd_vollist d))); ("number_of_key_values", bare (num (kd_nvalues d)));
   ("key_values_list_offset_relative", bare (Num (kd_vallist d))); ("security_key_offset_relative", bare (num (kd_security d)));
   ("class_name_offset_relative", bare (Num (kd_class d))); ("largest_sub_key_name_size", bare (num (kd_max_name d)));
   ("largest_sub_key_class_name_size", bare (num (kd_max_class d))); ("largest_value_name_size", bare (num (kd_max_value_name d)));
   ("largest_value_data_size", bare (num (kd_max_value_data d))); ("work_var", bare (num (kd_work d)));
   ("key_name_size", bare (num (kd_name_size d))); ("class_name_size", bare (num (kd_class_size d))); ("slack", bare (Arr (map num (kd_slack d))))].
Lemma nums_text l : json_seq (map json_num l) = text_of (Arr (map num l)).
Proof. apply seq_text. intros n _. apply num_text. Qed.
Lemma key_detail_text d : json_key_detail d = text_of (doc_detail (kd_full d) (key_entries d)).
Proof.
  unfold json_key_detail. apply detail_text. unfold key_entries.
  repeat (apply Forall2_cons; [cbn [fst snd bare]; split; [reflexivity|split; [first [apply num_text|apply nums_text|reflexivity]|first [apply notes_text|reflexivity]]]|]). constructor.
Qed.
Lemma key_detail_said d : says_key_detail d (doc_detail (kd_full d) (key_entries d)).
Proof.
  assert (D : distinct (map fst (key_entries d)) = true) by (vm_compute; reflexivity).
  split; [|split; [|split; [|split; [|split]]]].
  - change (key_fields d) with (map (fun e => (fst e, fst (snd e))) (key_entries d)). apply fields_said; [exact D|].
    unfold key_entries. cbn [forallb snd bare]. rewrite !notes_plain. reflexivity.
  - apply (field_noted _ _ _ (num (kd_flags d)) (doc_notes (text "KeyNodeFlags") key_flag_names (kd_flags d)) (show_key_flags (kd_flags d))); [exact D|apply notes_plain|unfold key_entries; cbn [In]; tauto|now left|apply key_told].
  - apply (field_noted _ _ _ (num (kd_access d)) (doc_notes (text "AccessFlags") access_flag_names (kd_access d)) (show_access_flags (kd_access d))); [exact D|apply notes_plain|unfold key_entries; cbn [In]; tauto|now left|apply access_told].
  - apply (field_noted _ _ _ (num (kd_time d)) [("interpreted", Str (format_date_time (get_date_time_from_filetime (kd_time d))))] (format_date_time (get_date_time_from_filetime (kd_time d)))); [exact D|reflexivity|unfold key_entries; cbn [In]; tauto|now left|].
    apply date_denotes.
  - apply (field_warned _ _ _ (num (kd_flags d)) _ key_flag_names); [exact D|reflexivity|unfold key_entries; cbn [In]; tauto].
  - apply (field_warned _ _ _ (num (kd_access d)) _ access_flag_names); [exact D|reflexivity|unfold key_entries; cbn [In]; tauto].
Qed.
Definition value_entries (d : vk_detail) : list (string * (json * list (string * json))) :=
  [("size", bare (Num (vd_size d))); ("signature", bare (Str (text "vk"))); ("value_name_size", bare (num (vd_name_size d))); ("data_size_raw", bare (num (vd_data_size_raw d)));
   ("data_offset_relative", bare (num (vd_data_offset d))); ("data_type_raw", bare (num (vd_type_raw d))); ("flags_raw", bare (num (vd_flags_raw d)));
   ("padding", bare (num (vd_padding d))); ("value_name", (Str (vd_name d), [("interpreted", Str (pretty (vd_name d)))])); ("slack", bare (Arr (map num (vd_slack d))))].
Lemma value_detail_text d : json_value_detail d = text_of (doc_detail (vd_full d) (value_entries d)).
Proof.
  unfold json_value_detail. apply detail_text. unfold value_entries.
  repeat (apply Forall2_cons; [cbn [fst snd bare]; split; [reflexivity|split; [first [apply num_text|apply nums_text|reflexivity]|reflexivity]]|]). constructor.
Qed.
Lemma value_detail_said d : says_fields (vd_full d) (value_fields d) (doc_detail (vd_full d) (value_entries d)).
Proof.
  change (value_fields d) with (map (fun e => (fst e, fst (snd e))) (value_entries d)). apply fields_said; vm_compute; reflexivity.
Qed.
Definition doc_content (c : cell_value) : json :=
  match c with
  | CNone => Str (text "None")
  | CBinary b => tagged "Binary" (Str (to_hex_string b))
  | CString s => tagged "String" (Str s)
  | CMultiString l => tagged "MultiString" (Arr (map Str l))
  | CU32 n => tagged "U32" (num n)
  | CI32 z => tagged "I32" (Num z)
  | CU64 n => tagged "U64" (num n)
  | CI64 z => tagged "I64" (Num z)
  | CError => Str (text "Error")
  end.
Lemma tagged_text name s x : s = text_of x -> json_struct [(name, s)] = text_of (tagged name x).
Proof. intros ->. change (tagged name x) with (objd [(name, x)]). now same_struct. Qed.
Lemma content_doc_text c : json_content c = text_of (doc_content c).
Proof.
  destruct c; cbn [json_content doc_content]; try reflexivity; apply tagged_text; try reflexivity; try apply num_text. apply seq_text. reflexivity.
Qed.
Section Docs.
Context (il : item_logs).
Definition value_members (v : key_value) (vs : list json) : list (string * json) :=
  [("file_offset_absolute", num (kv_offset v)); ("detail", doc_detail (vd_full (kv_detail v)) (value_entries (kv_detail v))); ("data_type", Str (type_name (kv_type v)));
   ("flags", Str (show_flags (text "CellKeyValueFlags") value_flag_names (kv_flags v))); ("value_name", Str (pretty (vd_name (kv_detail v))));
   ("cell_parse_warnings", doc_logs (il_value il v)); ("sequence_num", maybe (kv_seq v)); ("updated_by_sequence_num", maybe (kv_updated_by v));
   ("data_offsets_absolute", Arr (map num (kv_data_offsets v))); ("state", called (kv_state v)); ("value", doc_content (content_of_value v));
   ("value_parse_warnings", match il_content il v with Some l => doc_logs l | None => Null end); ("versions", Arr vs)].
Fixpoint doc_value (v : key_value) : json := objd (value_members v (map doc_value (kv_versions v))).
Lemma value_text v : json_value il v = text_of (doc_value v).
Proof.
  induction v as [v IH] using kv_ind'.
  replace (doc_value v) with (objd (value_members v (map doc_value (kv_versions v)))) by now destruct v.
  assert (E : json_value il v = json_struct
    [("file_offset_absolute", json_num (kv_offset v)); ("detail", json_value_detail (kv_detail v)); ("data_type", json_str (type_name (kv_type v)));
     ("flags", json_str (show_flags (text "CellKeyValueFlags") value_flag_names (kv_flags v))); ("value_name", json_str (pretty (vd_name (kv_detail v))));
     ("cell_parse_warnings", json_logs (il_value il v)); ("sequence_num", json_opt json_num (kv_seq v));
     ("updated_by_sequence_num", json_opt json_num (kv_updated_by v)); ("data_offsets_absolute", json_seq (map json_num (kv_data_offsets v)));
     ("state", json_str (state_name (kv_state v))); ("value", json_content (content_of_value v)); ("value_parse_warnings", json_opt json_logs (il_content il v));
     ("versions", json_seq (map (json_value il) (kv_versions v)))]) by now destruct v.
  rewrite E. clear E. unfold value_members. same_struct.
  - apply num_text.
  - apply value_detail_text.
  - reflexivity.
  - reflexivity.
  - reflexivity.
  - apply logs_text.
  - apply maybe_text.
  - apply maybe_text.
  - apply nums_text.
  - now destruct (kv_state v).
  - apply content_doc_text.
  - destruct (il_content il v); [apply logs_text|reflexivity].
  - apply seq_text. intros x I. rewrite Forall_forall in IH. now apply IH.
Qed.
Definition key_members (k : key_node) : list (string * json) :=
  [("file_offset_absolute", num (kn_offset k)); ("detail", doc_detail (kd_full (kn_detail k)) (key_entries (kn_detail k))); ("key_name", Str (kn_name k)); ("path", Str (kn_path k));
   ("cell_state", called (kn_state k)); ("sequence_num", maybe (kn_seq k)); ("updated_by_sequence_num", maybe (kn_updated_by k));
   ("sub_values", Arr (map doc_value (kn_values k))); ("logs", doc_logs (il_key il k))].
Definition doc_key (k : key_node) : json := objd (key_members k).
Lemma key_text k : json_key il k = text_of (doc_key k).
Proof.
  unfold json_key, doc_key, key_members. same_struct.
  - apply num_text.
  - apply key_detail_text.
  - reflexivity.
  - reflexivity.
  - now destruct (kn_state k).
  - apply maybe_text.
  - apply maybe_text.
  - apply seq_text. intros v _. apply value_text.
  - apply logs_text.
Qed.

(** ** What they say *)
Lemma logs_said l : says_logs l (doc_logs l).
Proof.
  unfold says_logs, doc_logs. destruct l as [ms|]; [|reflexivity]. eexists. split; [apply member_objd; [reflexivity|now left]|].
  induction ms as [|m ms IH]; constructor; [|exact IH]. rewrite <- LogFacts.code_worded. split; (apply member_objd; [reflexivity|]); cbn [In]; tauto.
Qed.
Lemma type_said t : says_type t (Str (type_name t)).
Proof.
  exists (type_name t). split; [reflexivity|]. intros u n I.
  assert (A : forall u n, In (u, n) common_types -> type_name u = text n).
  { intros u0 n0 H. unfold common_types in H. cbn [In] in H. repeat (destruct H as [H|H]; [injection H as <- <-; vm_compute; reflexivity|]). contradiction. }
  split; [intros ->; now apply A|]. intros E. unfold type_name in E. destruct (find (fun e => fst e =? t) type_names) as [[t' n']|] eqn:F.
  - apply find_some in F as (F & T). cbn [fst snd] in *. apply N.eqb_eq in T. subst t' n'.
    assert (X : forall e, In e type_names -> forallb (fun x => negb (beq (snd e) (text (snd x))) || (fst e =? fst x)) common_types = true).
    { apply forallb_forall. vm_compute. reflexivity. }
    specialize (X _ F). rewrite forallb_forall in X. specialize (X _ I). cbn [fst snd] in X. rewrite beq_refl in X. now apply N.eqb_eq in X.
  - exfalso. assert (X : forallb (fun x => negb (beq (text "REG_UNKNOWN") (text (snd x)))) common_types = true) by (vm_compute; reflexivity).
    rewrite forallb_forall in X. specialize (X _ I). cbn [snd] in X. rewrite E, beq_refl in X. discriminate X.
Qed.
Lemma value_flags_told n : tells_bits (text "CellKeyValueFlags") value_bits n (show_flags (text "CellKeyValueFlags") value_flag_names n).
Proof.
  apply flags_told; [reflexivity|].
  repeat (constructor; [cbn [In map fst value_bits]; intros H; repeat (destruct H as [H|H]; [discriminate H|]); exact H|]). constructor.
Qed.
Lemma content_bytes v b l : bytes_ok (data_bytes v) -> get_content v = Ok (CBinary b, l) -> bytes_ok b.
Proof. intros B E. exact (content_is_text v _ _ B E). Qed.
Lemma content_doc_said v c l : get_content v = Ok (c, l) -> bytes_ok (data_bytes v) -> says_content c (doc_content c).
Proof.
  intros E B. destruct c; cbn [says_content doc_content]; try reflexivity. eexists. split; [reflexivity|]. apply hex_round_trip. exact (content_bytes v _ _ B E).
Qed.
Lemma value_docs v : says_value (il_value il) (il_content il) v (doc_value v).
Proof.
  induction v as [v IH] using kv_ind'. replace (doc_value v) with (objd (value_members v (map doc_value (kv_versions v)))) by now destruct v.
  destruct (content_total v) as (c & l & E).
  assert (M : forall name x, In (name, x) (value_members v (map doc_value (kv_versions v))) -> member name (objd (value_members v (map doc_value (kv_versions v)))) = Some x).
  { intros name x I. apply member_objd; [reflexivity|exact I]. }
  eapply value_said with (c := c) (codes := l); try (apply M; unfold value_members; cbn [In]; tauto).
  - apply value_detail_said.
  - apply type_said.
  - apply value_flags_told.
  - apply M. unfold value_members. cbn [In]. unfold value_name, pretty. destruct (vd_name (kv_detail v)); tauto.
  - apply logs_said.
  - exact E.
  - intros B. rewrite (content_of_ok _ _ _ E). exact (content_doc_said v c l E B).
  - destruct (il_content il v); [apply logs_said|reflexivity].
  - clear - IH. induction IH; constructor; assumption.
  - apply (field_noted _ _ _ (Str (vd_name (kv_detail v))) [("interpreted", Str (pretty (vd_name (kv_detail v))))] (pretty (vd_name (kv_detail v))));
      [reflexivity|reflexivity|unfold value_entries; cbn [In]; tauto|now left|]. unfold value_name, pretty. now destruct (vd_name (kv_detail v)).
Qed.
Lemma key_docs k : says_key (il_key il) (il_value il) (il_content il) k (doc_key k).
Proof.
  assert (M : forall name x, In (name, x) (key_members k) -> member name (doc_key k) = Some x).
  { intros name x I. apply member_objd; [reflexivity|exact I]. }
  unfold says_key. repeat split; try (apply M; unfold key_members; cbn [In]; tauto).
  - eexists. split; [apply M; unfold key_members; cbn [In]; tauto|]. apply key_detail_said.
  - eexists. split; [apply M; unfold key_members; cbn [In]; tauto|]. induction (kn_values k); constructor; [apply value_docs|assumption].
  - eexists. split; [apply M; unfold key_members; cbn [In]; tauto|]. apply logs_said.
Qed.
Lemma key_line k : read_json (json_key il k) = Some (doc_key k) /\ ~ In 10 (json_key il k).
Proof. rewrite key_text. split; [apply document_back|apply document_line]. Qed.
Lemma export_lines ks : read_lines (json_export il ks) (map doc_key ks).
Proof.
  induction ks as [|k ks IH]; [constructor|]. cbn [json_export flat_map map]. rewrite <- app_assoc. destruct (key_line k) as (A & B). constructor; [exact B|exact A|exact IH].
Qed.
Lemma export_said ks : exists js, read_lines (json_export il ks) js /\ Forall2 (says_key (il_key il) (il_value il) (il_content il)) ks js.
Proof. exists (map doc_key ks). split; [apply export_lines|]. induction ks; constructor; [apply key_docs|assumption]. Qed.
End Docs.
