(** Proofs about value cells, value data and typed content. *)
From Verif Require Import Base BaseFacts LayoutSpec LayoutFacts Util UtilSpec UtilText BaseBlock Types
  Value Node CellSpec CellFacts.

Lemma vk_round_trip d name rest off seq full text w : vk_fits d name ->
  (if vd_name_size d =? 0 then Ok ([], 0)
   else string_from_bytes (N.odd (value_flags (vd_flags_raw d))) name (len name)) = Ok (text, w) ->
  kv_from_bytes (vk_bytes d name ++ rest) off seq full
  = Ok (mkKV off
          (mkVD (vd_size d) (vd_name_size d) (vd_data_size_raw d) (vd_data_offset d) (vd_type_raw d)
             (vd_flags_raw d) (vd_padding d) text (vd_slack d) None
             (if full then Some (vk_table d) else None))
          (data_type_of (vd_type_raw d)) (value_flags (vd_flags_raw d)) [] Allocated
          (repeat WarningConversion (N.to_nat w)) [] None seq None, rest).
Proof.
  intros (F1 & F2 & F3 & F4 & F5 & F6 & F7 & NS & SZ) T.
  unfold u16, is_u32, u64 in *. unfold kv_from_bytes.
  assert (LT : len (vk_bytes d name ++ rest) = abs_size (vd_size d) + len rest).
  { unfold vk_bytes. lens. lia. }
  set (input := vk_bytes d name ++ rest) in *. unfold input at 1. unfold vk_bytes. rewrite <- !app_assoc.
  estep. unfold vk_check_size. change unsigned_abs with abs_size.
  destruct (N.leb_spec 24 (abs_size (vd_size d))); [|lia].
  destruct (N.leb_spec (abs_size (vd_size d)) (len input)); [|lia]. cbn [andb negb].
  change [118; 107] with VK. cbv [nom ok_or]. rewrite tag_app. cbv beta iota.
  do 6 estep. rewrite take_app by assumption. cbv beta iota. rewrite NS in *. rewrite T. cbv beta iota.
  match goal with |- context [parser_eat_remaining ?i ?s ?c] =>
    replace (parser_eat_remaining i s c) with (Some (vd_slack d, rest)) end.
  2:{ unfold parser_eat_remaining. rewrite LT. change unsigned_abs with abs_size.
      replace (abs_size (vd_size d) + len rest - len (vd_slack d ++ rest)) with (24 + len name) by (lens; lia).
      destruct (N.ltb_spec (24 + len name) (abs_size (vd_size d))).
      - rewrite take_app by lia. reflexivity.
      - assert (E : len (vd_slack d) = 0) by lia. apply len_0 in E. now rewrite E. }
  do 4 f_equal.
  destruct full; [|reflexivity]. unfold vk_table. rewrite NS. f_equal.
  rewrite LT, SZ. change (len VK) with 2.
  repeat (rewrite len_app || rewrite len_enc || rewrite len_enc_i32). change (len VK) with 2.
  repeat (f_equal; [f_equal; lia|]). f_equal. f_equal. lia.
Qed.

(** ** Stored bytes *)
Lemma stored_from buf p bs : stored buf p bs -> exists post, get_from buf p = Some (bs ++ post).
Proof. intros (pre & post & -> & <-). exists post. now apply get_from_app. Qed.
Lemma stored_len buf p bs : stored buf p bs -> p + len bs <= len buf.
Proof. intros (pre & post & -> & <-). rewrite !len_app. lia. Qed.
Lemma stored_app buf p a b : stored buf p (a ++ b) -> stored buf p a /\ stored buf (p + len a) b.
Proof.
  intros (pre & post & -> & <-). split.
  - exists pre, (b ++ post). now rewrite <- !app_assoc.
  - exists (pre ++ a), post. rewrite <- !app_assoc. split; [easy|]. apply len_app.
Qed.
Lemma stored_range buf p bs : stored buf p bs -> get_range buf p (p + len bs) = Some bs.
Proof. intros (pre & post & -> & <-). now apply get_range_app. Qed.

Lemma value_data_spec t data : get_value_bytes t data = value_data t data.
Proof.
  unfold get_value_bytes, value_data.
  assert (E : get_data_type_len t = fixed_width t).
  { unfold get_data_type_len, fixed_width, one_of. cbn [existsb].
    change REG_COMPOSITE_UINT8 with 0x101. change REG_COMPOSITE_INT16 with 0x102.
    change REG_COMPOSITE_UINT16 with 0x103. change REG_DWORD with 4. change REG_DWORD_BIG_ENDIAN with 5.
    change REG_COMPOSITE_INT32 with 0x104. change REG_COMPOSITE_UINT32 with 0x105.
    change REG_QWORD with 0xB. change REG_FILETIME with 0x10. change REG_COMPOSITE_INT64 with 0x106.
    change REG_COMPOSITE_UINT64 with 0x107. rewrite !orb_false_r.
    destruct (t =? 257), (t =? 258), (t =? 259), (t =? 4), (t =? 5), (t =? 260), (t =? 261), (t =? 11), (t =? 16), (t =? 262), (t =? 263); reflexivity. }
  rewrite E. destruct (fixed_width t) as [n|]; [|easy].
  destruct (N.le_gt_cases n (len data)).
  - now rewrite N.min_l.
  - rewrite N.min_r by lia. rewrite !firstn_len_all; [easy|lia|lia].
Qed.

Lemma land_high n : n < 2147483648 -> N.land n 0x80000000 = 0.
Proof.
  intros. apply N.bits_inj. intros k. rewrite N.land_spec, N.bits_0.
  change 0x80000000 with (2 ^ 31). rewrite N.pow2_bits_eqb. destruct (N.eqb_spec 31 k) as [<-|]; [|apply andb_false_r].
  rewrite andb_true_r, N.testbit_eqb. change (2 ^ 31) with 2147483648. rewrite N.div_small by easy. easy.
Qed.
Lemma high_add n : n < 2147483648 -> 0x80000000 + n = N.lxor n 0x80000000.
Proof. intros. rewrite N.add_comm. apply N.add_nocarry_lxor. now apply land_high. Qed.
Lemma land_high_set n : n < 2147483648 -> (N.land (0x80000000 + n) 0x80000000 =? 0) = false.
Proof.
  intros. apply N.eqb_neq. intros H1. apply (f_equal (fun x => N.testbit x 31)) in H1.
  rewrite N.land_spec, N.bits_0, N.testbit_eqb in H1. change (2 ^ 31) with 2147483648 in H1.
  replace ((0x80000000 + n) / 2147483648) with 1 in H1 by (apply N.div_unique with n; lia). discriminate.
Qed.
Lemma lxor_high n : n < 2147483648 -> N.lxor (0x80000000 + n) 0x80000000 = n.
Proof. intros. rewrite high_add by easy. now rewrite N.lxor_assoc, N.lxor_nilpotent, N.lxor_0_r. Qed.

(** The value after its data has been read. *)
Definition kv_with_data (fi : file_info) (st : state) (v : key_value) (bytes offs : list N)
  (logs : list log_code) : Prop :=
  let v' := read_value_bytes fi st v in
  vd_bytes (kv_detail v') = Some bytes /\ kv_data_offsets v' = kv_data_offsets v ++ offs
  /\ kv_logs v' = kv_logs v ++ logs.
Lemma with_data fi st v bytes offs logs :
  read_value_bytes_direct (kv_offset v) (vd_data_size_raw (kv_detail v))
    (vd_data_offset (kv_detail v)) (kv_type v) fi = (bytes, offs, logs) ->
  kv_with_data fi st v bytes offs logs.
Proof. intros E. unfold kv_with_data, read_value_bytes. rewrite E. repeat split. Qed.

Lemma data_resident fi st v data pad : len data <= 4 ->
  vd_data_size_raw (kv_detail v) = 0x80000000 + len data ->
  enc 4 (vd_data_offset (kv_detail v)) = data ++ pad ->
  kv_with_data fi st v (value_data (kv_type v) data) [kv_offset v + 12] [].
Proof.
  intros L S D. apply with_data. unfold read_value_bytes_direct. rewrite S, land_high_set by lia.
  rewrite lxor_high by lia. rewrite D.
  replace (get_range (data ++ pad) 0 (len data)) with (Some data).
  2:{ symmetry. exact (get_range_app [] data pad 0 (len data) eq_refl eq_refl). }
  now rewrite value_data_spec.
Qed.

Lemma data_cell fi st v data size : len size = 4 -> len data < 2147483648 ->
  vd_data_size_raw (kv_detail v) = len data ->
  stored (fi_buffer fi) (fi_hbin fi + vd_data_offset (kv_detail v)) (size ++ data) ->
  (len data <= 16344 \/ firstn 2 data <> [100; 98]) ->
  kv_with_data fi st v (value_data (kv_type v) data)
    [fi_hbin fi + vd_data_offset (kv_detail v) + 4] [].
Proof.
  intros L4 L S ST B. apply with_data. unfold read_value_bytes_direct. rewrite S, land_high by easy.
  rewrite N.eqb_refl. rewrite (N.add_comm _ (fi_hbin fi)).
  destruct (stored_from _ _ _ ST) as (post & ->).
  assert (BD : (BIG_DATA_SIZE_THRESHOLD <? len data) && is_big_data_block ((size ++ data) ++ post) = false).
  { destruct (N.ltb_spec BIG_DATA_SIZE_THRESHOLD (len data)) as [G|G]; [|easy]. cbn [andb].
    destruct B as [B|B]; [unfold BIG_DATA_SIZE_THRESHOLD in G; lia|].
    unfold is_big_data_block. rewrite <- app_assoc, get_from_app by easy.
    destruct (tag DB (data ++ post)) as [[x y]|] eqn:T; [|easy]. exfalso. apply B.
    apply tag_some in T as [T _]. unfold BIG_DATA_SIZE_THRESHOLD in G.
    destruct data as [|d0 [|d1 data]]; [unfold len in G; cbn in G; lia|unfold len in G; cbn in G; lia|].
    cbn in T. injection T as -> -> _. reflexivity. }
  rewrite BD. apply stored_app in ST as [_ ST]. rewrite L4 in ST.
  rewrite (stored_range _ _ _ ST). now rewrite value_data_spec.
Qed.

Lemma count_flat_map {A} (p : list N -> option (A * list N)) (f : A -> list N) l r :
  (forall x r, In x l -> p (f x ++ r) = Some (x, r)) ->
  (forall x, In x l -> f x <> []) ->
  count p (len l) (flat_map f l ++ r) = Some (l, r).
Proof.
  intros H NE. unfold count.
  assert (G : len l <= len (flat_map f l ++ r)).
  { rewrite len_app. clear H. induction l as [|x l IH]; [lens; lia|]. cbn [flat_map]. lens.
    assert (1 <= len (f x)). { destruct (f x) eqn:E; [exfalso; apply (NE x); [now left|easy]|]. rewrite len_cons. lia. }
    assert (len l <= len (flat_map f l) + len r) by (apply IH; intros; apply NE; now right). lia. }
  destruct (N.leb_spec (len l) (len (flat_map f l ++ r))); [|lia]. rewrite to_nat_len. clear G H0.
  induction l as [|x l IH]; [easy|]. cbn [length count_nat flat_map]. rewrite <- app_assoc.
  rewrite H by now left. rewrite IH; [easy| |]; intros; [apply H|apply NE]; now right.
Qed.
Lemma enc_nonempty k n : enc (S k) n <> []. Proof. discriminate. Qed.
Lemma count_u32 l r : Forall is_u32 l -> count le_u32 (len l) (flat_map (enc 4) l ++ r) = Some (l, r).
Proof.
  intros F. apply count_flat_map; [|intros; apply enc_nonempty].
  intros x r' I. apply le_u32_enc. rewrite Forall_forall in F. now apply F.
Qed.

Lemma big_loop fi full : forall offs last acc rem,
  Forall2 (segment_cell fi) offs (full ++ [last]) -> Forall (fun s => len s = 16344) full ->
  0 < len last <= 16344 -> rem = len (concat (full ++ [last])) ->
  big_data_loop fi offs rem acc = Some (acc ++ concat (full ++ [last])).
Proof.
  induction full as [|s full IH]; intros offs last acc rem F2 FF LL R.
  - inversion F2 as [|o x offs' ? SC F2']. subst. inversion F2'. subst. clear F2 F2'.
    cbn [app concat big_data_loop] in *. rewrite app_nil_r in *.
    destruct (N.ltb_spec 0 (len last)); [|lia]. destruct SC as (size & I & B & ST).
    destruct (stored_from _ _ _ ST) as (post & G). unfold parse_big_data_size. rewrite G.
    rewrite <- app_assoc, le_i32_spec by easy. change (unsigned_abs size) with (abs_size size).
    unfold BIG_DATA_SIZE_THRESHOLD. replace (N.min (abs_size size) (N.min (len last) 16344)) with (len last) by lia.
    replace (get_range (last ++ post) 0 (len last)) with (Some last).
    2:{ symmetry. exact (get_range_app [] last post 0 (len last) eq_refl eq_refl). }
    reflexivity.
  - inversion F2 as [|o x offs' ? SC F2']. subst. clear F2. inversion FF as [|? ? L1 FF']. subst. clear FF.
    cbn [app concat big_data_loop] in *. rewrite len_app.
    destruct (N.ltb_spec 0 (len s + len (concat (full ++ [last])))); [|lia]. destruct SC as (size & I & B & ST).
    destruct (stored_from _ _ _ ST) as (post & G). unfold parse_big_data_size. rewrite G.
    rewrite <- app_assoc, le_i32_spec by easy. change (unsigned_abs size) with (abs_size size).
    unfold BIG_DATA_SIZE_THRESHOLD.
    replace (N.min (abs_size size) (N.min (len s + len (concat (full ++ [last]))) 16344)) with (len s) by lia.
    replace (get_range (s ++ post) 0 (len s)) with (Some s).
    2:{ symmetry. exact (get_range_app [] s post 0 (len s) eq_refl eq_refl). }
    rewrite (IH offs' last); [now rewrite <- app_assoc|easy|easy|easy|lia].
Qed.

Lemma data_big fi st v segs offs : segmentation segs ->
  Forall2 (segment_cell fi) offs segs ->
  big_data_cell fi (vd_data_offset (kv_detail v)) offs ->
  vd_data_size_raw (kv_detail v) = len (concat segs) ->
  16344 < len (concat segs) < 2147483648 ->
  kv_with_data fi st v (value_data (kv_type v) (concat segs)) offs [].
Proof.
  intros (full & last & -> & FF & LL) F2 (size & lo & ls & I & U1 & U2 & U3 & U4 & S1 & S2) S L.
  apply with_data. unfold read_value_bytes_direct. rewrite S, land_high by easy.
  rewrite N.eqb_refl. rewrite (N.add_comm _ (fi_hbin fi)).
  destruct (stored_from _ _ _ S1) as (post & G). rewrite G.
  unfold BIG_DATA_SIZE_THRESHOLD. destruct (N.ltb_spec 16344 (len (concat (full ++ [last])))); [|lia].
  rewrite <- !app_assoc. cbn [andb]. unfold is_big_data_block.
  rewrite get_from_app by now rewrite len_enc_i32. change [100; 98] with DB. rewrite tag_app.
  unfold get_big_data_bytes. rewrite G. unfold big_data_from_bytes. rewrite <- !app_assoc.
  rewrite le_i32_spec by easy. change [100; 98] with DB. rewrite tag_app, le_u16_enc, le_u32_enc by easy.
  unfold parse_big_data_offsets. destruct (stored_from _ _ _ S2) as (post2 & G2). rewrite G2, <- app_assoc.
  unfold le_u32 at 1. rewrite take_app by easy. rewrite count_u32 by easy.
  rewrite (big_loop fi full offs last [] _ F2 FF LL eq_refl). cbn [app]. now rewrite value_data_spec.
Qed.

(** ** Typed content *)
Lemma range_all (b : list N) k : len b = k -> get_range b 0 k = Some b.
Proof.
  intros <-. replace b with ([] ++ b ++ []) at 1 by (cbn; apply app_nil_r). now apply get_range_app.
Qed.
Lemma number_exact b r k f : len b = k -> number_or_binary (b ++ r) k f = (f b, []).
Proof.
  intros <-. unfold number_or_binary. replace (get_range (b ++ r) 0 (len b)) with (Some b); [easy|].
  symmetry. exact (get_range_app [] b r 0 (len b) eq_refl eq_refl).
Qed.
Lemma number_short b k f : len b < k -> number_or_binary b k f = (CBinary b, [WarningConversion]).
Proof. intros. unfold number_or_binary. now rewrite get_range_none by now right. Qed.

Lemma content_of v b r : vd_bytes (kv_detail v) = Some b ->
  get_value_content (kv_type v) (Some b) = Ok r -> get_content v = Ok r.
Proof. intros E H. unfold get_content. now rewrite E, H. Qed.

Definition enc_i16 (z : Z) : list N := enc 2 (Z.to_N (z mod 2 ^ 16)).
Definition enc_i64 (z : Z) : list N := enc 8 (Z.to_N (z mod 2 ^ 64)).
Lemma i16_round z : (- 2 ^ 15 <= z < 2 ^ 15)%Z -> to_i16 (le (enc_i16 z)) = z.
Proof.
  intros H. unfold enc_i16. rewrite le_enc; [|change (256 ^ N.of_nat 2) with 65536; lia].
  unfold to_i16. change (2 ^ 15)%Z with 32768%Z in *. change (2 ^ 16)%Z with 65536%Z.
  destruct (N.ltb_spec (Z.to_N (z mod 65536)) 32768); lia.
Qed.
Lemma i32_round z : i32 z -> to_i32 (le (enc_i32 z)) = z.
Proof.
  unfold i32. intros H. unfold enc_i32. rewrite le_enc; [|change (256 ^ N.of_nat 4) with 4294967296; lia].
  unfold to_i32. change (2 ^ 31)%Z with 2147483648%Z in *. change (2 ^ 32)%Z with 4294967296%Z.
  destruct (N.ltb_spec (Z.to_N (z mod 4294967296)) 2147483648); lia.
Qed.
Lemma i64_round z : (- 2 ^ 63 <= z < 2 ^ 63)%Z -> to_i64 (le (enc_i64 z)) = z.
Proof.
  intros H. unfold enc_i64. rewrite le_enc; [|change (256 ^ N.of_nat 8) with 18446744073709551616; lia].
  unfold to_i64. change (2 ^ 63)%Z with 9223372036854775808%Z in *. change (2 ^ 64)%Z with 18446744073709551616%Z.
  destruct (N.ltb_spec (Z.to_N (z mod 18446744073709551616)) 9223372036854775808); lia.
Qed.

(** A value of type [t] whose data is [b]. *)
Definition holds (v : key_value) (t : N) (b : list N) : Prop :=
  kv_type v = t /\ vd_bytes (kv_detail v) = Some b.
Lemma holds_content v t b r : holds v t b -> get_value_content t (Some b) = Ok r -> get_content v = Ok r.
Proof. intros (E & D) H. apply (content_of v b); [easy|]. now rewrite E. Qed.

Ltac number L := eapply holds_content; [eassumption|];
  lazy [get_value_content one_of existsb N.eqb Pos.eqb orb REG_SZ REG_EXPAND_SZ REG_LINK
    REG_COMPOSITE_UINT8 REG_COMPOSITE_BOOLEAN REG_COMPOSITE_INT16 REG_COMPOSITE_UINT16 REG_DWORD
    REG_COMPOSITE_UINT32 REG_DWORD_BIG_ENDIAN REG_COMPOSITE_INT32 REG_COMPOSITE_INT64 REG_QWORD
    REG_COMPOSITE_UINT64 REG_FILETIME REG_BIN REG_MULTI_SZ];
  rewrite number_exact by (first [rewrite len_rev|idtac]; unfold enc_i32, enc_i16, enc_i64; now rewrite len_enc);
  rewrite ?rev_involutive; first [rewrite L by assumption; reflexivity | rewrite le_enc by assumption; reflexivity].

Lemma content_numbers v t r n z :
  (holds v t (enc 4 n ++ r) -> In t [4; 0x105] -> n < 2 ^ 32 -> get_content v = Ok (CU32 n, []))
  /\ (holds v t (rev (enc 4 n) ++ r) -> t = 5 -> n < 2 ^ 32 -> get_content v = Ok (CU32 n, []))
  /\ (holds v t (enc 8 n ++ r) -> In t [0xB; 0x107; 0x10] -> n < 2 ^ 64 -> get_content v = Ok (CU64 n, []))
  /\ (holds v t (enc 1 n ++ r) -> In t [0x101; 0x10B] -> n < 2 ^ 8 -> get_content v = Ok (CU32 n, []))
  /\ (holds v t (enc 2 n ++ r) -> t = 0x103 -> n < 2 ^ 16 -> get_content v = Ok (CU32 n, []))
  /\ (holds v t (enc_i16 z ++ r) -> t = 0x102 -> (- 2 ^ 15 <= z < 2 ^ 15)%Z -> get_content v = Ok (CI32 z, []))
  /\ (holds v t (enc_i32 z ++ r) -> t = 0x104 -> (- 2 ^ 31 <= z < 2 ^ 31)%Z -> get_content v = Ok (CI32 z, []))
  /\ (holds v t (enc_i64 z ++ r) -> t = 0x106 -> (- 2 ^ 63 <= z < 2 ^ 63)%Z -> get_content v = Ok (CI64 z, [])).
Proof.
  repeat split; intros H T B.
  - destruct T as [<-|[<-|[]]]; number le_enc.
  - subst t. number le_enc.
  - destruct T as [<-|[<-|[<-|[]]]]; number le_enc.
  - destruct T as [<-|[<-|[]]]; number le_enc.
  - subst t. number le_enc.
  - subst t. number i16_round.
  - subst t. number i32_round.
  - subst t. number i64_round.
Qed.

Definition utf16_end (tail : list N) : Prop := len tail <= 1 \/ exists junk, tail = 0 :: 0 :: junk.
Lemma content_string v t text tail : holds v t (utf16le text ++ tail) -> In t [1; 2; 6] ->
  Forall scalar text -> ~ In 0 text -> utf16_end tail ->
  exists s, get_content v = Ok (CString s, []) /\ read_utf8 s = Some text.
Proof.
  intros H T S NZ E. destruct (utf16_string_text text tail (len (utf16le text ++ tail))) as (s & R & U);
    [easy|easy|lia| |].
  { rewrite len_app. destruct E as [E|(j & ->)]; [left; lia|right]. split; [eauto|]. rewrite !len_cons. lia. }
  exists s. split; [|easy]. eapply holds_content; [eassumption|]. unfold get_value_content.
  replace (one_of t _) with true by (destruct T as [<-|[<-|[<-|[]]]]; reflexivity). now rewrite R.
Qed.
Lemma content_multi v t l junk : holds v t (flat_map (fun s => utf16le s ++ [0; 0]) l ++ junk) -> t = 7 ->
  Forall (fun s => Forall bmp s /\ ~ Forall white_space s) l -> utf16_end junk ->
  exists r, get_content v = Ok (CMultiString r, []) /\ map read_utf8 r = map Some l.
Proof.
  intros H -> F E. destruct (multi_round_trip l junk F E) as (r & R & M). exists r. split; [|easy].
  eapply holds_content; [eassumption|]. unfold get_value_content.
  cbn [one_of existsb N.eqb Pos.eqb orb REG_SZ REG_EXPAND_SZ REG_LINK
    REG_COMPOSITE_UINT8 REG_COMPOSITE_BOOLEAN REG_COMPOSITE_INT16 REG_COMPOSITE_UINT16 REG_DWORD
    REG_COMPOSITE_UINT32 REG_DWORD_BIG_ENDIAN REG_COMPOSITE_INT32 REG_COMPOSITE_INT64 REG_QWORD
    REG_COMPOSITE_UINT64 REG_FILETIME REG_BIN REG_MULTI_SZ]. rewrite R. reflexivity.
Qed.
(** The types whose data is returned as it is. *)
Definition typed : list N :=
  [1; 2; 6; 4; 0x105; 5; 0xB; 0x107; 0x10; 0x101; 0x10B; 0x103; 0x102; 0x104; 0x106; 7].
Lemma content_binary v t b : holds v t b -> ~ In t typed -> get_content v = Ok (CBinary b, []).
Proof.
  intros H NI. eapply holds_content; [eassumption|]. unfold get_value_content.
  assert (G : forall n, In n typed -> (t =? n) = false).
  { intros n I. apply N.eqb_neq. intros ->. now apply NI. }
  unfold one_of. cbn [existsb].
  repeat (rewrite G by (cbv; tauto)). cbn [orb]. destruct (t =? REG_BIN); [reflexivity|]. now rewrite G by (cbv; tauto).
Qed.
Lemma content_short v t b n : holds v t b -> fixed_width t = Some n \/ t = 0x10B /\ n = 1 -> len b < n ->
  get_content v = Ok (CBinary b, [WarningConversion]).
Proof.
  intros H W L. eapply holds_content; [eassumption|].
  assert (C : In (t, n) [(0x101, 1); (0x10B, 1); (0x102, 2); (0x103, 2); (4, 4); (5, 4); (0x104, 4);
     (0x105, 4); (0xB, 8); (0x10, 8); (0x106, 8); (0x107, 8)]).
  { destruct W as [W|[-> ->]]; [|cbn; tauto]. unfold fixed_width in W.
    repeat (match type of W with context [?a =? ?b] => destruct (N.eqb_spec a b) as [->|] end; cbn [orb] in W;
      [injection W as <-; cbn; tauto|]). discriminate. }
  cbn [In] in C.
  repeat destruct C as [C|C]; try (injection C as <- <-); try contradiction; unfold get_value_content;
    lazy [get_value_content one_of existsb N.eqb Pos.eqb orb REG_SZ REG_EXPAND_SZ REG_LINK
    REG_COMPOSITE_UINT8 REG_COMPOSITE_BOOLEAN REG_COMPOSITE_INT16 REG_COMPOSITE_UINT16 REG_DWORD
    REG_COMPOSITE_UINT32 REG_DWORD_BIG_ENDIAN REG_COMPOSITE_INT32 REG_COMPOSITE_INT64 REG_QWORD
    REG_COMPOSITE_UINT64 REG_FILETIME REG_BIN REG_MULTI_SZ]; rewrite number_short by exact L; reflexivity.
Qed.
Lemma content_total v : exists c l, get_content v = Ok (c, l).
Proof.
  unfold get_content, get_value_content. destruct (vd_bytes (kv_detail v)) as [b|]; [|eauto].
  destruct (one_of _ _).
  { destruct (utf16_string_total b (len b)) as (t & w & ->); [lia|]. eauto. }
  assert (NB : forall k f, exists c l, number_or_binary b k f = (c, l)).
  { intros k f. destruct (number_or_binary b k f); eauto. }
  repeat (match goal with |- context [if ?x then Ok (number_or_binary b ?k ?f) else _] =>
    destruct x; [destruct (NB k f) as (c & l & ->); eauto|] end).
  destruct (_ =? REG_BIN); [eauto|]. destruct (_ =? REG_MULTI_SZ); [|eauto].
  destruct (multi_total b (len b)) as (t & w & ->); [lia|]. eauto.
Qed.
