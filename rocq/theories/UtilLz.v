(** Lemmas about decode_lznt1 and paths. *)
From Verif Require Import Base BaseFacts Util UtilSpec UtilText.

(** The table is the published rule. *)
Fixpoint table_from (n : nat) (p : N) : list N := match n with O => [] | S n => disp_bits p :: table_from n (p + 1) end.
Lemma table_nth n : forall p i, (i < n)%nat -> nth_error (table_from n p) i = Some (disp_bits (p + N.of_nat i)).
Proof.
  induction n as [|n IH]; intros p [|i] H; [lia|lia|cbn [table_from nth_error]; now rewrite N.add_0_r|].
  cbn [table_from nth_error]. rewrite IH by lia. do 2 f_equal. lia.
Qed.
Lemma table_len n : forall p, length (table_from n p) = n.
Proof. induction n as [|n IH]; intros p; [reflexivity|]. cbn [table_from length]. now rewrite IH. Qed.
Lemma bits_table_check : beq COMPRESSION_BITS (table_from (N.to_nat 4096) 0) = true.
Proof. vm_compute. reflexivity. Qed.

Lemma bits_table p : p < 4096 -> get_at COMPRESSION_BITS p = Some (disp_bits p).
Proof.
  intros H. pose proof bits_table_check as C. apply beq_eq in C. rewrite C. unfold get_at, len. rewrite table_len, N2Nat.id.
  replace (p <? 4096) with true by lia. rewrite table_nth by lia. now rewrite N2Nat.id.
Qed.

Lemma disp_bits_range p : p < 4096 -> 4 <= disp_bits p <= 12.
Proof.
  intros H. unfold disp_bits. split; [lia|].
  apply N.max_lub; [lia|]. change 12 with (N.log2_up 4096). apply N.log2_up_le_mono. lia.
Qed.
Lemma disp_bits_ge p : p <= 2 ^ disp_bits p.
Proof.
  destruct (N.eq_dec p 0); [subst; lia|]. destruct (N.eq_dec p 1).
  { subst. vm_compute. discriminate. }
  etransitivity; [apply (proj2 (N.log2_up_spec p ltac:(lia)))|].
  apply N.pow_le_mono_r; [lia|]. unfold disp_bits. lia.
Qed.

Lemma repeat_back_len n d out : len (repeat_back n d out) = len out + N.of_nat n.
Proof.
  revert out. induction n; intros; cbn [repeat_back]; [lia|]. rewrite IHn. lens. lia.
Qed.

Lemma lz_copy_spec n : forall out dest back d,
  dest = len out -> 1 <= d -> d <= len out -> back = len out - d ->
  lz_copy n out dest back = Ok (repeat_back n (N.to_nat d) out, len out + N.of_nat n).
Proof.
  induction n; intros out dest back d -> H1 H2 ->; cbn [lz_copy repeat_back].
  - f_equal. f_equal. lia.
  - rewrite get_at_nth.
    replace (N.to_nat (len out - d)) with (length out - N.to_nat d)%nat by (unfold len; lia).
    rewrite (nth_error_nth' out 0) by (unfold len in *; lia).
    cbn [or_panic]. erewrite IHn with (d := d); lens; try lia.
    f_equal. f_equal. lia.
Qed.

Lemma flags_cons_land t r : N.land (flags (t :: r)) 1 = match t with Lit _ => 0 | Ref _ _ => 1 end.
Proof.
  change 1 with (N.ones 1) at 1. rewrite N.land_ones. cbn [flags].
  destruct t; change (2 ^ 1) with 2; lia.
Qed.
Lemma flags_cons_shift t r : N.shiftr (flags (t :: r)) 1 = flags r.
Proof.
  rewrite N.shiftr_div_pow2. cbn [flags]. change (2 ^ 1) with 2. destruct t; lia.
Qed.

Lemma token_out_len out t p : token_ok p t -> len (token_out out t) = len out + token_size t.
Proof.
  destruct t; cbn [token_out token_size]; intros.
  - lens. lia.
  - rewrite repeat_back_len. lia.
Qed.

Lemma read_u16_app a x b : x < 65536 -> read_u16 (a ++ enc 2 x ++ b) (len a) = Ok x.
Proof.
  intros. unfold read_u16. rewrite get_range_app; [|reflexivity|now rewrite len_enc].
  cbn [or_panic]. now rewrite le_enc.
Qed.

(** The tokens of one group. *)
Lemma lz_tokens_spec ts : forall n pad a b si out sub_start sub_end p,
  (length ts <= n)%nat ->
  (length ts = n \/ sub_end = si + len (tokens_bytes p ts)) ->
  p = len out - sub_start -> sub_start <= len out ->
  si = len a -> si + len (tokens_bytes p ts) <= sub_end ->
  tokens_ok p ts ->
  lz_tokens n (pad ++ a ++ tokens_bytes p ts ++ b) (len pad) sub_start sub_end
    (flags ts) si (len out) out
  = Ok (si + len (tokens_bytes p ts), len out + tokens_size ts, fold_left token_out ts out).
Proof.
  induction ts as [|t ts IH]; intros n pad a b si out sub_start sub_end p Hn Hend Hp Hs Hsi Hle Hok.
  - cbn [tokens_bytes tokens_size fold_right fold_left flags] in *. nil_len.
    destruct n; cbn [lz_tokens].
    + repeat f_equal; lia.
    + destruct Hend as [Hend|Hend]; [cbn in Hend; lia|].
      replace (sub_end <=? si) with true by lia. repeat f_equal; lia.
  - destruct n as [|n]; [cbn in Hn; lia|]. cbn [length] in Hn, Hend.
    cbn [tokens_bytes tokens_ok] in *. destruct Hok as [Ht Hok].
    cbn [lz_tokens]. rewrite flags_cons_land.
    rewrite len_app in Hle, Hend.
    assert (Hb : 1 <= len (token_bytes p t)).
    { destruct t; cbn [token_bytes]; [lens; lia|rewrite len_enc; lia]. }
    replace (sub_end <=? si) with false by lia.
    rewrite flags_cons_shift.
    pose proof (token_out_len out t p Ht) as Hl.
    set (p' := p + token_size t) in *.
    destruct t as [x|d k].
    + change (0 =? 0) with true. cbn iota. cbn [token_bytes token_ok token_size token_out] in *.
      replace (pad ++ a ++ ([x] ++ tokens_bytes p' ts) ++ b)
        with ((pad ++ a) ++ x :: (tokens_bytes p' ts ++ b)) by now rewrite <- !app_assoc.
      rewrite get_at_app by (lens; lia). cbn [or_panic].
      replace ((pad ++ a) ++ x :: (tokens_bytes p' ts ++ b))
        with (pad ++ (a ++ [x]) ++ tokens_bytes p' ts ++ b) by now rewrite <- !app_assoc.
      replace (len out + 1) with (len (out ++ [x])) by (lens; lia).
      lens_in Hle. lens_in Hend.
      rewrite IH; lens; try lia; [|assumption].
      cbn [tokens_size fold_right fold_left token_size token_out].
      f_equal. f_equal. f_equal; [lia|]. unfold tokens_size. lia.
    + change (1 =? 0) with false. cbn iota. cbn [token_bytes token_ok token_size token_out] in *.
      rewrite len_enc in Hle, Hend.
      destruct Ht as (H1 & H2 & H3 & H4 & H5).
      assert (Hp4 : p < 4096) by lia.
      pose proof (disp_bits_range p Hp4) as HB. pose proof (disp_bits_ge p) as HG.
      rewrite <- Hp, bits_table by assumption. cbn [or_panic].
      set (B := disp_bits p) in *.
      set (tok := (d - 1) * 2 ^ (16 - B) + (k - 3)) in *.
      assert (Hpow : 2 ^ B * 2 ^ (16 - B) = 65536).
      { rewrite <- N.pow_add_r. replace (B + (16 - B)) with 16 by lia. reflexivity. }
      assert (HP : 0 < 2 ^ (16 - B)) by (apply N.neq_0_lt_0, N.pow_nonzero; lia).
      assert (Htok : tok < 65536).
      { subst tok. rewrite <- Hpow. nia. }
      replace (pad ++ a ++ (enc 2 tok ++ tokens_bytes p' ts) ++ b)
        with ((pad ++ a) ++ enc 2 tok ++ (tokens_bytes p' ts ++ b)) by now rewrite <- !app_assoc.
      replace (si + len pad) with (len (pad ++ a)) by (lens; lia).
      rewrite read_u16_app by assumption.
      assert (Hd : N.shiftr tok (16 - B) = d - 1).
      { rewrite N.shiftr_div_pow2. subst tok.
        rewrite N.div_add_l by lia. rewrite N.div_small by lia. lia. }
      assert (Hk : N.land tok (N.shiftl 1 (16 - B) - 1) = k - 3).
      { rewrite N.shiftl_1_l, N.sub_1_r, <- N.ones_equiv, N.land_ones. subst tok.
        rewrite N.add_comm, N.mod_add by lia. apply N.mod_small. lia. }
      rewrite Hd, Hk. replace (len out <? d - 1 + 1) with false by lia.
      replace (k - 3 + 3) with k by lia.
      rewrite (lz_copy_spec _ out _ _ d) by lia.
      replace ((pad ++ a) ++ enc 2 tok ++ (tokens_bytes p' ts ++ b))
        with (pad ++ (a ++ enc 2 tok) ++ tokens_bytes p' ts ++ b) by now rewrite <- !app_assoc.
      replace (len out + N.of_nat (N.to_nat k)) with (len (repeat_back (N.to_nat k) (N.to_nat d) out))
        by (rewrite Hl; lia).
      rewrite IH; rewrite ?Hl; lens; rewrite ?len_enc; try lia; [|assumption].
      cbn [tokens_size fold_right fold_left token_size token_out].
      f_equal. f_equal. f_equal; [lia|]. unfold tokens_size. lia.
Qed.

Lemma tokens_ok_app a : forall p b, tokens_ok p (a ++ b) <-> tokens_ok p a /\ tokens_ok (p + tokens_size a) b.
Proof.
  induction a as [|t a IH]; intros p b; cbn [app tokens_ok tokens_size fold_right].
  - rewrite N.add_0_r. tauto.
  - rewrite IH. fold (tokens_size a). replace (p + token_size t + tokens_size a)
      with (p + (token_size t + tokens_size a)) by lia. tauto.
Qed.

Lemma tokens_size_app a b : tokens_size (a ++ b) = tokens_size a + tokens_size b.
Proof. unfold tokens_size. induction a; cbn [app fold_right]; lia. Qed.

Lemma fold_out_len ts : forall out p, tokens_ok p ts ->
  len (fold_left token_out ts out) = len out + tokens_size ts.
Proof.
  induction ts as [|t ts IH]; intros out p H; cbn [fold_left tokens_size fold_right].
  - lia.
  - destruct H as [Ht H]. erewrite IH by exact H. erewrite token_out_len by exact Ht.
    fold (tokens_size ts). lia.
Qed.

(** The groups of one chunk. *)
Lemma lz_chunk_spec gs : forall fuel pad a b si out sub_start sub_end p last,
  (length gs < fuel - 1)%nat ->
  Forall (fun g => len g = 8) gs -> len last <= 8 ->
  p = len out - sub_start -> sub_start <= len out ->
  si = len a -> sub_end = si + len (groups_bytes p (gs ++ [last])) ->
  tokens_ok p (concat gs ++ last) ->
  lz_chunk fuel (pad ++ a ++ groups_bytes p (gs ++ [last]) ++ b) (len pad) sub_start sub_end
    si (len out) out
  = Ok (sub_end, len out + tokens_size (concat gs ++ last), fold_left token_out (concat gs ++ last) out).
Proof.
  induction gs as [|g gs IH]; intros fuel pad a b si out sub_start sub_end p last Hf Hg Hl Hp Hs Hsi He Hok;
    (destruct fuel as [|fuel]; [cbn in Hf; lia|]); cbn [lz_chunk].
  - cbn [app concat] in *. cbn [groups_bytes] in *. rewrite app_nil_r in *.
    unfold group_bytes in *. rewrite len_cons in He.
    replace (si <? sub_end) with true by lia.
    replace (pad ++ a ++ (flags last :: tokens_bytes p last) ++ b)
      with ((pad ++ a) ++ flags last :: (tokens_bytes p last ++ b)) by now rewrite <- !app_assoc.
    rewrite get_at_app by (lens; lia). cbn [or_panic].
    replace ((pad ++ a) ++ flags last :: (tokens_bytes p last ++ b))
      with (pad ++ (a ++ [flags last]) ++ tokens_bytes p last ++ b) by now rewrite <- !app_assoc.
    rewrite lz_tokens_spec; lens; try lia; [|unfold len in Hl; lia|assumption].
    destruct fuel as [|fuel]; [cbn in Hf; lia|]. cbn [lz_chunk].
    match goal with |- context [?x <? sub_end] => replace (x <? sub_end) with false by lia end.
    repeat f_equal. lia.
  - apply Forall_cons_iff in Hg as [Hg8 Hg']. cbn [app concat] in *. cbn [groups_bytes] in *.
    rewrite <- app_assoc in Hok. apply tokens_ok_app in Hok as [Hok1 Hok2].
    unfold group_bytes in *. set (p' := p + tokens_size g) in *.
    rewrite len_app, len_cons in He.
    replace (si <? sub_end) with true by lia.
    replace (pad ++ a ++ ((flags g :: tokens_bytes p g) ++ groups_bytes p' (gs ++ [last])) ++ b)
      with ((pad ++ a) ++ flags g :: (tokens_bytes p g ++ groups_bytes p' (gs ++ [last]) ++ b))
      by now rewrite <- !app_assoc.
    rewrite get_at_app by (lens; lia). cbn [or_panic].
    replace ((pad ++ a) ++ flags g :: (tokens_bytes p g ++ groups_bytes p' (gs ++ [last]) ++ b))
      with (pad ++ (a ++ [flags g]) ++ tokens_bytes p g ++ (groups_bytes p' (gs ++ [last]) ++ b))
      by now rewrite <- !app_assoc.
    assert (Hlen8 : length g = 8%nat) by (unfold len in Hg8; lia).
    rewrite lz_tokens_spec; lens; try lia; [|assumption].
    assert (Ho := fold_out_len g out p Hok1).
    replace (pad ++ (a ++ [flags g]) ++ tokens_bytes p g ++ groups_bytes p' (gs ++ [last]) ++ b)
      with (pad ++ (a ++ [flags g] ++ tokens_bytes p g) ++ groups_bytes p' (gs ++ [last]) ++ b)
      by now rewrite <- !app_assoc.
    replace (len out + tokens_size g) with (len (fold_left token_out g out)) by lia.
    rewrite IH; rewrite ?Ho; lens; try lia; try assumption.
    2:{ cbn [length] in Hf. lia. }
    rewrite <- app_assoc, (tokens_size_app g), !fold_left_app. now rewrite N.add_assoc.
Qed.

Lemma groups_bytes_ge p gs : (length gs <= length (groups_bytes p gs))%nat.
Proof.
  revert p. induction gs as [|g gs IH]; intros p; [easy|].
  cbn [groups_bytes length]. rewrite app_length. unfold group_bytes. cbn [length].
  specialize (IH (p + tokens_size g)). lia.
Qed.

Lemma land_4095 x y : y < 4096 -> x = 0x3000 \/ x = 0xB000 -> N.land (x + y) 0x0fff = y.
Proof.
  intros Hy Hx. change 0x0fff with (N.ones 12). rewrite N.land_ones.
  change (2 ^ 12) with 4096. destruct Hx; subst; lia.
Qed.
Lemma land_8000_raw y : y < 4096 -> N.land (0x3000 + y) 0x8000 = 0.
Proof.
  intros H. apply N.bits_inj_0. intros i. rewrite N.land_spec.
  destruct (N.eq_dec i 15) as [->|].
  - replace (N.testbit (0x3000 + y) 15) with false; [reflexivity|].
    symmetry. rewrite N.testbit_false. change (2 ^ 15) with 32768.
    rewrite N.div_small by lia. reflexivity.
  - change 0x8000 with (2 ^ 15). rewrite N.pow2_bits_false by congruence. apply andb_false_r.
Qed.
Lemma land_8000_comp y : y < 4096 -> (N.land (0xB000 + y) 0x8000 =? 0) = false.
Proof.
  intros H. apply N.eqb_neq. intros E.
  assert (T : N.testbit (N.land (0xB000 + y) 0x8000) 15 = false) by now rewrite E.
  rewrite N.land_spec in T. change (N.testbit 0x8000 15) with true in T.
  rewrite andb_true_r in T. rewrite N.testbit_false in T. change (2 ^ 15) with 32768 in T.
  lia.
Qed.

Lemma stream_bytes_ge cs : (length cs <= length (stream_bytes cs))%nat.
Proof.
  induction cs as [|c cs IH]; [easy|]. cbn [stream_bytes flat_map length].
  rewrite app_length. assert (1 <= length (chunk_bytes c))%nat.
  { destruct c; cbn [chunk_bytes]; rewrite app_length, enc_length; lia. }
  unfold stream_bytes in IH. lia.
Qed.

(** How a stream may end: at [slen], or with a zero header. *)
Definition lz_end (rest : list N) (slen pos : N) : Prop :=
  slen = pos \/ (pos < slen /\ exists j, rest = 0 :: 0 :: j).

Lemma lz_loop_spec cs : forall fuel pad a rest si out slen,
  (length cs < fuel)%nat ->
  Forall chunk_ok cs ->
  si = len a ->
  lz_end rest slen (len (pad ++ a ++ stream_bytes cs)) ->
  lz_loop fuel (pad ++ a ++ stream_bytes cs ++ rest) (len pad) slen si (len out) out
  = Ok (fold_left chunk_out cs out).
Proof.
  induction cs as [|c cs IH]; intros fuel pad a rest si out slen Hf Hok Hsi Hend;
    (destruct fuel as [|fuel]; [cbn in Hf; lia|]); cbn [lz_loop].
  - cbn [stream_bytes flat_map app fold_left] in *. rewrite app_nil_r in Hend.
    destruct Hend as [-> |[Hlt [j ->]]].
    + replace (si + len pad <? len (pad ++ a)) with false by (lens; lia). reflexivity.
    + lens_in Hlt. replace (si + len pad <? slen) with true by lia.
      replace (pad ++ a ++ 0 :: 0 :: j) with ((pad ++ a) ++ enc 2 0 ++ j)
        by (cbn [enc]; rewrite <- !app_assoc; reflexivity).
      replace (si + len pad) with (len (pad ++ a)) by (lens; lia).
      rewrite read_u16_app by lia. reflexivity.
  - apply Forall_cons_iff in Hok as [Hc Hok']. cbn [fold_left].
    cbn [stream_bytes flat_map] in *. fold (stream_bytes cs) in *.
    assert (Hpos : si + len pad < slen).
    { assert (1 <= len (chunk_bytes c)).
      { destruct c; cbn [chunk_bytes]; rewrite len_app, len_enc; lia. }
      destruct Hend as [->|[Hlt _]]; [|lens_in Hlt]; lens; lia. }
    replace (si + len pad <? slen) with true by lia.
    destruct c as [bs|full last]; cbn [chunk_bytes chunk_ok chunk_out] in *.
    + destruct Hc as (Hc1 & Hc2 & _). set (h := 0x3000 + (len bs - 1)) in *.
      replace (pad ++ a ++ ((enc 2 h ++ bs) ++ stream_bytes cs) ++ rest)
        with ((pad ++ a) ++ enc 2 h ++ bs ++ stream_bytes cs ++ rest) by now rewrite <- !app_assoc.
      replace (si + len pad) with (len (pad ++ a)) by (lens; lia).
      rewrite read_u16_app by lia.
      replace (h =? 0) with false by lia.
      replace (N.land h 0x8000 =? 0) with true by (subst h; rewrite land_8000_raw by lia; reflexivity).
      replace (N.land h 0x0fff + 1) with (len bs) by (subst h; rewrite land_4095; [lia|lia|auto]).
      replace ((pad ++ a) ++ enc 2 h ++ bs ++ stream_bytes cs ++ rest)
        with ((pad ++ a ++ enc 2 h) ++ bs ++ stream_bytes cs ++ rest) by now rewrite <- !app_assoc.
      rewrite get_range_app; [|lens; rewrite ?len_enc; lia|lens; rewrite ?len_enc; lia].
      cbn [or_panic].
      replace ((pad ++ a ++ enc 2 h) ++ bs ++ stream_bytes cs ++ rest)
        with (pad ++ (a ++ enc 2 h ++ bs) ++ stream_bytes cs ++ rest) by now rewrite <- !app_assoc.
      replace (len out + len bs) with (len (out ++ bs)) by (lens; lia).
      rewrite IH; try assumption; [reflexivity|cbn in Hf; lia|lens; rewrite ?len_enc; lia|].
      replace (pad ++ (a ++ enc 2 h ++ bs) ++ stream_bytes cs)
        with (pad ++ a ++ (enc 2 h ++ bs) ++ stream_bytes cs) by now rewrite <- !app_assoc.
      assumption.
    + destruct Hc as (Hfull & Hlast & Htok & Hbody).
      set (body := comp_body full last) in *.
      assert (Hb1 : 1 <= len body).
      { subst body. unfold comp_body. pose proof (groups_bytes_ge 0 (full ++ [last])) as G.
        rewrite app_length in G. cbn [length] in G. unfold len. lia. }
      set (h := 0xB000 + (len body - 1)) in *.
      replace (pad ++ a ++ ((enc 2 h ++ body) ++ stream_bytes cs) ++ rest)
        with ((pad ++ a) ++ enc 2 h ++ body ++ stream_bytes cs ++ rest) by now rewrite <- !app_assoc.
      replace (si + len pad) with (len (pad ++ a)) by (lens; lia).
      rewrite read_u16_app by lia.
      replace (h =? 0) with false by lia.
      replace (N.land h 0x8000 =? 0) with false by (subst h; rewrite land_8000_comp by lia; reflexivity).
      replace (N.land h 0x0fff) with (len body - 1) by (subst h; rewrite land_4095; [lia|lia|auto]).
      replace ((pad ++ a) ++ enc 2 h ++ body ++ stream_bytes cs ++ rest)
        with (pad ++ (a ++ enc 2 h) ++ groups_bytes 0 (full ++ [last]) ++ (stream_bytes cs ++ rest))
        by now rewrite <- !app_assoc.
      rewrite lz_chunk_spec.
      * set (out' := fold_left token_out (concat full ++ last) out).
        assert (Ho : len out' = len out + tokens_size (concat full ++ last))
          by (eapply fold_out_len; eassumption).
        rewrite <- Ho.
        replace (pad ++ (a ++ enc 2 h) ++ groups_bytes 0 (full ++ [last]) ++ (stream_bytes cs ++ rest))
          with (pad ++ (a ++ enc 2 h ++ body) ++ stream_bytes cs ++ rest)
          by now rewrite <- !app_assoc.
        rewrite IH; try assumption; [reflexivity|cbn in Hf; lia|lens; rewrite ?len_enc; lia|].
        replace (pad ++ (a ++ enc 2 h ++ body) ++ stream_bytes cs)
          with (pad ++ a ++ (enc 2 h ++ body) ++ stream_bytes cs) by now rewrite <- !app_assoc.
        assumption.
      * pose proof (groups_bytes_ge 0 (full ++ [last])) as G.
        rewrite !app_length in *. cbn [length] in *. rewrite enc_length. lia.
      * assumption.
      * assumption.
      * lia.
      * lia.
      * lens; rewrite ?len_enc; lia.
      * subst body. unfold comp_body in *. lia.
      * assumption.
Qed.

Lemma lznt1_decodes pad cs rest slen :
  Forall chunk_ok cs ->
  lz_end rest slen (len (pad ++ stream_bytes cs)) ->
  decode_lznt1 (pad ++ stream_bytes cs ++ rest) (len pad) slen = Ok (stream_out cs).
Proof.
  intros H He. unfold decode_lznt1.
  pose proof (lz_loop_spec cs (S (length (pad ++ stream_bytes cs ++ rest))) pad [] rest 0 [] slen) as L.
  cbn [app] in L. nil_len. apply L; try assumption; try reflexivity.
  rewrite !app_length. pose proof (stream_bytes_ge cs). lia.
Qed.

(** Termination on arbitrary bytes: the fuel is never exhausted. *)
Lemma lz_copy_no_fuel n : forall out dest back, lz_copy n out dest back <> OutOfFuel.
Proof.
  induction n; intros; cbn [lz_copy]; [discriminate|].
  destruct (get_at out back); cbn [or_panic]; [apply IHn|discriminate].
Qed.
Lemma lz_tokens_no_fuel n : forall source soff a b tagb si dest out,
  lz_tokens n source soff a b tagb si dest out <> OutOfFuel.
Proof.
  induction n; intros; cbn [lz_tokens]; [discriminate|].
  destruct (b <=? si); [discriminate|].
  destruct (N.land tagb 1 =? 0).
  - destruct (get_at source (soff + si)); cbn [or_panic]; [apply IHn|discriminate].
  - destruct (get_at COMPRESSION_BITS (dest - a)); cbn [or_panic]; [|discriminate].
    unfold read_u16. destruct (get_range source _ _); cbn [or_panic]; [|discriminate].
    destruct (_ <? _); [discriminate|].
    pose proof (lz_copy_no_fuel (N.to_nat (N.land (le l) (N.shiftl 1 (16 - n0) - 1) + 3)) out dest
                  (dest - N.shiftr (le l) (16 - n0) - 1)) as F.
    destruct (lz_copy _ _ _ _) as [[? ?]| | |]; try discriminate; [apply IHn|congruence].
Qed.
Lemma lz_tokens_si n : forall source soff a b tagb si dest out si' dest' out',
  lz_tokens n source soff a b tagb si dest out = Ok (si', dest', out') -> si <= si'.
Proof.
  induction n; intros *; cbn [lz_tokens]; [intros [= <- _ _]; lia|].
  destruct (b <=? si); [intros [= <- _ _]; lia|].
  destruct (N.land tagb 1 =? 0).
  - destruct (get_at source (soff + si)); cbn [or_panic]; [|discriminate].
    intros H. apply IHn in H. lia.
  - destruct (get_at COMPRESSION_BITS (dest - a)); cbn [or_panic]; [|discriminate].
    destruct (read_u16 source (si + soff)); try discriminate.
    destruct (_ <? _); [discriminate|].
    destruct (lz_copy _ _ _ _) as [[? ?]| | |]; try discriminate.
    intros H. apply IHn in H. lia.
Qed.
Lemma lz_chunk_no_fuel fuel : forall source soff a b si dest out,
  len source + 1 < si + soff + N.of_nat fuel -> (0 < fuel)%nat ->
  lz_chunk fuel source soff a b si dest out <> OutOfFuel.
Proof.
  induction fuel; intros source soff a b si dest out H Hf; [lia|].
  cbn [lz_chunk]. destruct (si <? b); [|discriminate].
  destruct (get_at source (soff + si)) eqn:G; cbn [or_panic]; [|discriminate].
  apply get_at_lt in G.
  pose proof (lz_tokens_no_fuel 8 source soff a b n (si + 1) dest out) as F.
  destruct (lz_tokens 8 source soff a b n (si + 1) dest out) as [[[si' dest'] out']| | |] eqn:E;
    try discriminate; [|congruence].
  apply lz_tokens_si in E. apply IHfuel; lia.
Qed.
Lemma lz_chunk_si fuel : forall source soff a b si dest out si' dest' out',
  lz_chunk fuel source soff a b si dest out = Ok (si', dest', out') -> si <= si'.
Proof.
  induction fuel; intros *; cbn [lz_chunk]; [discriminate|].
  destruct (si <? b); [|intros [= <- _ _]; lia].
  destruct (get_at source (soff + si)); cbn [or_panic]; [|discriminate].
  destruct (lz_tokens 8 source soff a b n (si + 1) dest out) as [[[? ?] ?]| | |] eqn:E; try discriminate.
  apply lz_tokens_si in E. intros H. apply IHfuel in H. lia.
Qed.
Lemma lz_loop_no_fuel fuel : forall source soff slen si dest out,
  len source < si + soff + N.of_nat fuel -> (0 < fuel)%nat ->
  lz_loop fuel source soff slen si dest out <> OutOfFuel.
Proof.
  induction fuel; intros source soff slen si dest out H Hf; [lia|].
  cbn [lz_loop]. destruct (si + soff <? slen); [|discriminate].
  unfold read_u16. destruct (get_range source (si + soff) (si + soff + 2)) eqn:G; cbn [or_panic]; [|discriminate].
  apply get_range_some in G as (_ & G & _).
  destruct (le l =? 0); [discriminate|].
  destruct (N.land (le l) 0x8000 =? 0).
  - destruct (get_range source (soff + (si + 2)) _) eqn:G2; cbn [or_panic]; [|discriminate].
    apply IHfuel; lia.
  - pose proof (lz_chunk_no_fuel (S (length source)) source soff dest
                  (si + 2 + N.land (le l) 0x0fff + 1) (si + 2) dest out) as F.
    destruct (lz_chunk _ _ _ _ _ _ _ _) as [[[? ?] ?]| | |] eqn:E; try discriminate.
    + apply lz_chunk_si in E. apply IHfuel; lia.
    + exfalso. apply F; [unfold len; lia|lia|reflexivity].
Qed.
Lemma lznt1_terminates source soff slen : decode_lznt1 source soff slen <> OutOfFuel.
Proof. apply lz_loop_no_fuel; unfold len; lia. Qed.

(** *** Paths *)
Lemma utf8_char_92 c : scalar c -> c <> 92 -> ~ In 92 (utf8_char c).
Proof.
  unfold scalar, utf8_char. intros H Hc.
  destruct (N.ltb_spec c 0x80); [|destruct (N.ltb_spec c 0x800); [|destruct (N.ltb_spec c 0x10000)]];
    cbn [In]; lia.
Qed.
Lemma utf8_92 s : Forall scalar s -> ~ In 92 s -> ~ In 92 (utf8 s).
Proof.
  induction 1 as [|c s Hc _ IH]; intros H; [easy|].
  cbn [utf8 flat_map]. rewrite in_app_iff. intros [C|C].
  - revert C. apply utf8_char_92; [assumption|]. intros ->. apply H. now left.
  - apply IH; [intro; apply H; now right|assumption].
Qed.
Lemma utf8_head s b r : Forall scalar s -> utf8 s = b :: r -> is_cont b = false.
Proof.
  intros H E. destruct H as [|c s Hc H]; [discriminate|].
  cbn [utf8 flat_map] in E. unfold utf8_char, scalar in *.
  unfold is_cont.
  destruct (N.ltb_spec c 0x80); [|destruct (N.ltb_spec c 0x800); [|destruct (N.ltb_spec c 0x10000)]];
    cbn [app] in E; injection E as <- _; lia.
Qed.
Lemma str_from_utf8 pre s : Forall scalar s -> str_from (pre ++ utf8 s) (len pre) = Ok (utf8 s).
Proof.
  intros H. unfold str_from. rewrite get_from_app by reflexivity.
  destruct (utf8 s) as [|b r] eqn:E; [reflexivity|].
  rewrite (utf8_head _ _ _ H E). reflexivity.
Qed.
Lemma str_from_0 s : str_from s 0 = Ok s.
Proof.
  unfold str_from, get_from. replace (0 <=? len s) with true by lia.
  change (N.to_nat 0) with 0%nat. cbn [skipn]. destruct s; [reflexivity|].
  now rewrite andb_false_r.
Qed.

Definition component (t : list N) : Prop := Forall scalar t /\ ~ In backslash t.

Lemma path_of_cons c cs : path_of (c :: cs) = 92 :: c ++ path_of cs.
Proof. reflexivity. Qed.

Lemma root_offset_root r : component r ->
  get_root_path_offset (path_of [utf8 r]) = 0.
Proof.
  intros [H1 H2]. rewrite path_of_cons. cbn [path_of flat_map]. rewrite app_nil_r.
  unfold get_root_path_offset. rewrite find_byte_none; [reflexivity|]. now apply utf8_92.
Qed.

Lemma root_offset_sub r c cs : component r ->
  get_root_path_offset (path_of (utf8 r :: c :: cs)) = len (utf8 r) + 2.
Proof.
  intros [H1 H2]. rewrite !path_of_cons. unfold get_root_path_offset.
  rewrite find_byte_app; [reflexivity|]. now apply utf8_92.
Qed.

Lemma path_of_utf8 cs : Forall component cs ->
  exists t, Forall scalar t /\ path_of (map utf8 cs) = utf8 t.
Proof.
  induction 1 as [|c cs [Hc _] _ (t & Ht & E)]; [exists []; split; [constructor|reflexivity]|].
  exists (92 :: c ++ t). split.
  - constructor; [unfold scalar; lia|]. apply Forall_app. auto.
  - cbn [map]. rewrite path_of_cons, E. change (92 :: c ++ t) with ([92] ++ c ++ t).
    rewrite !utf8_app. reflexivity.
Qed.

Lemma pretty_path_sub r c cs : component r -> Forall component (c :: cs) ->
  str_from (path_of (map utf8 (r :: c :: cs)))
    (get_root_path_offset (path_of (map utf8 (r :: c :: cs))))
  = Ok (joined (map utf8 (c :: cs))).
Proof.
  intros Hr Hc. cbn [map]. rewrite root_offset_sub by assumption.
  inversion Hc as [|? ? [Hc1 Hc2] Hcs]; subst.
  destruct (path_of_utf8 cs Hcs) as (t & Ht & E).
  unfold joined. rewrite !path_of_cons, E. cbn [tl].
  replace (92 :: utf8 r ++ 92 :: utf8 c ++ utf8 t)
    with ((92 :: utf8 r ++ [92]) ++ utf8 (c ++ t)).
  2:{ rewrite utf8_app. cbn [app]. rewrite <- app_assoc. reflexivity. }
  replace (len (utf8 r) + 2) with (len (92 :: utf8 r ++ [92])) by (lens; lia).
  rewrite str_from_utf8; [now rewrite utf8_app|]. apply Forall_app. auto.
Qed.

(** For any well-formed text the slice cannot panic. *)
Lemma find_byte_split b s i : find_byte b s = Some i ->
  exists a r, s = a ++ b :: r /\ len a = i /\ ~ In b a.
Proof.
  revert i. induction s as [|x s IH]; cbn [find_byte]; [discriminate|]. intros i.
  destruct (N.eqb_spec x b).
  - intros [= <-]. exists [], s. subst. easy.
  - destruct (find_byte b s) as [j|]; [|discriminate]. cbn [option_map]. intros [= <-].
    destruct (IH j eq_refl) as (a & r & -> & L & Ni). exists (x :: a), r.
    repeat split; [lens; lia|]. intros [C|C]; congruence || tauto.
Qed.
Lemma utf8_split_92 t a r : Forall scalar t -> utf8 t = a ++ 92 :: r -> ~ In 92 a ->
  exists t1 t2, t = t1 ++ 92 :: t2 /\ a = utf8 t1 /\ r = utf8 t2.
Proof.
  intros Ht. revert a r. induction Ht as [|c t Hc Ht IH]; intros a r E Ha.
  - destruct a; discriminate.
  - destruct (N.eq_dec c 92) as [->|Hn].
    + change (utf8 (92 :: t)) with (92 :: utf8 t) in E.
      destruct a as [|x a].
      * injection E as E2. exists [], t. auto.
      * injection E as E1 E2. exfalso. apply Ha. now left.
    + change (utf8 (c :: t)) with (utf8_char c ++ utf8 t) in E.
      assert (exists a', a = utf8_char c ++ a' /\ utf8 t = a' ++ 92 :: r) as (a' & -> & E').
      { pose proof (utf8_char_92 c Hc Hn) as H92. revert E Ha H92. generalize (utf8_char c). clear.
        intros u. revert a. induction u as [|x u IHu]; intros a E Ha H92; [exists a; auto|].
        destruct a as [|y a]; cbn [app] in E; injection E as E1 E2.
        - exfalso. apply H92. left. assumption.
        - subst y. destruct (IHu a E2) as (a' & -> & E').
          + intro. apply Ha. now right.
          + intro. apply H92. now right.
          + exists a'. auto. }
      destruct (IH a' r E') as (t1 & t2 & -> & -> & ->).
      { intro. apply Ha. apply in_or_app. now right. }
      exists (c :: t1), t2. auto.
Qed.
Lemma pretty_path_total t : Forall scalar t ->
  exists s, str_from (utf8 t) (get_root_path_offset (utf8 t)) = Ok s.
Proof.
  intros Ht. unfold get_root_path_offset.
  destruct (utf8 t) as [|b p] eqn:E; [rewrite str_from_0; eauto|].
  destruct (N.eq_dec b 92) as [->|Hb].
  - destruct (find_byte 92 p) as [i|] eqn:F; [|rewrite str_from_0; eauto].
    apply find_byte_split in F as (a & r & -> & <- & Ha).
    destruct (utf8_split_92 t [] (a ++ 92 :: r) Ht E) as (t1 & t2 & -> & E1 & E2); [easy|].
    apply Forall_app in Ht as [_ Ht]. inversion Ht; subst.
    symmetry in E2.
    destruct (utf8_split_92 t2 a r) as (u1 & u2 & -> & -> & ->); try assumption.
    replace (92 :: utf8 u1 ++ 92 :: utf8 u2) with ((92 :: utf8 u1 ++ [92]) ++ utf8 u2).
    2:{ cbn [app]. rewrite <- app_assoc. reflexivity. }
    replace (len (utf8 u1) + 2) with (len (92 :: utf8 u1 ++ [92])) by (lens; lia).
    rewrite str_from_utf8; [eauto|]. apply Forall_app in H2 as [_ H2]. now inversion H2.
  - replace (b =? 92) with false by lia. rewrite str_from_0; eauto.
Qed.
