(** Proofs about the headers, the checksum and Marvin32. *)
From Verif Require Import Base BaseFacts LayoutSpec LayoutFacts Util UtilSpec UtilText BaseBlock Marvin.

(** ** Header *)

(** The record read from the published positions. *)
Definition header_at (b : list N) (name : list N) : base_block_base :=
  {| bb_primary_seq := num_at b 4 4; bb_secondary_seq := num_at b 8 4;
     bb_modified := get_date_time_from_filetime (num_at b 12 8);
     bb_major := num_at b 20 4; bb_minor := num_at b 24 4;
     bb_file_type := file_type_from_value (num_at b 28 4); bb_format := num_at b 32 4;
     bb_root_offset := i32_at b 36; bb_hive_bins_data_size := num_at b 40 4;
     bb_clustering := num_at b 44 4; bb_filename := name; bb_unk2 := bytes_at b 112 396;
     bb_checksum := num_at b 508 4 |}.

Lemma name_ok b : 512 <= len b -> exists s w, from_utf16_le_string (bytes_at b 48 64) 64 = Ok (s, w).
Proof. intros. apply utf16_string_total. rewrite len_bytes_at. lia. Qed.

Lemma bbb_read b : 512 <= len b -> bytes_at b 0 4 = REGF ->
  exists name w, from_utf16_le_string (bytes_at b 48 64) 64 = Ok (name, w)
  /\ bbb_from_bytes b = Ok (header_at b name, rest_at b 512).
Proof.
  intros H T. destruct (name_ok b H) as (s & w & E). exists s, w. split; [exact E|].
  unfold bbb_from_bytes. rewrite <- (rest_at_0 b) at 1.
  rewrite tag_rest by (change (len REGF) with 4; lia). change (len REGF) with 4. rewrite T.
  cbn [beq REGF]. rewrite !N.eqb_refl. cbn [andb]. cbv [nom ok_or]. cbv beta iota. norm_pos.
  do 13 pstep. rewrite E. reflexivity.
Qed.

Lemma tag_cases b t : len t <= len b ->
  tag t b = if beq (bytes_at b 0 (len t)) t then Some (t, rest_at b (len t)) else None.
Proof. intros. rewrite <- (rest_at_0 b) at 1. now rewrite tag_rest. Qed.

Lemma bbb_reject b : len b < 512 \/ bytes_at b 0 4 <> REGF -> bbb_from_bytes b = Err.
Proof.
  intros H. unfold bbb_from_bytes. destruct (tag REGF b) as [[t i]|] eqn:T; [|reflexivity].
  assert (L := tag_len _ _ _ _ T). change (len REGF) with 4 in L.
  destruct H as [H|H].
  - cbv [nom ok_or]. cbv beta iota. repeat (pcase; [|reflexivity]). lia.
  - destruct H. apply tag_some in T as [-> _]. reflexivity.
Qed.

Lemma bbb_cases b :
  (512 <= len b /\ bytes_at b 0 4 = REGF
   /\ exists name w, from_utf16_le_string (bytes_at b 48 64) 64 = Ok (name, w)
      /\ bbb_from_bytes b = Ok (header_at b name, rest_at b 512))
  \/ ((len b < 512 \/ bytes_at b 0 4 <> REGF) /\ bbb_from_bytes b = Err).
Proof.
  destruct (N.ltb_spec (len b) 512); [right; split; [auto|]; apply bbb_reject; auto|].
  destruct (beq (bytes_at b 0 4) REGF) eqn:E.
  - left. apply beq_eq in E. destruct (bbb_read b) as (n & w & F); eauto.
  - right. apply beq_neq in E. split; [auto|]. apply bbb_reject. auto.
Qed.

Definition reserved_at (b : list N) : bb_reserved :=
  {| rs_rm_id := bytes_at b 512 16; rs_log_id := bytes_at b 528 16; rs_flags := num_at b 544 4;
     rs_tm_id := bytes_at b 548 16; rs_signature := num_at b 564 4;
     rs_reorganized := get_date_time_from_filetime (num_at b 568 8);
     rs_remaining := bytes_at b 576 3512 |}.
Definition base_block_at (b name : list N) : base_block :=
  {| bb_base := header_at b name; bb_ext := reserved_at b; bb_boot_type := num_at b 4088 4;
     bb_boot_recover := num_at b 4092 4 |}.

Lemma bb_read b : 4096 <= len b -> bytes_at b 0 4 = REGF ->
  exists name w, from_utf16_le_string (bytes_at b 48 64) 64 = Ok (name, w)
  /\ bb_from_bytes b = Ok (base_block_at b name, rest_at b 4096).
Proof.
  intros H T. destruct (bbb_read b) as (name & w & E & F); [lia|exact T|].
  exists name, w. split; [exact E|]. unfold bb_from_bytes. rewrite F. cbv beta iota.
  unfold reserved_from_bytes. do 7 pstep. do 2 pstep. reflexivity.
Qed.
Lemma bb_reject b : len b < 4096 \/ bytes_at b 0 4 <> REGF -> bb_from_bytes b = Err.
Proof.
  intros H. unfold bb_from_bytes.
  destruct (bbb_cases b) as [(L & T & n & w & E & ->)|(? & ->)]; [|reflexivity].
  destruct H as [H|H]; [|easy]. cbv beta iota. unfold reserved_from_bytes.
  assert (K := len_rest_at b 512). repeat (pcase; [|reflexivity]). lia.
Qed.
Lemma bb_cases b :
  (4096 <= len b /\ bytes_at b 0 4 = REGF
   /\ exists name w, from_utf16_le_string (bytes_at b 48 64) 64 = Ok (name, w)
      /\ bb_from_bytes b = Ok (base_block_at b name, rest_at b 4096))
  \/ ((len b < 4096 \/ bytes_at b 0 4 <> REGF) /\ bb_from_bytes b = Err).
Proof.
  destruct (N.ltb_spec (len b) 4096); [right; split; [auto|]; apply bb_reject; auto|].
  destruct (beq (bytes_at b 0 4) REGF) eqn:E.
  - left. apply beq_eq in E. destruct (bb_read b) as (n & w & F); eauto.
  - right. apply beq_neq in E. split; [auto|]. apply bb_reject. auto.
Qed.

(** The bin header. *)
Definition hbin_at (off : N) (b : list N) : hbin_header :=
  {| hb_file_offset := off; hb_offset := num_at b 4 4; hb_size := num_at b 8 4;
     hb_unknown1 := num_at b 12 4; hb_unknown2 := num_at b 16 4;
     hb_time := get_date_time_from_filetime (num_at b 20 8); hb_spare := num_at b 28 4 |}.
Lemma hbin_cases off b :
  (32 <= len b /\ bytes_at b 0 4 = HBIN /\ hbin_from_bytes off b = Ok (hbin_at off b, rest_at b 32))
  \/ ((len b < 32 \/ bytes_at b 0 4 <> HBIN) /\ hbin_from_bytes off b = Err).
Proof.
  unfold hbin_from_bytes. destruct (N.ltb_spec (len b) 32) as [H|H].
  - right. split; [auto|]. destruct (tag HBIN b) as [[t i]|] eqn:T; [|reflexivity].
    assert (L := tag_len _ _ _ _ T). change (len HBIN) with 4 in L.
    cbv [nom ok_or]. cbv beta iota. repeat (pcase; [|reflexivity]). lia.
  - rewrite (tag_cases b HBIN) by (change (len HBIN) with 4; lia).
    change (len HBIN) with 4. destruct (beq (bytes_at b 0 4) HBIN) eqn:E.
    + left. split; [lia|]. apply beq_eq in E. split; [exact E|].
      cbv [nom ok_or]; cbv beta iota. do 6 pstep. reflexivity.
    + right. apply beq_neq in E. auto.
Qed.

(** ** Checksum *)
Lemma checksum_loop_spec n b i x : 4 * (i + N.of_nat n) <= len b ->
  checksum_loop n b (4 * i) x
  = Ok (fold_left N.lxor (map (fun k => num_at b (4 * N.of_nat k) 4) (seq (N.to_nat i) n)) x).
Proof.
  revert i x. induction n as [|n IH]; intros i x H; [reflexivity|].
  cbn [checksum_loop]. rewrite get_range_at by lia. cbv [ok_or]. cbv beta iota.
  replace (4 * i + 4 - 4 * i) with 4 by lia. replace (4 * i + 4) with (4 * (i + 1)) by lia.
  rewrite IH by lia. cbn [seq map fold_left].
  replace (N.to_nat (i + 1)) with (S (N.to_nat i)) by lia.
  rewrite num_at_le. now replace (4 * N.of_nat (N.to_nat i)) with (4 * i) by lia.
Qed.
Lemma fold_lxor l x : fold_left N.lxor l x = N.lxor x (fold_right N.lxor 0 l).
Proof.
  revert x. induction l as [|y l IH]; intros; cbn; [now rewrite N.lxor_0_r|].
  now rewrite IH, N.lxor_assoc.
Qed.
Lemma checksum_spec b : 508 <= len b -> calculate_checksum b = Ok (header_checksum b).
Proof.
  intros. unfold calculate_checksum. change 0 with (4 * 0) at 1.
  rewrite checksum_loop_spec by lia. rewrite fold_lxor, N.lxor_0_l. reflexivity.
Qed.
Lemma checksum_loop_err n b i x : len b < 4 * (i + N.of_nat n) -> (0 < n)%nat ->
  checksum_loop n b (4 * i) x = Err.
Proof.
  revert i x. induction n as [|n IH]; intros i x H P; [lia|]. cbn [checksum_loop].
  destruct (N.leb_spec (4 * i + 4) (len b)).
  - rewrite get_range_at by lia. cbv [ok_or]. cbv beta iota.
    replace (4 * i + 4) with (4 * (i + 1)) by lia. destruct n; [lia|]. apply IH; lia.
  - rewrite get_range_none by lia. reflexivity.
Qed.
Lemma checksum_err b : len b < 508 -> calculate_checksum b = Err.
Proof.
  intros. unfold calculate_checksum. change 0 with (4 * 0) at 1.
  rewrite checksum_loop_err; [reflexivity|lia|lia].
Qed.
Lemma checksum_range b : header_checksum b <> 0 /\ header_checksum b <> 0xFFFFFFFF.
Proof.
  unfold header_checksum. destruct (N.eqb_spec (xor_of_dwords b) 0); [easy|].
  change (2 ^ 32 - 1) with 0xFFFFFFFF. change (2 ^ 32 - 2) with 0xFFFFFFFE.
  destruct (N.eqb_spec (xor_of_dwords b) 0xFFFFFFFF); easy.
Qed.

Lemma fold_lxor_change (f g : nat -> N) l i : NoDup l -> In i l ->
  (forall j, In j l -> j <> i -> f j = g j) ->
  fold_right N.lxor 0 (map f l) = N.lxor (N.lxor (f i) (g i)) (fold_right N.lxor 0 (map g l)).
Proof.
  induction l as [|a l IH]; intros ND I E; [easy|]. cbn [map fold_right].
  inversion ND; subst. destruct I as [->|I].
  - rewrite <- N.lxor_assoc. rewrite (N.lxor_assoc (f i) (g i) (g i)), N.lxor_nilpotent, N.lxor_0_r.
    f_equal. f_equal. apply map_ext_in. intros j J. apply E; [now right|]. now intros ->.
  - rewrite IH; [|easy|easy|intros; apply E; [now right|easy]].
    rewrite (E a); [|now left|now intros ->].
    rewrite <- !(N.lxor_assoc _ _ (fold_right _ _ _)). f_equal. apply N.lxor_comm.
Qed.
Lemma xor_change b c i : (i < 127)%nat ->
  (forall j, (j < 127)%nat -> j <> i -> num_at b (4 * N.of_nat j) 4 = num_at c (4 * N.of_nat j) 4) ->
  num_at b (4 * N.of_nat i) 4 <> num_at c (4 * N.of_nat i) 4 ->
  xor_of_dwords b <> xor_of_dwords c.
Proof.
  intros I E D H. unfold xor_of_dwords in H.
  rewrite (fold_lxor_change (fun i => num_at b (4 * N.of_nat i) 4)
             (fun i => num_at c (4 * N.of_nat i) 4) (seq 0 127) i) in H.
  - apply (f_equal (fun x => N.lxor x (fold_right N.lxor 0
       (map (fun i : nat => num_at c (4 * N.of_nat i) 4) (seq 0 127))))) in H.
    rewrite N.lxor_assoc, !N.lxor_nilpotent, N.lxor_0_r in H. now apply N.lxor_eq in H.
  - apply seq_NoDup.
  - apply in_seq. lia.
  - intros j J N. apply in_seq in J. apply E; [lia|easy].
Qed.

(** ** Marvin32 *)
Lemma land_mod x k : N.land x (2 ^ k - 1) = x mod 2 ^ k.
Proof. rewrite <- N.land_ones. f_equal. rewrite N.ones_equiv. lia. Qed.
Lemma lor_add a k b : b < 2 ^ k -> N.lor (a * 2 ^ k) b = a * 2 ^ k + b.
Proof.
  intros H. rewrite <- N.shiftl_mul_pow2.
  assert (L : N.land (N.shiftl a k) b = 0).
  { apply N.bits_inj. intros n. rewrite N.land_spec, N.bits_0.
    destruct (N.lt_ge_cases n k) as [I|I].
    - now rewrite N.shiftl_spec_low.
    - destruct (N.eq_dec b 0) as [->|Z]; [now rewrite N.bits_0, andb_false_r|].
      rewrite (N.bits_above_log2 b n); [apply andb_false_r|].
      apply N.log2_lt_pow2; [lia|]. eapply N.lt_le_trans; [exact H|].
      apply N.pow_le_mono_r; [easy|exact I]. }
  symmetry. rewrite N.add_nocarry_lxor by exact L. now apply N.lxor_lor.
Qed.
Lemma div_low x k : x < 2 ^ 32 -> k <= 32 -> x / 2 ^ (32 - k) < 2 ^ k.
Proof.
  intros. apply N.div_lt_upper_bound; [now apply N.pow_nonzero|].
  rewrite <- N.pow_add_r. now replace (32 - k + k) with 32 by lia.
Qed.
Lemma rotl_spec x k : x < 2 ^ 32 -> k <= 32 -> rotl32 x k = rot x k.
Proof.
  intros Hx Hk. unfold rotl32, rot, w32. change 4294967296 with (2 ^ 32).
  rewrite N.shiftl_mul_pow2, N.shiftr_div_pow2.
  assert (E : (x * 2 ^ k) mod 2 ^ 32 = (x mod 2 ^ (32 - k)) * 2 ^ k).
  { replace (2 ^ 32) with (2 ^ (32 - k) * 2 ^ k).
    - rewrite N.mul_mod_distr_r; try apply N.pow_nonzero; easy.
    - rewrite <- N.pow_add_r. f_equal. lia. }
  rewrite E. apply lor_add. now apply div_low.
Qed.
Lemma rot_bound x k : x < 2 ^ 32 -> k <= 32 -> rot x k < 2 ^ 32.
Proof.
  intros Hx Hk. unfold rot.
  assert (E : (x * 2 ^ k) mod 2 ^ 32 = (x mod 2 ^ (32 - k)) * 2 ^ k).
  { replace (2 ^ 32) with (2 ^ (32 - k) * 2 ^ k).
    - rewrite N.mul_mod_distr_r; try apply N.pow_nonzero; easy.
    - rewrite <- N.pow_add_r. f_equal. lia. }
  rewrite E. pose proof (div_low x k Hx Hk).
  assert (x mod 2 ^ (32 - k) < 2 ^ (32 - k)) by (apply N.mod_upper_bound; now apply N.pow_nonzero).
  replace (2 ^ 32) with (2 ^ (32 - k) * 2 ^ k) by (rewrite <- N.pow_add_r; f_equal; lia).
  apply N.lt_le_trans with ((x mod 2 ^ (32 - k) + 1) * 2 ^ k).
  - rewrite N.mul_add_distr_r, N.mul_1_l. now apply N.add_lt_mono_l.
  - apply N.mul_le_mono_r. now apply N.le_succ_l in H0; rewrite <- N.add_1_r in H0.
Qed.
Lemma sum32_bound a b : sum32 a b < 2 ^ 32.
Proof. apply N.mod_upper_bound. easy. Qed.
Lemma lxor_bound k a b : a < 2 ^ k -> b < 2 ^ k -> N.lxor a b < 2 ^ k.
Proof.
  intros A B. destruct (N.eq_dec (N.lxor a b) 0) as [->|Z]; [apply N.neq_0_lt_0; now apply N.pow_nonzero|].
  apply N.log2_lt_pow2; [lia|].
  destruct (N.eq_dec k 0) as [->|K].
  { change (2 ^ 0) with 1 in *. assert (a = 0) by lia. assert (b = 0) by lia. subst. easy. }
  pose proof (N.log2_lxor a b) as L.
  assert (N.log2 a < k). { destruct (N.eq_dec a 0) as [->|]; [cbn; lia|]. apply N.log2_lt_pow2; lia. }
  assert (N.log2 b < k). { destruct (N.eq_dec b 0) as [->|]; [cbn; lia|]. apply N.log2_lt_pow2; lia. }
  lia.
Qed.
Definition state_ok (s : N * N) : Prop := fst s < 2 ^ 32 /\ snd s < 2 ^ 32.
Lemma block_spec a b : a < 2 ^ 32 -> b < 2 ^ 32 -> block (a, b) = mix a b /\ state_ok (mix a b).
Proof.
  intros A B. unfold block, mix.
  assert (H1 : N.lxor b a < 2 ^ 32) by now apply lxor_bound.
  rewrite (rotl_spec a 20), (rotl_spec (N.lxor b a) 9) by (assumption || lia).
  change add32 with sum32.
  pose proof (rot_bound (N.lxor b a) 9 H1 ltac:(lia)) as H2.
  pose proof (sum32_bound (rot a 20) (N.lxor b a)) as H3.
  set (x := sum32 (rot a 20) (N.lxor b a)) in *.
  assert (H4 : N.lxor (rot (N.lxor b a) 9) x < 2 ^ 32) by now apply lxor_bound.
  set (y := N.lxor (rot (N.lxor b a) 9) x) in *.
  rewrite (rotl_spec x 27), (rotl_spec y 19) by (assumption || lia).
  split; [reflexivity|]. split; cbn [fst snd]; [apply sum32_bound|now apply rot_bound].
Qed.
Lemma absorb_spec s w : state_ok s -> block (add32 (fst s) w, snd s) = absorb s w /\ state_ok (absorb s w).
Proof.
  intros [A B]. unfold absorb. change add32 with sum32. apply block_spec; [apply sum32_bound|exact B].
Qed.

Lemma padded_cons4 a b c d r : padded (a :: b :: c :: d :: r) = a :: b :: c :: d :: padded r.
Proof.
  unfold padded. cbn [length app]. do 4 f_equal.
  replace (S (S (S (S (length r)))))%nat with (length r + 1 * 4)%nat by lia.
  now rewrite Nat.mod_add.
Qed.
Lemma marvin_loop_spec d s : state_ok s -> bytes_ok d ->
  block (marvin_loop d s) = fold_left absorb (words (padded d)) s
  /\ state_ok (fold_left absorb (words (padded d)) s).
Proof.
  remember (length d) as n eqn:Hn. revert d s Hn.
  induction n as [n IH] using lt_wf_ind. intros d s Hn Hs Hd.
  destruct d as [|a [|b [|c [|e r]]]].
  - destruct s as [s0 s1]. cbn [marvin_loop padded app repeat length words fold_left].
    cbn. apply (absorb_spec (s0, s1) 0x80 Hs).
  - destruct s as [s0 s1]. apply Forall_inv in Hd as Ha. unfold byte in Ha.
    change (marvin_loop [a] (s0, s1)) with (add32 s0 (N.lor 0x8000 a), s1).
    change (words (padded [a])) with [a + 256 * 0x80 + 65536 * 0 + 16777216 * 0].
    replace (a + 256 * 0x80 + 65536 * 0 + 16777216 * 0) with (N.lor 0x8000 a).
    + apply (absorb_spec (s0, s1) _ Hs).
    + change 0x8000 with (1 * 2 ^ 15) at 1. rewrite lor_add; [lia|change (2 ^ 15) with 32768; lia].
  - destruct s as [s0 s1]. inversion Hd as [|? ? Ha Hd']; subst. apply Forall_inv in Hd' as Hb.
    unfold byte in *.
    change (marvin_loop [a; b] (s0, s1)) with (add32 s0 (N.lor 0x800000 (le [a; b])), s1).
    change (words (padded [a; b])) with [a + 256 * b + 65536 * 0x80 + 16777216 * 0].
    replace (a + 256 * b + 65536 * 0x80 + 16777216 * 0) with (N.lor 0x800000 (le [a; b])).
    + apply (absorb_spec (s0, s1) _ Hs).
    + change 0x800000 with (1 * 2 ^ 23) at 1. rewrite !le_cons. cbn [le fold_right].
      rewrite lor_add; [lia|change (2 ^ 23) with 8388608; lia].
  - destruct s as [s0 s1]. inversion Hd as [|? ? Ha Hd']; subst. inversion Hd' as [|? ? Hb Hd'']; subst.
    apply Forall_inv in Hd'' as Hc. unfold byte in *.
    change (marvin_loop [a; b; c] (s0, s1))
      with (add32 s0 (N.lor (N.lor 0x80000000 (N.shiftl c 16)) (le [a; b])), s1).
    change (words (padded [a; b; c])) with [a + 256 * b + 65536 * c + 16777216 * 0x80].
    replace (a + 256 * b + 65536 * c + 16777216 * 0x80)
      with (N.lor (N.lor 0x80000000 (N.shiftl c 16)) (le [a; b])).
    + apply (absorb_spec (s0, s1) _ Hs).
    + rewrite N.shiftl_mul_pow2. change 0x80000000 with (1 * 2 ^ 31) at 1.
      rewrite !le_cons. cbn [le fold_right].
      rewrite lor_add; [|change (2 ^ 16) with 65536; change (2 ^ 31) with 2147483648; lia].
      replace (1 * 2 ^ 31 + c * 2 ^ 16) with ((32768 + c) * 2 ^ 16)
        by (change (2 ^ 31) with 2147483648; change (2 ^ 16) with 65536; lia).
      rewrite lor_add; change (2 ^ 16) with 65536; lia.
  - destruct s as [s0 s1]. cbn [marvin_loop]. rewrite padded_cons4. cbn [words fold_left].
    assert (Hw : le [a; b; c; e] = a + 256 * b + 65536 * c + 16777216 * e).
    { rewrite !le_cons. cbn [le fold_right]. lia. }
    rewrite Hw. destruct (absorb_spec (s0, s1) (a + 256 * b + 65536 * c + 16777216 * e) Hs) as [E F].
    cbn [fst snd] in E. rewrite E. apply (IH (length r)); cbn in *; [lia|reflexivity|exact F|].
    do 4 apply Forall_inv_tail in Hd. exact Hd.
Qed.
Lemma marvin_spec seed d : seed < 2 ^ 64 -> bytes_ok d -> marvin32 seed d = marvin32_spec seed d.
Proof.
  intros Hs Hd. unfold marvin32, marvin32_spec. change 0xFFFFFFFF with (2 ^ 32 - 1).
  rewrite land_mod, N.shiftr_div_pow2, fold_left_app.
  destruct (marvin_loop_spec d (seed mod 2 ^ 32, seed / 2 ^ 32)) as [E F]; [|exact Hd|].
  { split; cbn [fst snd]; [now apply N.mod_upper_bound|].
    apply N.div_lt_upper_bound; [easy|]. rewrite <- N.pow_add_r. exact Hs. }
  rewrite E. set (t := fold_left absorb _ _) in *. cbn [fold_left].
  assert (G : block t = absorb t 0).
  { destruct t as [t0 t1]. destruct F as [F0 F1]. cbn [fst snd] in *. unfold absorb. cbn [fst snd].
    unfold sum32. rewrite N.add_0_r, N.mod_small by exact F0. now apply block_spec. }
  rewrite G. destruct (absorb_spec t 0 F) as [_ K]. destruct (absorb t 0) as [lo hi].
  destruct K as [K _]. cbn [fst] in K. rewrite N.shiftl_mul_pow2, N.lor_comm. now apply lor_add.
Qed.

(** ** The statements of C11 and C12 *)
Lemma bb_fields b : 4096 <= len b -> bytes_at b 0 4 = REGF ->
  exists h, bb_from_bytes b = Ok (h, rest_at b 4096)
  /\ bb_primary_seq (bb_base h) = num_at b 4 4
  /\ bb_secondary_seq (bb_base h) = num_at b 8 4
  /\ bb_modified (bb_base h) = get_date_time_from_filetime (num_at b 12 8)
  /\ bb_major (bb_base h) = num_at b 20 4
  /\ bb_minor (bb_base h) = num_at b 24 4
  /\ bb_file_type (bb_base h)
     = match num_at b 28 4 with
       | 0 => Primary | 1 => TransactionLog1 | 6 => TransactionLog6 | _ => UnknownType
       end
  /\ bb_format (bb_base h) = num_at b 32 4
  /\ bb_root_offset (bb_base h) = i32_at b 36
  /\ bb_hive_bins_data_size (bb_base h) = num_at b 40 4
  /\ bb_clustering (bb_base h) = num_at b 44 4
  /\ (exists w, from_utf16_le_string (bytes_at b 48 64) 64 = Ok (bb_filename (bb_base h), w))
  /\ bb_unk2 (bb_base h) = bytes_at b 112 396
  /\ bb_checksum (bb_base h) = num_at b 508 4
  /\ rs_rm_id (bb_ext h) = bytes_at b 512 16
  /\ rs_log_id (bb_ext h) = bytes_at b 528 16
  /\ rs_flags (bb_ext h) = num_at b 544 4
  /\ rs_tm_id (bb_ext h) = bytes_at b 548 16
  /\ rs_signature (bb_ext h) = num_at b 564 4
  /\ rs_reorganized (bb_ext h) = get_date_time_from_filetime (num_at b 568 8)
  /\ rs_remaining (bb_ext h) = bytes_at b 576 3512
  /\ bb_boot_type h = num_at b 4088 4
  /\ bb_boot_recover h = num_at b 4092 4.
Proof.
  intros L T. destruct (bb_read b L T) as (name & w & E & F). exists (base_block_at b name).
  split; [exact F|]. cbn [base_block_at header_at reserved_at bb_base bb_ext bb_boot_type bb_boot_recover
    bb_primary_seq bb_secondary_seq bb_modified bb_major bb_minor bb_file_type bb_format bb_root_offset
    bb_hive_bins_data_size bb_clustering bb_filename bb_unk2 bb_checksum rs_rm_id rs_log_id rs_flags
    rs_tm_id rs_signature rs_reorganized rs_remaining].
  repeat split; [|eauto].
  unfold file_type_from_value. destruct (num_at b 28 4) as [|p]; [reflexivity|].
  destruct p as [[[p|p|]|[p|p|]|]|[[p|p|]|[p|p|]|]|]; reflexivity.
Qed.
Lemma bb_accepts b r : bb_from_bytes b = Ok r -> 4096 <= len b /\ bytes_at b 0 4 = REGF.
Proof. destruct (bb_cases b) as [(? & ? & _)|(_ & ->)]; [auto|discriminate]. Qed.
Lemma bb_total b : bb_from_bytes b = Err \/ exists h r, bb_from_bytes b = Ok (h, r).
Proof. destruct (bb_cases b) as [(? & ? & ? & ? & ? & ->)|(_ & ->)]; eauto. Qed.
Lemma file_name_text b text tail : Forall scalar text -> ~ In 0 text ->
  4096 <= len b -> bytes_at b 0 4 = REGF ->
  bytes_at b 48 64 = utf16le text ++ tail ->
  (tail = [] \/ exists junk, tail = 0 :: 0 :: junk) ->
  exists h r, bb_from_bytes b = Ok (h, r) /\ read_utf8 (bb_filename (bb_base h)) = Some text.
Proof.
  intros S Z L T B C. destruct (bb_read b L T) as (name & w & E & F).
  exists (base_block_at b name), (rest_at b 4096). split; [exact F|]. cbn.
  assert (K : len (utf16le text ++ tail) = 64) by (rewrite <- B, len_bytes_at; lia).
  destruct (utf16_string_text text tail 64 S Z) as (s & E1 & E2).
  - lia.
  - rewrite len_app in K. destruct C as [->|(j & ->)].
    + left. change (len (@nil N)) with 0 in K. lia.
    + right. split; [eauto|]. rewrite !len_cons in K. lia.
  - rewrite B in E. congruence.
Qed.
Lemma hbin_fields off b :
  (32 <= len b /\ bytes_at b 0 4 = HBIN
   /\ exists h, hbin_from_bytes off b = Ok (h, rest_at b 32)
      /\ hb_offset h = num_at b 4 4 /\ hb_size h = num_at b 8 4
      /\ hb_unknown1 h = num_at b 12 4 /\ hb_unknown2 h = num_at b 16 4
      /\ hb_time h = get_date_time_from_filetime (num_at b 20 8) /\ hb_spare h = num_at b 28 4
      /\ hb_file_offset h = off)
  \/ ((len b < 32 \/ bytes_at b 0 4 <> HBIN) /\ hbin_from_bytes off b = Err).
Proof.
  destruct (hbin_cases off b) as [(L & T & E)|]; [left|now right].
  split; [exact L|]. split; [exact T|]. exists (hbin_at off b). rewrite E. repeat split.
Qed.
Lemma checksum_detects b c i : (i < 127)%nat ->
  (forall j, (j < 127)%nat -> j <> i -> num_at b (4 * N.of_nat j) 4 = num_at c (4 * N.of_nat j) 4) ->
  num_at b (4 * N.of_nat i) 4 <> num_at c (4 * N.of_nat i) 4 ->
  ~ In (xor_of_dwords b) [0; 2 ^ 32 - 1] -> ~ In (xor_of_dwords c) [0; 2 ^ 32 - 1] ->
  508 <= len b -> 508 <= len c ->
  calculate_checksum b <> calculate_checksum c.
Proof.
  intros I E D B C Lb Lc. rewrite !checksum_spec by assumption.
  pose proof (xor_change b c i I E D) as X. unfold header_checksum. cbn [In] in B, C.
  destruct (N.eqb_spec (xor_of_dwords b) 0); [intuition congruence|].
  destruct (N.eqb_spec (xor_of_dwords b) (2 ^ 32 - 1)); [intuition congruence|].
  destruct (N.eqb_spec (xor_of_dwords c) 0); [intuition congruence|].
  destruct (N.eqb_spec (xor_of_dwords c) (2 ^ 32 - 1)); [intuition congruence|].
  congruence.
Qed.
Lemma checksum_value b c : calculate_checksum b = Ok c <-> 508 <= len b /\ c = header_checksum b.
Proof.
  destruct (N.leb_spec 508 (len b)).
  - rewrite checksum_spec by assumption. split; [intros [= <-]; auto|intros [_ ->]; reflexivity].
  - rewrite checksum_err by assumption. split; [discriminate|lia].
Qed.
Lemma checksum_never b c : calculate_checksum b = Ok c -> c <> 0 /\ c <> 0xFFFFFFFF.
Proof. rewrite checksum_value. intros [_ ->]. apply checksum_range. Qed.
