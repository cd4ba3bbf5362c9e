(** Proofs about building a parser from a hive and its transaction logs. *)
From Coq Require Import Permutation.
From Verif Require Import Base BaseFacts LayoutSpec LayoutFacts Util UtilSpec UtilText BaseBlock Marvin
  HeaderFacts Types Value Node Recover Parser TxLog TxSpec TxParse TxApply NodeFrame.

(** ** The header of the parser *)
Lemma supported_at b name : is_supported (base_block_at b name) = true <-> known_file_type b.
Proof.
  unfold is_supported, known_file_type. cbn [base_block_at bb_base header_at bb_file_type].
  unfold file_type_from_value.
  destruct (N.eqb_spec (num_at b 28 4) 0); [intuition|].
  destruct (N.eqb_spec (num_at b 28 4) 1); [intuition|].
  destruct (N.eqb_spec (num_at b 28 4) 6); [intuition|]. intuition discriminate.
Qed.

Lemma header_checksum_head b : 512 <= len b -> header_checksum (bytes_at b 0 512) = header_checksum b.
Proof.
  intros L. apply header_checksum_ext; [rewrite len_bytes_at; lia|lia|].
  intros i I. unfold bytes_at. cbn [N.to_nat skipn]. now rewrite nth_firstn by lia.
Qed.

Lemma init_base_block_spec p : 4096 <= len (ps_buffer p) -> bytes_at (ps_buffer p) 0 4 = REGF ->
  exists name bad p',
    bb_from_bytes (ps_buffer p) = Ok (base_block_at (ps_buffer p) name, rest_at (ps_buffer p) 4096)
    /\ init_base_block p = Ok (is_supported (base_block_at (ps_buffer p) name), bad, p')
    /\ ps_file p' = mkFI 4096 (ps_buffer p)
    /\ ps_base_block p' = Some (base_block_at (ps_buffer p) name)
    /\ ps_recover p' = ps_recover p
    /\ ps_hbin_header p' = ps_hbin_header p /\ ps_root p' = ps_root p
    /\ set_info [] (ps_state p') = set_info [] (ps_state p)
    /\ (known_file_type (ps_buffer p) -> (bad = false <-> checksum_right (ps_buffer p))).
Proof.
  intros L T. destruct (bb_read _ L T) as (name & w & _ & E). exists name. unfold init_base_block.
  rewrite E. cbv beta iota. unfold check_base_block.
  replace (len (ps_buffer p) - len (rest_at (ps_buffer p) 4096)) with 4096 by (rewrite len_rest_at; lia).
  destruct (is_supported (base_block_at (ps_buffer p) name)) eqn:S.
  2:{ eexists _, _. split; [reflexivity|]. split; [reflexivity|]. repeat (split; [reflexivity|]).
      intros K. apply supported_at with (name := name) in K. congruence. }
  set (q := ps_set_base_block _ _).
  set (q' := if bb_primary_seq _ =? bb_secondary_seq _ then q else ps_log WarningBaseBlock q).
  assert (Q : ps_file q' = mkFI 4096 (ps_buffer p)
              /\ ps_base_block q' = Some (base_block_at (ps_buffer p) name)
              /\ ps_recover q' = ps_recover p
              /\ ps_hbin_header q' = ps_hbin_header p /\ ps_root q' = ps_root p
              /\ set_info [] (ps_state q') = set_info [] (ps_state p)).
  { subst q'. destruct (_ =? _); subst q; repeat split. }
  destruct Q as (Q1 & Q2 & Q3 & Q4 & Q5 & Q6).
  assert (QB : ps_buffer q' = ps_buffer p) by (unfold ps_buffer; now rewrite Q1).
  rewrite QB, get_range_at by lia. change (0x200 - 0) with 512. cbv [or_panic]. cbv beta iota.
  rewrite checksum_spec by (rewrite len_bytes_at; lia). cbv beta iota.
  rewrite header_checksum_head by lia. cbn [base_block_at bb_base header_at bb_checksum].
  destruct (N.eqb_spec (header_checksum (ps_buffer p)) (num_at (ps_buffer p) 508 4)) as [C|C].
  - eexists _, _. split; [reflexivity|]. split; [reflexivity|]. repeat split; try assumption.
    now intros _.
  - eexists _, _. split; [reflexivity|]. split; [reflexivity|].
    repeat split; try assumption; unfold checksum_right in *; try congruence.
Qed.

Lemma patch_bytes b n b1 b2 c b3 : 4096 <= len b -> u32 n -> bytes_ok b ->
  overwrite b 4 (enc 4 n) = Some b1 -> overwrite b1 8 (enc 4 n) = Some b2 ->
  c = header_checksum (bytes_at b2 0 512) ->
  overwrite b2 CHECKSUM_OFFSET (enc 4 c) = Some b3 ->
  patched n b b3.
Proof.
  intros L U B E1 E2 C E3. unfold CHECKSUM_OFFSET in *.
  apply overwrite_some in E1 as (_ & L1 & _ & H1).
  apply overwrite_some in E2 as (_ & L2 & _ & H2).
  apply overwrite_some in E3 as (_ & L3 & K3 & H3).
  rewrite !len_enc in *. change (N.of_nat 4) with 4 in *.
  rewrite header_checksum_head in C by lia.
  assert (NE : forall o b' m, u32 m -> o + 4 <= len b' ->
             (forall i, o <= i < o + 4 -> nth (N.to_nat i) b' 0 = nth (N.to_nat (i - o)) (enc 4 m) 0) ->
             num_at b' o 4 = m).
  { intros o b' m Um Lo H. unfold num_at.
    replace (bytes_at b' o 4) with (enc 4 m).
    - change (le (enc 4 m) = m). apply le_enc. exact Um.
    - apply nth_ext with (d := 0) (d' := 0).
      + pose proof (len_bytes_at b' o 4). pose proof (len_enc 4 m). unfold len in *. lia.
      + intros i I. assert (i < 4)%nat by (pose proof (len_enc 4 m); unfold len in *; lia).
        unfold bytes_at. rewrite nth_firstn, nth_skipn by lia.
        replace (N.to_nat o + i)%nat with (N.to_nat (o + N.of_nat i)) by lia.
        rewrite H by lia. f_equal. lia. }
  assert (CE : header_checksum b3 = c).
  { subst c. apply header_checksum_ext; try lia. intros i I. rewrite H3.
    destruct (N.leb_spec 508 i); [lia|reflexivity]. }
  assert (CB : u32 c).
  { subst c. unfold header_checksum, u32. 
    assert (X : xor_of_dwords b2 < 2 ^ 32).
    { unfold xor_of_dwords. assert (F : Forall (fun x => x < 2 ^ 32)
          (map (fun i => num_at b2 (4 * N.of_nat i) 4) (seq 0 127))).
      { apply Forall_forall. intros x I. apply in_map_iff in I as (i & <- & _).
        change (2 ^ 32) with (256 ^ 4). apply num_at_bound.
        apply Forall_forall. intros y Y. apply In_nth with (d := 0) in Y as (k & K & <-).
        replace k with (N.to_nat (N.of_nat k)) by lia. rewrite H2.
        assert (EB : forall i m, byte (nth i (enc 4 m) 0)).
        { intros j m. destruct (nth_in_or_default j (enc 4 m) 0) as [J| ->]; [|unfold byte; lia].
          pose proof (enc_bytes 4 m) as G. unfold bytes_ok in G. rewrite Forall_forall in G. auto. }
        destruct (_ && _); [apply EB|]. rewrite H1. destruct (_ && _); [apply EB|].
        destruct (nth_in_or_default (N.to_nat (N.of_nat k)) b 0) as [J| ->]; [|unfold byte; lia].
        unfold bytes_ok in B. rewrite Forall_forall in B. auto. }
      induction F as [|x l X _ IH]; [reflexivity|]. cbn [fold_right]. now apply lxor_bound. }
    destruct (_ =? 0); [reflexivity|]. destruct (_ =? _); [reflexivity|exact X]. }
  split; [lia|]. split; [|split; [|split]].
  - apply NE; [exact U|lia|]. intros i I. rewrite H3, H2, H1.
    destruct (N.leb_spec 508 i); [lia|]. cbn [andb].
    destruct (N.leb_spec 8 i); [lia|]. cbn [andb].
    destruct (N.leb_spec 4 i); [|lia]. destruct (N.ltb_spec i (4 + 4)); [reflexivity|lia].
  - apply NE; [exact U|lia|]. intros i I. rewrite H3, H2.
    destruct (N.leb_spec 508 i); [lia|]. cbn [andb].
    destruct (N.leb_spec 8 i); [|lia]. destruct (N.ltb_spec i (8 + 4)); [reflexivity|lia].
  - rewrite CE. apply NE; [exact CB|lia|]. intros i I. rewrite H3.
    destruct (N.leb_spec 508 i); [|lia]. destruct (N.ltb_spec i (508 + 4)); [reflexivity|lia].
  - intros i I. rewrite H3, H2, H1.
    destruct (N.leb_spec 508 i).
    + destruct (N.ltb_spec i (508 + 4)); [lia|]. cbn [andb].
      destruct (N.leb_spec 8 i); [|lia]. destruct (N.ltb_spec i (8 + 4)); [lia|]. cbn [andb].
      destruct (N.leb_spec 4 i); [|lia]. destruct (N.ltb_spec i (4 + 4)); [lia|]. reflexivity.
    + cbn [andb]. destruct (N.leb_spec 8 i).
      * destruct (N.ltb_spec i (8 + 4)); [lia|]. cbn [andb].
        destruct (N.leb_spec 4 i); [|lia]. destruct (N.ltb_spec i (4 + 4)); [lia|]. reflexivity.
      * cbn [andb]. destruct (N.leb_spec 4 i); [|reflexivity]. lia.
Qed.

Lemma patched_regf n b b' : 4096 <= len b -> patched n b b' -> bytes_at b' 0 4 = bytes_at b 0 4.
Proof.
  intros L (L' & _ & _ & _ & H). apply bytes_at_ext; try lia. intros i I. apply H. lia.
Qed.

Lemma update_header_spec n p : u32 n -> bytes_ok (ps_buffer p) ->
  4096 <= len (ps_buffer p) -> bytes_at (ps_buffer p) 0 4 = REGF ->
  exists p' bb, update_header n p = Ok p' /\ patched n (ps_buffer p) (ps_buffer p')
  /\ ps_hbin p' = 4096 /\ ps_base_block p' = Some bb
  /\ bb_from_bytes (ps_buffer p') = Ok (bb, rest_at (ps_buffer p') 4096)
  /\ ps_recover p' = ps_recover p.
Proof.
  intros U B L T. unfold update_header.
  destruct (overwrite_fit (ps_buffer p) 4 (enc 4 n)) as [b1 E1]; [rewrite len_enc; lia|].
  rewrite E1. cbv [or_panic]. cbv beta iota.
  pose proof (overwrite_some _ _ _ _ E1) as (_ & L1 & _).
  destruct (overwrite_fit b1 8 (enc 4 n)) as [b2 E2]; [rewrite len_enc; lia|].
  rewrite E2. cbv beta iota. pose proof (overwrite_some _ _ _ _ E2) as (_ & L2 & _).
  rewrite get_range_at by lia. change (0x200 - 0) with 512. cbv beta iota.
  rewrite checksum_spec by (rewrite len_bytes_at; lia). cbv beta iota.
  destruct (overwrite_fit b2 CHECKSUM_OFFSET (enc 4 (header_checksum (bytes_at b2 0 512)))) as [b3 E3].
  { rewrite len_enc. unfold CHECKSUM_OFFSET. lia. }
  rewrite E3. cbv beta iota. pose proof (overwrite_some _ _ _ _ E3) as (_ & L3 & _).
  assert (P : patched n (ps_buffer p) b3) by (eapply patch_bytes; eauto).
  destruct (init_base_block_spec (ps_set_buffer b3 p)) as (name & bad & p' & A1 & A2 & A3 & A4 & A5 & _).
  { change (ps_buffer (ps_set_buffer b3 p)) with b3. lia. }
  { change (ps_buffer (ps_set_buffer b3 p)) with b3. rewrite (patched_regf n (ps_buffer p)); auto. }
  rewrite A2. cbv beta iota. change (ps_buffer (ps_set_buffer b3 p)) with b3 in *.
  exists (ps_log LogInfo p'), (base_block_at b3 name). split; [reflexivity|].
  assert (PB : ps_buffer (ps_log LogInfo p') = b3).
  { change (ps_buffer (ps_log LogInfo p')) with (fi_buffer (ps_file p')). now rewrite A3. }
  rewrite PB. split; [exact P|]. split; [|split; [exact A4|split; [exact A1|exact A5]]].
  change (ps_hbin (ps_log LogInfo p')) with (fi_hbin (ps_file p')). now rewrite A3.
Qed.

(** ** The logs that are parsed *)
Lemma parse_each_in files ls w : parse_each files = Ok (ls, w) ->
  Forall (fun l => exists f, In f files /\ log_from_bytes f = Ok l) ls.
Proof.
  revert ls w. induction files as [|f files IH]; intros ls w; cbn [parse_each].
  { intros [= <- _]. constructor. }
  assert (W : forall ls, Forall (fun l => exists f, In f files /\ log_from_bytes f = Ok l) ls ->
                Forall (fun l => exists g, In g (f :: files) /\ log_from_bytes g = Ok l) ls).
  { intros l. apply Forall_impl. intros a (g & I & E). exists g. split; [now right|exact E]. }
  assert (SK : (let* (ls, w) := parse_each files in Ok (ls, WarningParse :: w)) = Ok (ls, w) ->
               Forall (fun l => exists g, In g (f :: files) /\ log_from_bytes g = Ok l) ls).
  { destruct (parse_each files) as [[ls' w']| | |]; try discriminate. intros [= <- _].
    apply W. eapply IH. reflexivity. }
  assert (TK : match log_from_bytes f with
      | Ok l => let* (ls, w) := parse_each files in Ok (l :: ls, w)
      | Err => let* (ls, w) := parse_each files in Ok (ls, WarningParse :: w)
      | Panic => Panic
      | OutOfFuel => OutOfFuel
      end = Ok (ls, w) -> Forall (fun l => exists g, In g (f :: files) /\ log_from_bytes g = Ok l) ls).
  { destruct (log_from_bytes f) as [l| | |] eqn:L; try discriminate; [|exact SK].
    destruct (parse_each files) as [[ls' w']| | |]; try discriminate. intros [= <- _].
    constructor; [exists f; split; [now left|exact L]|]. apply W. eapply IH. reflexivity. }
  destruct f; [exact SK|exact TK].
Qed.

(** ** Sorting *)
Lemma insert_perm {A} leb (x : A) l : Permutation (insert_by leb x l) (x :: l).
Proof.
  induction l as [|y r IH]; cbn [insert_by]; [reflexivity|]. destruct (leb x y); [reflexivity|].
  rewrite IH. apply perm_swap.
Qed.
Lemma sort_perm {A} leb (l : list A) : Permutation (sort_by leb l) l.
Proof.
  unfold sort_by. induction l as [|x r IH]; cbn [fold_right]; [reflexivity|].
  rewrite insert_perm. now constructor.
Qed.
Section sorting.
  Context {A : Type} (key : A -> N).
  Let leb a b := key a <=? key b.
  Inductive sorted : list A -> Prop :=
  | sorted_nil : sorted []
  | sorted_cons x l : Forall (fun y => key x <= key y) l -> sorted l -> sorted (x :: l).
  Lemma insert_sorted x l : sorted l -> sorted (insert_by leb x l).
  Proof.
    induction 1 as [|y l F S IH]; cbn [insert_by]; [repeat constructor|].
    unfold leb at 1. destruct (N.leb_spec (key x) (key y)).
    - constructor; [|now constructor]. constructor; [assumption|].
      eapply Forall_impl; [|exact F]. cbv beta. intros z Z. lia.
    - constructor; [|exact IH]. apply (Permutation_Forall (Permutation_sym (insert_perm leb x l))).
      constructor; [lia|exact F].
  Qed.
  Lemma sort_sorted l : sorted (sort_by leb l).
  Proof. unfold sort_by. induction l; cbn [fold_right]; [constructor|]. now apply insert_sorted. Qed.
  Lemma sorted_unique l l' : sorted l -> sorted l' -> Permutation l l' ->
    (forall a b, In a l -> In b l -> key a = key b -> a = b) -> l = l'.
  Proof.
    intros S. revert l'. induction S as [|x l F S IH]; intros l' S' P D.
    { now apply Permutation_nil in P. }
    destruct S' as [|y l' F' S']; [now apply Permutation_sym, Permutation_nil in P|].
    assert (E : x = y).
    { assert (I : In y (x :: l)) by (apply (Permutation_in _ (Permutation_sym P)); now left).
      assert (J : In x (y :: l')) by (apply (Permutation_in _ P); now left).
      apply D; [now left|exact I|].
      rewrite Forall_forall in F, F'. destruct I as [->|I]; [reflexivity|].
      destruct J as [->|J]; [reflexivity|]. pose proof (F _ I). pose proof (F' _ J). lia. }
    subst y. f_equal. apply IH; [exact S'|now apply Permutation_cons_inv in P|].
    intros a b I J. apply D; now right.
  Qed.
End sorting.

Lemma parse_each_perm files files' : Permutation files files' ->
  match parse_each files, parse_each files' with
  | Ok (ls, w), Ok (ls', w') => Permutation ls ls' /\ w = w'
  | Panic, Panic => True
  | _, _ => False
  end.
Proof.
  assert (K : forall files, exists ls n,
    parse_each files = Ok (ls, repeat WarningParse n) \/ parse_each files = Panic).
  { induction files0 as [|f fs IH]; [exists [], 0%nat; now left|]. cbn [parse_each].
    assert (SK : exists ls n, (let* (ls, w) := parse_each fs in Ok (ls, WarningParse :: w)) = Ok (ls, repeat WarningParse n)
             \/ (let* (ls, w) := parse_each fs in Ok (ls, WarningParse :: w)) = Panic).
    { destruct IH as (ls & n & [-> | ->]); [|exists [], 0%nat; now right]. exists ls, (S n). now left. }
    destruct f; [exact SK|]. pose proof (log_from_bytes_fuel (n :: f)) as NF.
    destruct (log_from_bytes (n :: f)) as [t| | |]; [|exact SK| |congruence].
    - destruct IH as (ls & m & [-> | ->]); [|exists [], 0%nat; now right]. exists (t :: ls), m. now left.
    - exists [], 0%nat. now right. }
  assert (C1 : forall f x, parse_each (f :: x) =
     match (match f with [] => Err | _ => log_from_bytes f end) with
      | Ok l => let* (ls, w) := parse_each x in Ok (l :: ls, w)
      | Err => let* (ls, w) := parse_each x in Ok (ls, WarningParse :: w)
      | Panic => Panic
      | OutOfFuel => OutOfFuel
      end) by (intros [|? ?] ?; reflexivity).
  assert (NF : forall f, (match f with [] => Err | _ => log_from_bytes f end) <> OutOfFuel).
  { intros [|? ?]; [discriminate|]. apply log_from_bytes_fuel. }
  induction 1 as [|f x x' P IH|f g x|x y z P IH Q IH'].
  - cbn. split; [constructor|reflexivity].
  - rewrite !C1. specialize (NF f). destruct (match f with [] => Err | _ => _ end); [| |exact I|congruence].
    + destruct (parse_each x) as [[? ?]| | |], (parse_each x') as [[? ?]| | |]; cbn; try tauto.
      destruct IH as [? ->]. split; [now constructor|reflexivity].
    + destruct (parse_each x) as [[? ?]| | |], (parse_each x') as [[? ?]| | |]; cbn; try tauto.
      destruct IH as [? ->]. split; [assumption|reflexivity].
  - rewrite !C1. pose proof (NF f) as F. pose proof (NF g) as G.
    destruct (K x) as (ls & n & [E|E]); rewrite E;
    destruct (match f with [] => Err | _ => _ end); destruct (match g with [] => Err | _ => _ end);
      try congruence; cbn; try exact I; (split; [first [reflexivity|apply perm_swap]|reflexivity]).
  - destruct (parse_each x) as [[? ?]| | |], (parse_each y) as [[? ?]| | |]; try contradiction.
    + destruct (parse_each z) as [[? ?]| | |]; try contradiction. destruct IH as [? ->], IH' as [? ->].
      split; [eapply Permutation_trans; eassumption|reflexivity].
    + destruct (parse_each z) as [[? ?]| | |]; try contradiction; exact I.
Qed.

Lemma parse_logs_perm files files' : Permutation files files' ->
  (forall f g l m, In f files -> In g files -> log_from_bytes f = Ok l -> log_from_bytes g = Ok m ->
     log_primary l = log_primary m -> l = m) ->
  parse_logs files = parse_logs files'.
Proof.
  intros P D. unfold parse_logs. pose proof (parse_each_perm _ _ P) as Q.
  destruct (parse_each files) as [[ls w]| | |] eqn:E, (parse_each files') as [[ls' w']| | |]; try contradiction;
    [|reflexivity].
  destruct Q as [Q ->]. f_equal. f_equal.
  apply parse_each_in in E. rewrite Forall_forall in E.
  apply (sorted_unique log_primary); [apply sort_sorted|apply sort_sorted| |].
  - now rewrite !sort_perm.
  - intros a b I J. apply (Permutation_in _ (sort_perm _ _)) in I, J.
    destruct (E _ I) as (f & If & Ef), (E _ J) as (g & Ig & Eg). eauto.
Qed.
Lemma build_perm order fuel hash recover full buffer files files' : Permutation files files' ->
  (forall f g l m, In f files -> In g files -> log_from_bytes f = Ok l -> log_from_bytes g = Ok m ->
     log_primary l = log_primary m -> l = m) ->
  build order fuel hash recover full buffer files = build order fuel hash recover full buffer files'.
Proof. intros P D. unfold build. now rewrite (parse_logs_perm _ _ P D). Qed.

(** ** Recovery of a dirty hive *)
Lemma overlaid_bytes hbin hbins es b b' : bytes_ok b -> Forall entry_ok es ->
  overlaid hbin hbins es b b' -> bytes_ok b'.
Proof.
  intros B F [L H]. apply Forall_forall. intros x X. apply In_nth with (d := 0) in X as (i & I & <-).
  replace i with (N.to_nat (N.of_nat i)) by lia. rewrite H by (unfold len; lia).
  assert (PB : Forall (fun p => bytes_ok (dp_bytes p)) (all_pages es)).
  { unfold all_pages. clear -F. induction F as [|e es (_ & _ & P) _ IH]; [constructor|].
    cbn [flat_map]. apply Forall_app. now split. }
  set (d := nth _ b 0). assert (D : byte d).
  { subst d. destruct (nth_in_or_default (N.to_nat (N.of_nat i)) b 0) as [J| ->]; [|unfold byte; lia].
    unfold bytes_ok in B. rewrite Forall_forall in B. auto. }
  clearbody d. clear H. unfold byte_after. revert d D. induction PB as [|p ps P _ IH]; intros d D; [exact D|].
  cbn [fold_left]. apply IH. destruct (page_byte hbin (N.of_nat i) p) as [y|] eqn:E; [|exact D].
  unfold page_byte in E. destruct (_ <=? _); [|discriminate]. apply nth_error_In in E.
  unfold bytes_ok in P. rewrite Forall_forall in P. auto.
Qed.
Lemma chain_entries sec n logs es m : log_chain sec n logs es m ->
  forall P : log_entry -> Prop, Forall (fun l => Forall P (tl_entries l)) logs -> Forall P es.
Proof.
  induction 1 as [n|n l ls es m N C IH|n l ls a es m E A C IH]; intros P F.
  - constructor.
  - apply IH. now inversion F.
  - inversion F; subst. apply Forall_app. split; [|now apply IH].
    destruct A as (rest & A & _).
    assert (FF : Forall P (fresh sec (tl_entries l))).
    { unfold fresh. apply Forall_forall. intros e I. apply filter_In in I as [I _].
      rewrite Forall_forall in H1. apply H1. clear -I. induction (tl_entries l) as [|x r IH]; [exact I|].
      cbn in I. destruct (le_valid_hashes x); [|contradiction]. destruct I as [->|I]; [now left|right; auto]. }
    rewrite A in FF. now apply Forall_app in FF as [? _].
Qed.
Lemma chain_last sec n logs es m : log_chain sec n logs es m ->
  m = n \/ m = 0 \/ exists e, In e es /\ m = le_seq e.
Proof.
  induction 1 as [n|n l ls es m N C IH|n l ls a es m E A C IH].
  - now left.
  - exact IH.
  - destruct IH as [->|[->|(e & I & ->)]].
    + unfold last_seq. destruct a as [|x a] using rev_ind; [right; now left|].
      right; right. exists x. rewrite map_app. cbn [map]. rewrite List.last_last, !in_app_iff. cbn [In]. tauto.
    + right; now left.
    + right; right. exists e. rewrite in_app_iff. tauto.
Qed.

Lemma byte_after_low i ps d : i < 4096 -> byte_after 4096 i ps d = d.
Proof.
  intros I. revert d. induction ps as [|p ps IH]; intros d; [reflexivity|]. unfold byte_after in *.
  cbn [fold_left]. rewrite IH. unfold page_byte. destruct (N.leb_spec (4096 + dp_offset p) i); [lia|reflexivity].
Qed.
(** Dirty pages never touch the header. *)
Lemma overlaid_header hbins es b b' : 4096 <= len b -> overlaid 4096 hbins es b b' ->
  4096 <= len b' /\ forall i, i < 4096 -> nth (N.to_nat i) b' 0 = nth (N.to_nat i) b 0.
Proof.
  intros L [L' H]. split; [lia|]. intros i I. rewrite H by lia. now apply byte_after_low.
Qed.


Lemma finish_spec order fuel logs p p' b name :
  ps_file p = mkFI 4096 b -> ps_base_block p = Some (base_block_at b name) ->
  bytes_ok b -> 4096 <= len b -> bytes_at b 0 4 = REGF ->
  0 < num_at b 8 4 -> Forall (fun l => Forall entry_ok (tl_entries l)) logs ->
  (let* (items, p) := get_reg_items fuel p 0 in
   let* (sec, _) := base_block_info p in
   let* (n, p) := apply_logs order fuel sec logs 0 p items in
   update_header n p) = Ok p' ->
  exists es m bb, log_chain (num_at b 8 4) 0 logs es m
    /\ recovered (num_at b 40 4) es m b (ps_buffer p')
    /\ ps_hbin p' = 4096 /\ ps_base_block p' = Some bb
    /\ bb_from_bytes (ps_buffer p') = Ok (bb, rest_at (ps_buffer p') 4096).
Proof.
  intros F BB B L T S LO E.
  destruct (get_reg_items fuel p 0) as [[items q]| | |] eqn:G; try discriminate.
  apply get_reg_items_same in G as (G1 & G2 & G3). cbv beta iota in E.
  unfold base_block_info in E. rewrite G2, BB in E. cbv [or_panic] in E. cbv beta iota in E.
  cbn [base_block_at bb_base header_at bb_secondary_seq bb_hive_bins_data_size] in E.
  destruct (apply_logs order fuel (num_at b 8 4) logs 0 q items) as [[n p2]| | |] eqn:A; try discriminate.
  cbv beta iota in E.
  pose proof A as A'.
  eapply apply_logs_spec with (bb := base_block_at b name) (hbins := num_at b 40 4) in A';
    [|congruence|reflexivity|reflexivity|exact S| |discriminate|discriminate].
  2:{ eapply Forall_impl; [|exact LO]. intros l. apply Forall_impl. now intros e (? & _). }
  destruct A' as (es & m & C & [[? _]|(p3 & E3 & FI & OV & HB & B3 & R3)]); [discriminate|].
  injection E3 as <- <-.
  assert (QB : ps_buffer q = b) by (unfold ps_buffer; rewrite G1, F; reflexivity).
  assert (QH : ps_hbin q = 4096) by (unfold ps_hbin; rewrite G1, F; reflexivity).
  rewrite QB, QH in *.
  destruct (overlaid_header _ _ _ _ L OV) as [L2 H2].
  assert (EO : Forall entry_ok es) by (eapply chain_entries; eassumption).
  destruct (update_header_spec n p2) as (p4 & bb & E4 & P4 & H4 & B4 & BB4 & _).
  - destruct (chain_last _ _ _ _ _ C) as [->|[->|(e & I & ->)]]; try reflexivity.
    rewrite Forall_forall in EO. now destruct (EO _ I).
  - now apply (overlaid_bytes _ _ _ _ _ B EO OV).
  - exact L2.
  - rewrite <- T. apply bytes_at_ext; try lia. intros i I. apply H2. lia.
  - rewrite E in E4. injection E4 as <-. exists es, n, bb. repeat split; try assumption.
    exists (ps_buffer p2). now split.
Qed.

(** ** The whole build *)
Lemma parse_logs_ok files logs w : Forall bytes_ok files -> parse_logs files = Ok (logs, w) ->
  Forall (fun l => exists f, In f files /\ log_from_bytes f = Ok l) logs
  /\ Forall (fun l => Forall entry_ok (tl_entries l)) logs.
Proof.
  intros B. unfold parse_logs. destruct (parse_each files) as [[ls w']| | |] eqn:E; try discriminate.
  intros [= <- <-]. apply parse_each_in in E.
  assert (A : Forall (fun l => exists f, In f files /\ log_from_bytes f = Ok l)
             (sort_by (fun a b => log_primary a <=? log_primary b) ls)).
  { eapply Permutation_Forall; [apply Permutation_sym, sort_perm|exact E]. }
  split; [exact A|]. eapply Forall_impl; [|exact A]. intros l (f & I & F).
  rewrite Forall_forall in B. now apply (log_bytes_ok f l (B f I)).
Qed.

Definition start (hash : list N -> N) (recover full : bool) (buffer : list N) : parser :=
  mkParser (mkFI 0 buffer) (mkState 0 full [] hash [] [] [] []) None None None recover.
Lemma build_split order fuel hash recover full buffer files logs w :
  parse_logs files = Ok (logs, w) ->
  build order fuel hash recover full buffer files
  = (let* p := ps_init order fuel recover logs (start hash recover full buffer) in
     Ok (ps_set_state (set_info (st_info (ps_state p) ++ w) (ps_state p)) p)).
Proof. intros E. unfold build. rewrite E. reflexivity. Qed.

Lemma init_fails p : ~ (4096 <= len (ps_buffer p) /\ bytes_at (ps_buffer p) 0 4 = REGF) ->
  init_base_block p = Err.
Proof.
  intros H. unfold init_base_block. destruct (bb_total (ps_buffer p)) as [->|(bb & r & E)]; [reflexivity|].
  destruct H. now apply (bb_accepts _ (bb, r)).
Qed.

Lemma recover_same (recover : bool) p p1 :
  (if recover then
     let* b := or_panic (ps_base_block p) in
     let* st := find_free_keys_and_values (ps_file p) (ps_state p) (bb_hive_bins_data_size (bb_base b)) in
     Ok (ps_set_state st p)
   else Ok p) = Ok p1 -> same_hive p p1.
Proof.
  destruct recover; [|intros [= <-]; now repeat split].
  destruct (ps_base_block p) eqn:B; [|discriminate]. cbn [or_panic].
  destruct (find_free_keys_and_values _ _ _); try discriminate. intros [= <-]. now repeat split.
Qed.

Lemma build_dirty order fuel hash recover full buffer files logs w p :
  bytes_ok buffer -> Forall bytes_ok files -> known_file_type buffer -> checksum_right buffer ->
  num_at buffer 4 4 <> num_at buffer 8 4 -> 0 < num_at buffer 8 4 ->
  parse_logs files = Ok (logs, w) -> logs <> [] ->
  build order fuel hash recover full buffer files = Ok p ->
  exists es m bb, log_chain (num_at buffer 8 4) 0 logs es m
    /\ recovered (num_at buffer 40 4) es m buffer (ps_buffer p)
    /\ ps_base_block p = Some bb
    /\ bb_from_bytes (ps_buffer p) = Ok (bb, rest_at (ps_buffer p) 4096).
Proof.
  intros B BF K C D S PL NE. rewrite (build_split _ _ _ _ _ _ _ _ _ PL). unfold ps_init.
  set (p0 := start hash recover full buffer).
  destruct (N.leb_spec 4096 (len buffer)) as [L|L].
  2:{ rewrite init_fails; [discriminate|]. change (ps_buffer p0) with buffer. lia. }
  destruct (list_eq_dec N.eq_dec (bytes_at buffer 0 4) REGF) as [T|T].
  2:{ rewrite init_fails; [discriminate|]. now intros [_ ?]. }
  destruct (init_base_block_spec p0 L T) as (name & bad & p1 & E1 & E2 & F1 & B1 & R1 & _ & _ & _ & CB).
  rewrite E2. change (ps_buffer p0) with buffer in *.
  assert (SU : is_supported (base_block_at buffer name) = true) by now apply supported_at.
  rewrite SU. cbv beta iota. apply (CB K) in C. subst bad.
  match goal with |- (let* p := (let* q := ?x in _) in _) = _ -> _ => destruct x as [p2| | |] eqn:E3; try discriminate end.
  apply recover_same in E3 as (F2 & B2 & R2). cbv beta iota.
  unfold apply_transaction_logs. destruct logs as [|l logs]; [congruence|].
  unfold prepare_logs. cbv beta iota. rewrite B2, B1. cbn [or_panic].
  cbn [base_block_at bb_base header_at bb_primary_seq bb_secondary_seq].
  destruct (N.eqb_spec (num_at buffer 4 4) (num_at buffer 8 4)) as [|_]; [contradiction|]. cbv beta iota.
  destruct (let* (items, p) := get_reg_items fuel p2 0 in _) as [p3| | |] eqn:E4; try discriminate.
  apply (finish_spec order fuel (l :: logs) p2 p3 buffer name) in E4; try assumption; try congruence.
  2:{ now apply (parse_logs_ok files _ w). }
  destruct E4 as (es & m & bb & CH & RE & HB & BB & PB). cbv beta iota.
  destruct (init_root p3) as [p4| | |] eqn:E5; try discriminate.
  apply init_root_same in E5 as (F4 & B4 & R4). intros [= <-].
  exists es, m, bb. unfold ps_buffer in *. cbn [ps_set_state ps_file ps_base_block].
  rewrite F4, B4. split; [exact CH|]. split; [exact RE|]. now split.
Qed.

Lemma build_bad order fuel hash recover full buffer files logs w p :
  bytes_ok buffer -> Forall bytes_ok files -> known_file_type buffer -> ~ checksum_right buffer ->
  parse_logs files = Ok (logs, w) -> logs <> [] ->
  build order fuel hash recover full buffer files = Ok p ->
  exists f newest b0, In f files /\ log_from_bytes f = Ok newest /\ List.last (map Some logs) None = Some newest
    /\ header_of f buffer b0
    /\ (num_at b0 4 4 = num_at b0 8 4 -> ps_buffer p = b0)
    /\ (num_at b0 4 4 <> num_at b0 8 4 -> 0 < num_at b0 8 4 ->
        exists es m, log_chain (num_at b0 8 4) 0 (if 1 <? len logs then tl logs else logs) es m
          /\ recovered (num_at b0 40 4) es m b0 (ps_buffer p)).
Proof.
  intros B BF K C PL NE. rewrite (build_split _ _ _ _ _ _ _ _ _ PL). unfold ps_init.
  set (p0 := start hash recover full buffer).
  destruct (N.leb_spec 4096 (len buffer)) as [L|L].
  2:{ rewrite init_fails; [discriminate|]. change (ps_buffer p0) with buffer. lia. }
  destruct (list_eq_dec N.eq_dec (bytes_at buffer 0 4) REGF) as [T|T].
  2:{ rewrite init_fails; [discriminate|]. now intros [_ ?]. }
  destruct (init_base_block_spec p0 L T) as (name & bad & p1 & E1 & E2 & F1 & B1 & R1 & _ & _ & _ & CB).
  rewrite E2. change (ps_buffer p0) with buffer in *.
  assert (SU : is_supported (base_block_at buffer name) = true) by now apply supported_at.
  rewrite SU. cbv beta iota.
  assert (bad = true) as ->. { destruct bad; [reflexivity|]. destruct C. now apply CB. }
  match goal with |- (let* p := (let* q := ?x in _) in _) = _ -> _ => destruct x as [p2| | |] eqn:E3; try discriminate end.
  apply recover_same in E3 as (F2 & B2 & R2). cbv beta iota.
  unfold apply_transaction_logs. destruct logs as [|l logs]; [congruence|].
  destruct (parse_logs_ok files _ w BF PL) as [PF PE].
  unfold prepare_logs, handle_bad_checksum. cbv beta iota.
  set (p2' := ps_log WarningBaseBlock p2).
  destruct (List.last (map Some (l :: logs)) None) as [newest|] eqn:LA; [|discriminate].
  assert (IN : In newest (l :: logs)).
  { clear -LA. revert l LA. induction logs as [|x r IH]; intros l LA.
    - injection LA as <-. now left.
    - right. apply IH. exact LA. }
  rewrite Forall_forall in PF. destruct (PF _ IN) as (f & IF & FL).
  rewrite Forall_forall in BF. destruct (log_bytes_ok f newest (BF f IF) FL) as (_ & HB & HL & HE & HP & HR).
  cbn [or_panic]. cbv beta iota.
  assert (PB2 : ps_buffer p2' = buffer).
  { unfold ps_buffer. change (ps_file p2') with (ps_file p2). now rewrite F2, F1. }
  rewrite PB2. unfold BASE_BLOCK_LEN. rewrite get_range_at by lia. cbn [ok_or]. cbv beta iota.
  destruct (overwrite_fit buffer 0 (tl_base_bytes newest)) as [b0 E0]; [lia|]. rewrite E0. cbv beta iota.
  pose proof (overwrite_some _ _ _ _ E0) as (_ & L0 & _ & H0). rewrite HL in H0.
  assert (HO : header_of f buffer b0).
  { split; [exact L0|]. split.
    - rewrite <- HE. apply nth_ext with (d := 0) (d' := 0).
      + pose proof (len_bytes_at b0 0 512). unfold len in *. lia.
      + intros i I. assert (i < 512)%nat by (pose proof (len_bytes_at b0 0 512); unfold len in *; lia).
        unfold bytes_at. rewrite nth_firstn by lia. cbn [N.to_nat skipn].
        replace i with (N.to_nat (N.of_nat i)) at 1 by lia. rewrite H0.
        destruct (N.leb_spec 0 (N.of_nat i)); [|lia].
        destruct (N.ltb_spec (N.of_nat i) (0 + 512)); [|lia]. cbn [andb]. f_equal. lia.
    - intros i I. rewrite H0. destruct (N.ltb_spec i (0 + 512)); [lia|]. now rewrite andb_false_r. }
  assert (T0 : bytes_at b0 0 4 = REGF).
  { rewrite <- HR. destruct HO as (_ & HO & _).
    assert (forall x, firstn 4 (bytes_at x 0 512) = bytes_at x 0 4) as X.
    { intros x. unfold bytes_at. rewrite firstn_firstn. f_equal. }
    now rewrite <- (X b0), <- (X f), HO. }
  assert (BO : bytes_ok b0).
  { apply Forall_forall. intros x X. apply In_nth with (d := 0) in X as (i & I & <-).
    replace i with (N.to_nat (N.of_nat i)) by lia. rewrite H0.
    destruct (_ && _); [set (y := tl_base_bytes newest) in *; set (j := N.to_nat _)
                       |set (y := buffer) in *; set (j := N.to_nat _)];
      (destruct (nth_in_or_default j y 0) as [J| ->]; [|unfold byte; lia]);
      [unfold bytes_ok in HB; rewrite Forall_forall in HB|unfold bytes_ok in B; rewrite Forall_forall in B]; auto. }
  destruct (init_base_block_spec (ps_set_buffer b0 p2')) as (name0 & bad0 & p5 & _ & E6 & F6 & B6 & R6 & _).
  { change (ps_buffer (ps_set_buffer b0 p2')) with b0. lia. }
  { exact T0. }
  change (ps_buffer (ps_set_buffer b0 p2')) with b0 in *.
  cbn [or_panic]. cbv beta iota. rewrite E6. cbv beta iota. rewrite B6. cbn [or_panic]. cbv beta iota.
  cbn [base_block_at bb_base header_at bb_primary_seq bb_secondary_seq].
  set (logs1 := if 1 <? len (l :: logs) then tl (l :: logs) else l :: logs).
  assert (P1 : Forall (fun l => Forall entry_ok (tl_entries l)) logs1).
  { subst logs1. destruct (_ <? _); [|exact PE]. inversion PE; assumption. }
  destruct (N.eqb_spec (num_at b0 4 4) (num_at b0 8 4)) as [Q|Q]; cbv beta iota.
  - destruct (init_root _) as [p7| | |] eqn:E7; try discriminate.
    apply init_root_same in E7 as (F7 & _). intros [= <-]. exists f, newest, b0.
    repeat split; try assumption; try apply HO; try contradiction.
    intros _. unfold ps_buffer. cbn [ps_set_state ps_file]. rewrite F7. cbn [ps_log ps_set_state ps_file]. now rewrite F6.
  - destruct (let* (items, p) := get_reg_items fuel p5 0 in _) as [p3| | |] eqn:E4; try discriminate.
    cbv beta iota. destruct (init_root p3) as [p4| | |] eqn:E5; try discriminate.
    apply init_root_same in E5 as (F4 & B4 & R4). intros [= <-].
    exists f, newest, b0. repeat split; try assumption; try apply HO; try contradiction.
    intros _ S0.
    apply (finish_spec order fuel logs1 p5 p3 b0 name0) in E4; try assumption; try lia.
    destruct E4 as (es & m & bb & CH & RE & _). exists es, m. split; [exact CH|].
    unfold ps_buffer in *. cbn [ps_set_state ps_file]. now rewrite F4.
Qed.

Lemma set_info_agree m s t : set_info [] s = set_info [] t -> agree m s t.
Proof. destruct s, t. cbn. intros [= -> -> -> -> -> -> ->]. repeat split. Qed.
Lemma init_root_info p q : same_parser p q ->
  match init_root p, init_root q with
  | Ok p', Ok q' => same_parser p' q'
  | Err, Err | Panic, Panic | OutOfFuel, OutOfFuel => True
  | _, _ => False
  end.
Proof.
  intros (F & BB & H & R & RC & S). unfold init_root, ps_hbin, ps_buffer. rewrite <- F.
  destruct (get_from _ _); [|exact I]. cbn [ok_or]. cbv beta iota.
  destruct (hbin_from_bytes _ _) as [[h rest]| | |]; try exact I. cbv beta iota.
  cbn [ps_set_hbin ps_file ps_state]. rewrite <- F.
  match goal with |- context [kn_read ?fi (ps_state p) ?o] =>
    pose proof (kn_read_agree true _ _ fi o eq_refl (set_info_agree true _ _ S)) as K;
    destruct (kn_read fi (ps_state p) o) as [[k s]| | |] eqn:E1, (kn_read fi (ps_state q) o) as [[k' s']| | |] eqn:E2;
    try contradiction; try exact I end.
  destruct K as [<- K]. apply kn_read_state in E1, E2. cbv beta iota.
  repeat split; cbn; try congruence.
  rewrite E1, E2. destruct K as (K & _). rewrite K. destruct (ps_state p), (ps_state q). cbn in *.
  now injection S as -> -> -> -> -> -> ->.
Qed.

Lemma build_clean order fuel hash recover full buffer files logs w :
  known_file_type buffer -> checksum_right buffer -> num_at buffer 4 4 = num_at buffer 8 4 ->
  parse_logs files = Ok (logs, w) ->
  match build order fuel hash recover full buffer files, build order fuel hash recover full buffer [] with
  | Ok p, Ok q => same_parser p q
  | Err, Err | Panic, Panic | OutOfFuel, OutOfFuel => True
  | _, _ => False
  end.
Proof.
  intros K C D PL. rewrite (build_split _ _ _ _ _ _ _ _ _ PL).
  rewrite (build_split _ _ _ _ _ _ [] [] [] eq_refl). unfold ps_init.
  set (p0 := start hash recover full buffer).
  destruct (N.leb_spec 4096 (len buffer)) as [L|L].
  2:{ rewrite init_fails; [exact I|]. change (ps_buffer p0) with buffer. lia. }
  destruct (list_eq_dec N.eq_dec (bytes_at buffer 0 4) REGF) as [T|T].
  2:{ rewrite init_fails; [exact I|]. now intros [_ ?]. }
  destruct (init_base_block_spec p0 L T) as (name & bad & p1 & E1 & E2 & F1 & B1 & R1 & _ & _ & _ & CB).
  rewrite E2. change (ps_buffer p0) with buffer in *.
  assert (SU : is_supported (base_block_at buffer name) = true) by now apply supported_at.
  rewrite SU. cbv beta iota. apply (CB K) in C. subst bad.
  match goal with |- match (let* p := (let* q := ?x in _) in _) with _ => _ end => destruct x as [p2| | |] eqn:E3; try exact I end.
  apply recover_same in E3 as (F2 & B2 & R2). cbv beta iota.
  assert (A : exists p3, apply_transaction_logs order fuel false logs p2 = Ok p3 /\ same_parser p3 p2).
  { unfold apply_transaction_logs. destruct logs as [|l logs]; [exists p2; now repeat split|].
    unfold prepare_logs. cbv beta iota. rewrite B2, B1. cbn [or_panic].
    cbn [base_block_at bb_base header_at bb_primary_seq bb_secondary_seq].
    rewrite D, N.eqb_refl. cbv beta iota. eexists. split; [reflexivity|]. now repeat split. }
  destruct A as (p3 & -> & A). cbv beta iota. change (apply_transaction_logs order fuel false [] p2) with (Ok p2).
  cbv beta iota. pose proof (init_root_info p3 p2 A) as IR.
  destruct (init_root p3), (init_root p2); try contradiction; try exact I.
  cbv beta iota. destruct IR as (? & ? & ? & ? & ? & ?). now repeat split.
Qed.

(** ** Corollaries stated as properties *)
Lemma num_perm order fuel hash recover full buffer files files' :
  Forall bytes_ok files -> Permutation files files' ->
  (forall f g, In f files -> In g files -> num_at f 4 4 = num_at g 4 4 -> f = g) ->
  build order fuel hash recover full buffer files = build order fuel hash recover full buffer files'.
Proof.
  intros B P D. apply build_perm; [exact P|]. rewrite Forall_forall in B.
  intros f g l m If Ig Ef Eg E.
  destruct (log_bytes_ok f l (B f If) Ef) as (_ & _ & _ & _ & Hf & _).
  destruct (log_bytes_ok g m (B g Ig) Eg) as (_ & _ & _ & _ & Hg & _).
  assert (f = g) by (apply D; congruence). congruence.
Qed.
Lemma same_parser_iterate p q fuel f anc m post : same_parser p q ->
  iterate fuel p f anc m post = iterate fuel q f anc m post.
Proof.
  intros (F & _ & _ & R & _ & S). apply iterate_agree; try assumption. now apply set_info_agree.
Qed.
Lemma chain_single sec l es m : log_chain sec 0 [l] es m ->
  m = last_seq es /\ (es <> [] -> sec <= log_primary l /\ applied sec (tl_entries l) es).
Proof.
  intros C. inversion C as [|? ? ? ? ? N C'|? ? ? a es' ? E A C']; subst.
  - inversion C'; subst. split; [reflexivity|congruence].
  - inversion C'; subst. rewrite app_nil_r in *. split; [reflexivity|]. intros _. split; [apply E|exact A].
Qed.
(** The header after recovery names the last applied entry when the last log
    used contributed one. *)
Lemma chain_last_seq sec n logs es m : log_chain sec n logs es m -> 0 < m -> m = n /\ es = [] \/ m = last_seq es.
Proof.
  induction 1 as [n|n l ls es m N C IH|n l ls a es m E A C IH]; intros P.
  - left. now split.
  - now apply IH.
  - right. destruct (IH P) as [[-> ->]|H].
    + now rewrite app_nil_r.
    + rewrite H. unfold last_seq in *. destruct es as [|e es] using rev_ind.
      { cbn in H. lia. }
      rewrite app_assoc, !map_app. cbn [map]. now rewrite !List.last_last.
Qed.
Lemma header_after order fuel hash recover full buffer files logs w p :
  bytes_ok buffer -> Forall bytes_ok files -> known_file_type buffer -> checksum_right buffer ->
  num_at buffer 4 4 <> num_at buffer 8 4 -> 0 < num_at buffer 8 4 ->
  parse_logs files = Ok (logs, w) -> logs <> [] ->
  build order fuel hash recover full buffer files = Ok p ->
  exists es m bb, log_chain (num_at buffer 8 4) 0 logs es m
    /\ (m = 0 \/ m = last_seq es)
    /\ (num_at (ps_buffer p) 4 4 = m /\ num_at (ps_buffer p) 8 4 = m /\ checksum_right (ps_buffer p))
    /\ (forall i, i < 4 \/ 12 <= i < 508 \/ 512 <= i < 4096 ->
          nth (N.to_nat i) (ps_buffer p) 0 = nth (N.to_nat i) buffer 0)
    /\ ps_base_block p = Some bb
    /\ bb_from_bytes (ps_buffer p) = Ok (bb, rest_at (ps_buffer p) 4096).
Proof.
  intros B BF K C D S PL NE E.
  destruct (build_dirty _ _ _ _ _ _ _ _ _ _ B BF K C D S PL NE E) as (es & m & bb & CH & (F & b1 & OV & PA) & BB & RE).
  exists es, m, bb. split; [exact CH|]. split.
  { destruct (N.eq_dec m 0) as [|Z]; [now left|right].
    destruct (chain_last_seq _ _ _ _ _ CH ltac:(lia)) as [[-> _]|H]; [lia|exact H]. }
  destruct PA as (L & P1 & P2 & P3 & P4). split; [auto|]. split; [|auto].
  intros i I. rewrite P4 by lia.
  assert (4096 <= len buffer).
  { destruct (N.leb_spec 4096 (len buffer)); [assumption|]. exfalso.
    rewrite (build_split _ _ _ _ _ _ _ _ _ PL) in E. unfold ps_init in E.
    rewrite init_fails in E; [discriminate|]. cbn. lia. }
  destruct (overlaid_header _ _ _ _ H OV) as [_ HH]. apply HH. lia.
Qed.
