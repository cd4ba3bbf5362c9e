(** Proofs about the parsing of transaction logs. *)
From Verif Require Import Base BaseFacts LayoutSpec LayoutFacts Util UtilSpec UtilText BaseBlock Marvin
  HeaderFacts Types Value Node Recover Parser TxLog TxSpec.

(** ** Extension of the input *)
Lemma take_ext k i a r j : take k i = Some (a, r) -> take k (i ++ j) = Some (a, r ++ j).
Proof. intros H. apply take_some in H as [-> <-]. rewrite <- app_assoc. now apply take_app. Qed.
Lemma le_u32_ext i x r j : le_u32 i = Some (x, r) -> le_u32 (i ++ j) = Some (x, r ++ j).
Proof.
  unfold le_u32. destruct (take 4 i) as [[a b]|] eqn:E; [|easy]. intros [= <- <-].
  now rewrite (take_ext _ _ _ _ j E).
Qed.
Lemma le_u64_ext i x r j : le_u64 i = Some (x, r) -> le_u64 (i ++ j) = Some (x, r ++ j).
Proof.
  unfold le_u64. destruct (take 8 i) as [[a b]|] eqn:E; [|easy]. intros [= <- <-].
  now rewrite (take_ext _ _ _ _ j E).
Qed.
Lemma tag_ext t i x r j : tag t i = Some (x, r) -> tag t (i ++ j) = Some (x, r ++ j).
Proof. intros H. apply tag_some in H as [-> ->]. rewrite <- app_assoc. apply tag_app. Qed.
Lemma page_ref_ext i x r j : page_ref i = Some (x, r) -> page_ref (i ++ j) = Some (x, r ++ j).
Proof.
  unfold page_ref. destruct (le_u32 i) as [[o i1]|] eqn:E1; [|easy].
  destruct (le_u32 i1) as [[s i2]|] eqn:E2; [|easy]. intros [= <- <-].
  now rewrite (le_u32_ext _ _ _ j E1), (le_u32_ext _ _ _ j E2).
Qed.
Lemma page_ref_len i x r : page_ref i = Some (x, r) -> len i = 8 + len r.
Proof.
  unfold page_ref. destruct (le_u32 i) as [[o i1]|] eqn:E1; [|easy].
  destruct (le_u32 i1) as [[s i2]|] eqn:E2; [|easy]. intros [= <- <-].
  apply le_u32_len in E1, E2. lia.
Qed.
Lemma count_nat_ext {A} (p : list N -> option (A * list N)) n i xs r j :
  (forall i x r, p i = Some (x, r) -> p (i ++ j) = Some (x, r ++ j)) ->
  count_nat p n i = Some (xs, r) -> count_nat p n (i ++ j) = Some (xs, r ++ j).
Proof.
  intros P. revert i xs. induction n as [|n IH]; cbn; intros i xs.
  - now intros [= <- <-].
  - destruct (p i) as [[x i1]|] eqn:E; [|easy]. rewrite (P _ _ _ E).
    destruct (count_nat p n i1) as [[ys i2]|] eqn:F; [|easy]. intros [= <- <-].
    now rewrite (IH _ _ F).
Qed.
Lemma count_ext {A} (p : list N -> option (A * list N)) n i xs r j :
  (forall i x r, p i = Some (x, r) -> p (i ++ j) = Some (x, r ++ j)) ->
  count p n i = Some (xs, r) -> count p n (i ++ j) = Some (xs, r ++ j).
Proof.
  intros P. unfold count. rewrite len_app. destruct (N.leb_spec n (len i)); [|easy].
  destruct (N.leb_spec n (len i + len j)); [|lia]. now apply count_nat_ext.
Qed.
Lemma count_nat_len {A} (p : list N -> option (A * list N)) k n i xs r :
  (forall i x r, p i = Some (x, r) -> len i = k + len r) ->
  count_nat p n i = Some (xs, r) -> len i = k * N.of_nat n + len r /\ length xs = n.
Proof.
  intros P. revert i xs. induction n as [|n IH]; cbn; intros i xs.
  - intros [= <- <-]. split; [lia|easy].
  - destruct (p i) as [[x i1]|] eqn:E; [|easy]. apply P in E.
    destruct (count_nat p n i1) as [[ys i2]|] eqn:F; [|easy]. intros [= <- <-].
    apply IH in F as [F1 F2]. cbn [length]. split; lia.
Qed.
Lemma count_len {A} (p : list N -> option (A * list N)) k n i xs r :
  (forall i x r, p i = Some (x, r) -> len i = k + len r) ->
  count p n i = Some (xs, r) -> len i = k * n + len r /\ len xs = n.
Proof.
  intros P. unfold count. destruct (N.leb_spec n (len i)); [|easy].
  intros H1. eapply count_nat_len in H1 as [E F]; [|exact P]. unfold len in *. lia.
Qed.
Lemma take_pages_ext refs i ps r j :
  take_pages refs i = Some (ps, r) -> take_pages refs (i ++ j) = Some (ps, r ++ j).
Proof.
  revert i ps. induction refs as [|[o s] refs IH]; cbn; intros i ps.
  - now intros [= <- <-].
  - destruct (take s i) as [[b i1]|] eqn:E; [|easy].
    destruct (take_pages refs i1) as [[qs i2]|] eqn:F; [|easy]. intros [= <- <-].
    now rewrite (take_ext _ _ _ _ j E), (IH _ _ F).
Qed.
Lemma take_pages_len refs i ps r : take_pages refs i = Some (ps, r) -> len r <= len i.
Proof.
  revert i ps. induction refs as [|[o s] refs IH]; cbn; intros i ps.
  - intros [= <- <-]. lia.
  - destruct (take s i) as [[b i1]|] eqn:E; [|easy].
    destruct (take_pages refs i1) as [[qs i2]|] eqn:F; [|easy]. intros [= <- <-].
    apply take_len in E. apply IH in F. lia.
Qed.

(** ** The nom part of an entry *)
Definition entry_nom (i0 : list N)
  : option ((N * N * N * N * N * N * N * list dirty_page) * list N) :=
  let? (_, i) := tag HVLE i0 in
  let? (size, i) := le_u32 i in
  let? (flags, i) := le_u32 i in
  let? (seq, i) := le_u32 i in
  let? (hbins, i) := le_u32 i in
  let? (cnt, i) := le_u32 i in
  let? (h1, i) := le_u64 i in
  let? (h2, i) := le_u64 i in
  let? (refs, i) := count page_ref cnt i in
  let? (pages, i) := take_pages refs i in
  let? (_, i) := parser_eat_remaining i size (len i0 - len i) in
  Some ((size, flags, seq, hbins, cnt, h1, h2, pages), i).

Lemma entry_split total i0 : entry_from_bytes total i0 =
  match entry_nom i0 with
  | None => Err
  | Some ((size, flags, seq, hbins, cnt, h1, h2, pages), i) =>
      let* c1 := calc_hash1 i0 size in
      let* valid := if h1 =? c1 then let* c2 := calc_hash2 i0 in Ok (h2 =? c2) else Ok false in
      Ok (mkEntry (total - len i0) size flags seq hbins cnt h1 h2 pages valid, i)
  end.
Proof.
  unfold entry_from_bytes, entry_nom.
  destruct (tag HVLE i0) as [[? i1]|]; [|reflexivity]. cbv [nom ok_or]. cbv beta iota.
  do 5 (match goal with |- context [le_u32 ?i] => destruct (le_u32 i) as [[? ?]|]; [|reflexivity] end).
  do 2 (match goal with |- context [le_u64 ?i] => destruct (le_u64 i) as [[? ?]|]; [|reflexivity] end).
  destruct (count page_ref _ _) as [[? ?]|]; [|reflexivity].
  destruct (take_pages _ _) as [[? ?]|]; [|reflexivity].
  destruct (parser_eat_remaining _ _ _) as [[? ?]|]; reflexivity.
Qed.

Lemma eat_spec i size consumed a r :
  parser_eat_remaining i size consumed = Some (a, r) ->
  (size <= consumed /\ r = i) \/ (consumed < size /\ len i = size - consumed + len r).
Proof.
  unfold parser_eat_remaining. destruct (N.ltb_spec consumed size).
  - intros E. apply take_len in E. auto.
  - intros [= <- <-]. auto.
Qed.
Lemma eat_ext i size consumed a r j :
  parser_eat_remaining i size consumed = Some (a, r) ->
  parser_eat_remaining (i ++ j) size consumed = Some (a, r ++ j).
Proof.
  unfold parser_eat_remaining. destruct (N.ltb_spec consumed size); [apply take_ext|].
  now intros [= <- <-].
Qed.

Lemma entry_nom_facts i0 size flags seq hbins cnt h1 h2 pages i :
  entry_nom i0 = Some ((size, flags, seq, hbins, cnt, h1, h2, pages), i) ->
  size + len i <= len i0 /\ 40 + len i <= len i0
  /\ forall j, entry_nom (i0 ++ j) = Some ((size, flags, seq, hbins, cnt, h1, h2, pages), i ++ j).
Proof.
  unfold entry_nom. destruct (tag HVLE i0) as [[? i1]|] eqn:E1; [|easy].
  destruct (le_u32 i1) as [[x2 i2]|] eqn:E2; [|easy].
  destruct (le_u32 i2) as [[x3 i3]|] eqn:E3; [|easy].
  destruct (le_u32 i3) as [[x4 i4]|] eqn:E4; [|easy].
  destruct (le_u32 i4) as [[x5 i5]|] eqn:E5; [|easy].
  destruct (le_u32 i5) as [[x6 i6]|] eqn:E6; [|easy].
  destruct (le_u64 i6) as [[x7 i7]|] eqn:E7; [|easy].
  destruct (le_u64 i7) as [[x8 i8]|] eqn:E8; [|easy].
  destruct (count page_ref x6 i8) as [[x9 i9]|] eqn:E9; [|easy].
  destruct (take_pages x9 i9) as [[x10 i10]|] eqn:E10; [|easy].
  destruct (parser_eat_remaining i10 x2 (len i0 - len i10)) as [[x11 i11]|] eqn:E11; [|easy].
  intros [= <- <- <- <- <- <- <- <- <-].
  pose proof (tag_len _ _ _ _ E1) as L1. change (len HVLE) with 4 in L1.
  pose proof (le_u32_len _ _ _ E2). pose proof (le_u32_len _ _ _ E3).
  pose proof (le_u32_len _ _ _ E4). pose proof (le_u32_len _ _ _ E5).
  pose proof (le_u32_len _ _ _ E6). pose proof (le_u64_len _ _ _ E7).
  pose proof (le_u64_len _ _ _ E8).
  pose proof (count_len page_ref 8 _ _ _ _ page_ref_len E9) as [L9 _].
  pose proof (take_pages_len _ _ _ _ E10).
  pose proof (eat_spec _ _ _ _ _ E11) as L11.
  assert (len i11 <= len i10) by (destruct L11 as [[? ->]|[? ?]]; lia).
  split; [destruct L11 as [[? ->]|[? ?]]; lia|]. split; [lia|].
  intros j.
  rewrite (tag_ext _ _ _ _ j E1), (le_u32_ext _ _ _ j E2), (le_u32_ext _ _ _ j E3),
    (le_u32_ext _ _ _ j E4), (le_u32_ext _ _ _ j E5), (le_u32_ext _ _ _ j E6),
    (le_u64_ext _ _ _ j E7), (le_u64_ext _ _ _ j E8),
    (count_ext _ _ _ _ _ j (fun i x r => page_ref_ext i x r j) E9),
    (take_pages_ext _ _ _ _ j E10).
  rewrite !len_app. replace (len i0 + len j - (len i10 + len j)) with (len i0 - len i10) by lia.
  now rewrite (eat_ext _ _ _ _ _ j E11).
Qed.

(** ** Round trip *)
Lemma refs_parse pages rest : Forall (fun p => u32 (fst p) /\ u32 (len (snd p))) pages ->
  count_nat page_ref (length pages) (page_table pages ++ rest)
  = Some (map (fun p => (fst p, len (snd p))) pages, rest).
Proof.
  induction 1 as [|[o b] pages [Ho Hb] Hp IH]; [reflexivity|].
  cbn [length page_table flat_map fst snd map count_nat] in *. unfold page_ref at 1.
  rewrite <- !app_assoc. rewrite le_u32_enc by exact Ho. rewrite le_u32_enc by exact Hb.
  change (flat_map (fun p : N * list N => enc 4 (fst p) ++ enc 4 (len (snd p))) pages)
    with (page_table pages). now rewrite IH.
Qed.
Lemma len_page_table pages : len (page_table pages) = 8 * len pages.
Proof.
  induction pages as [|p pages IH]; [reflexivity|]. cbn [page_table flat_map].
  change (flat_map (fun p : N * list N => enc 4 (fst p) ++ enc 4 (len (snd p))) pages)
    with (page_table pages).
  rewrite !len_app, !len_enc, len_cons, IH. lia.
Qed.
Lemma pages_parse pages rest :
  take_pages (map (fun p => (fst p, len (snd p))) pages) (flat_map snd pages ++ rest)
  = Some (map (fun p => mkPage (fst p) (snd p)) pages, rest).
Proof.
  induction pages as [|[o b] pages IH]; [reflexivity|].
  cbn [map flat_map take_pages fst snd]. rewrite <- app_assoc, take_app by reflexivity.
  now rewrite IH.
Qed.
Lemma len_w_head w : len (w_head w) = 24.
Proof. unfold w_head. rewrite !len_app, !len_enc. reflexivity. Qed.
Lemma len_entry w : len (entry_bytes w) = w_size w.
Proof. unfold entry_bytes, w_size. rewrite !len_app, !len_enc, len_w_head. lia. Qed.
Lemma page_size_ok w : w_ok w -> Forall (fun p => u32 (fst p) /\ u32 (len (snd p))) (w_pages w).
Proof.
  intros (_ & _ & _ & S & P & _). unfold w_size, w_body, u32 in *. rewrite !len_app in S.
  apply Forall_forall. intros p I. rewrite Forall_forall in P. destruct (P p I) as [A _].
  split; [exact A|]. assert (len (snd p) <= len (flat_map snd (w_pages w))); [|lia].
  clear - I. induction (w_pages w) as [|q l IH]; [easy|]. cbn [flat_map]. rewrite len_app.
  destruct I as [->|I]; [lia|]. specialize (IH I). lia.
Qed.
Lemma marvin_bound d : bytes_ok d -> marvin32_spec seed d < 2 ^ 64.
Proof.
  intros Hd. unfold marvin32_spec. rewrite fold_left_app.
  destruct (marvin_loop_spec d (seed mod 2 ^ 32, seed / 2 ^ 32)) as [_ F]; [|exact Hd|].
  { split; vm_compute; reflexivity. }
  set (t := fold_left absorb _ _) in *. cbn [fold_left].
  destruct (absorb_spec t 0 F) as [_ K]. destruct (absorb t 0) as [lo hi].
  destruct K as [K1 K2]. cbn [fst snd] in *.
  change (2 ^ 64) with (2 ^ 32 * 2 ^ 32). nia.
Qed.
Lemma body_bytes w : w_ok w -> bytes_ok (w_body w).
Proof.
  intros (_ & _ & _ & _ & P & Q). unfold w_body. rewrite !bytes_ok_app. repeat split; [| |exact Q].
  - unfold page_table. clear Q. induction P; [constructor|]. cbn [flat_map].
    rewrite !bytes_ok_app. repeat split; [apply enc_bytes|apply enc_bytes|assumption].
  - clear Q. induction P as [|p l [_ Hp] _ IH]; [constructor|]. cbn [flat_map].
    rewrite bytes_ok_app. auto.
Qed.
Lemma head_bytes w : bytes_ok (w_head w).
Proof.
  unfold w_head. rewrite !bytes_ok_app. repeat split; try apply enc_bytes.
  repeat constructor; unfold byte; lia.
Qed.

Definition entry_of (off : N) (w : written) : log_entry :=
  mkEntry off (w_size w) (w_flags w) (w_seq w) (w_hbins w) (len (w_pages w)) (w_hash1 w) (w_hash2 w)
    (map (fun p => mkPage (fst p) (snd p)) (w_pages w)) true.
Lemma entry_of_says off w : entry_says off w (entry_of off w).
Proof.
  unfold entry_says, entry_of.
  cbn [le_file_offset le_size le_flags le_seq le_hbins_size le_page_count le_hash1 le_hash2 le_pages
       le_valid_hashes].
  repeat split. rewrite map_map. cbn [dp_offset dp_bytes].
  rewrite <- (map_id (w_pages w)) at 2. apply map_ext. now intros [].
Qed.

Lemma w_hash1_eq w : w_hash1 w = marvin32_spec seed (w_body w).
Proof. reflexivity. Qed.
Lemma w_hash2_eq w : w_hash2 w = marvin32_spec seed (w_head w ++ enc 8 (w_hash1 w)).
Proof. reflexivity. Qed.
Lemma entry_parse total w rest : w_ok w ->
  entry_from_bytes total (entry_bytes w ++ rest)
  = Ok (entry_of (total - (w_size w + len rest)) w, rest).
Proof.
  intros W. pose proof (page_size_ok w W) as PS. pose proof (body_bytes w W) as BB.
  destruct W as (Hf & Hs & Hh & Hz & Hp & Hpad).
  assert (H1 : w_hash1 w < 2 ^ 64) by now apply marvin_bound.
  assert (HB1 : bytes_ok (w_head w ++ enc 8 (w_hash1 w))).
  { rewrite bytes_ok_app. split; [apply head_bytes|apply enc_bytes]. }
  assert (H2 : w_hash2 w < 2 ^ 64) by now apply marvin_bound.
  assert (HC : u32 (len (w_pages w))).
  { unfold u32, w_size, w_body in *. rewrite !len_app, len_page_table in Hz. lia. }
  rewrite entry_split.
  assert (E : entry_nom (entry_bytes w ++ rest)
    = Some ((w_size w, w_flags w, w_seq w, w_hbins w, len (w_pages w), w_hash1 w, w_hash2 w,
             map (fun p => mkPage (fst p) (snd p)) (w_pages w)), rest)).
  { unfold entry_nom.
    rewrite len_app, len_entry. unfold entry_bytes, w_head. rewrite <- !app_assoc.
    change [72; 118; 76; 69] with HVLE. rewrite tag_app.
    rewrite !le_u32_enc by assumption. rewrite !le_u64_enc by assumption.
    unfold w_body. rewrite <- !app_assoc. unfold count.
    rewrite len_app, len_page_table.
    destruct (N.leb_spec (len (w_pages w)) (8 * len (w_pages w) + len (flat_map snd (w_pages w) ++ w_pad w ++ rest))); [|lia].
    rewrite to_nat_len, refs_parse by exact PS. rewrite pages_parse.
    unfold parser_eat_remaining. rewrite len_app.
    assert (Z : w_size w = 40 + (8 * len (w_pages w) + (len (flat_map snd (w_pages w)) + len (w_pad w)))).
    { unfold w_size, w_body. now rewrite !len_app, len_page_table. }
    destruct (N.ltb_spec (w_size w + len rest - (len (w_pad w) + len rest)) (w_size w)).
    - rewrite take_app; [reflexivity|]. lia.
    - assert (len (w_pad w) = 0) as Z0 by lia. apply len_0 in Z0. now rewrite Z0. }
  rewrite E. unfold calc_hash1, calc_hash2.
  assert (R1 : get_range (entry_bytes w ++ rest) 40 (w_size w) = Some (w_body w)).
  { unfold entry_bytes. rewrite !app_assoc, <- (app_assoc _ (w_body w) rest).
    apply get_range_app; rewrite !len_app, !len_enc, len_w_head; [reflexivity|].
    unfold w_size. lia. }
  assert (R2 : get_range (entry_bytes w ++ rest) 0 32 = Some (w_head w ++ enc 8 (w_hash1 w))).
  { unfold entry_bytes. rewrite (app_assoc (w_head w)), <- !(app_assoc (w_head w ++ _)).
    rewrite <- (app_nil_l ((w_head w ++ _) ++ _)).
    apply get_range_app; [reflexivity|]. now rewrite !len_app, !len_enc, len_w_head. }
  rewrite R1, R2. cbv [or_panic]. cbv beta iota.
  change DEFAULT_SEED with seed.
  rewrite !marvin_spec by (assumption || (vm_compute; reflexivity)).
  rewrite <- w_hash2_eq, <- w_hash1_eq.
  rewrite !N.eqb_refl. rewrite len_app, len_entry. reflexivity.
Qed.

(** ** A torn entry is not an entry *)
Lemma entry_rest total i e r : entry_from_bytes total i = Ok (e, r) ->
  exists f, entry_nom i = Some (f, r).
Proof.
  rewrite entry_split.
  destruct (entry_nom i) as [[[[[[[[[size flags] seq] hbins] cnt] h1] h2] pages] r']|]; [|discriminate].
  destruct (calc_hash1 i size); try discriminate.
  destruct (h1 =? a).
  - destruct (calc_hash2 i); try discriminate. intros [= _ ->]. eauto.
  - intros [= _ ->]. eauto.
Qed.
Lemma entry_torn total w i j : w_ok w -> entry_bytes w = i ++ j -> j <> [] ->
  entry_from_bytes total i = Err.
Proof.
  intros W E J. rewrite entry_split.
  destruct (entry_nom i) as [[[[[[[[[size flags] seq] hbins] cnt] h1] h2] pages] r]|] eqn:F; [|reflexivity].
  exfalso. apply entry_nom_facts in F as (_ & _ & X). specialize (X j). rewrite <- E in X.
  pose proof (entry_parse 0 w [] W) as P. rewrite app_nil_r in P.
  apply entry_rest in P as [f P]. rewrite X in P.
  assert (Q : r ++ j = []) by congruence. apply app_eq_nil in Q as [_ Q]. now apply J.
Qed.

Lemma many_fuel fuel total i : (length i < fuel)%nat -> many_entries fuel total i <> OutOfFuel.
Proof.
  revert i. induction fuel as [|fuel IH]; intros i L; [lia|]. cbn [many_entries].
  rewrite entry_split.
  destruct (entry_nom i) as [[[[[[[[[size flags] seq] hbins] cnt] h1] h2] pages] r]|] eqn:F; [|discriminate].
  apply entry_nom_facts in F as (_ & K & _).
  unfold calc_hash1, calc_hash2.
  destruct (get_range i 40 size); [|discriminate]. cbv [or_panic]. cbv beta iota.
  assert (G : many_entries fuel total r <> OutOfFuel) by (apply IH; unfold len in K; lia).
  destruct (h1 =? _).
  - destruct (get_range i 0 32); [|discriminate].
    destruct (many_entries fuel total r) as [[? ?]| | |]; congruence.
  - destruct (many_entries fuel total r) as [[? ?]| | |]; congruence.
Qed.

Lemma many_parse ws junk fuel total :
  Forall w_ok ws -> (length (log_bytes ws ++ junk) < fuel)%nat ->
  entry_from_bytes total junk = Err ->
  len (log_bytes ws ++ junk) <= total ->
  exists es, many_entries fuel total (log_bytes ws ++ junk) = Ok (es, junk)
    /\ entries_say (total - len (log_bytes ws ++ junk)) ws es.
Proof.
  intros W. revert fuel. induction W as [|w ws Hw Hws IH]; intros fuel L J T.
  - destruct fuel; [lia|]. exists []. cbn [log_bytes flat_map app many_entries]. rewrite J. now split.
  - destruct fuel; [lia|]. cbn [log_bytes flat_map] in *.
    change (flat_map entry_bytes ws) with (log_bytes ws) in *.
    rewrite <- app_assoc in L, T |- *. cbn [many_entries].
    rewrite entry_parse by exact Hw.
    rewrite len_app, len_entry in T.
    destruct (IH fuel) as (es & E & S).
    { rewrite app_length in L. assert (0 < length (entry_bytes w))%nat; [|lia].
      pose proof (len_entry w) as Q. unfold w_size, len in Q. lia. }
    { exact J. }
    { lia. }
    rewrite E. eexists. split; [reflexivity|]. cbn [entries_say].
    rewrite (len_app (entry_bytes w)), len_entry. split; [apply entry_of_says|].
    replace (total - (w_size w + len (log_bytes ws ++ junk)) + w_size w)
      with (total - len (log_bytes ws ++ junk)) by lia. exact S.
Qed.

Lemma log_parse h ws junk : 512 = len h -> bytes_at h 0 4 = REGF -> Forall w_ok ws ->
  entry_from_bytes (len (h ++ log_bytes ws ++ junk)) junk = Err ->
  exists l, log_from_bytes (h ++ log_bytes ws ++ junk) = Ok l
    /\ bbb_from_bytes h = Ok (tl_base_block l, [])
    /\ tl_base_bytes l = h
    /\ entries_say 512 ws (tl_entries l).
Proof.
  intros H T W J. unfold log_from_bytes.
  destruct (bbb_read h) as (name & wn & E & B); [lia|exact T|].
  assert (BB : bbb_from_bytes (h ++ log_bytes ws ++ junk)
               = Ok (header_at h name, log_bytes ws ++ junk)).
  { set (r := log_bytes ws ++ junk).
    assert (BA : forall o n, o + n <= 512 -> bytes_at (h ++ r) o n = bytes_at h o n).
    { intros o n L. unfold bytes_at. rewrite skipn_app, firstn_app.
      replace (N.to_nat n - length (skipn (N.to_nat o) h))%nat with 0%nat
        by (rewrite skipn_length; unfold len in H; lia).
      cbn [firstn]. now rewrite app_nil_r. }
    destruct (bbb_read (h ++ r)) as (name' & wn' & E' & B').
    { rewrite len_app. lia. } { rewrite BA by lia. exact T. }
    rewrite BA in E' by lia. rewrite E in E'. injection E' as <- <-.
    rewrite B'. f_equal. f_equal.
    - unfold header_at, i32_at, num_at. rewrite !BA by lia. reflexivity.
    - unfold rest_at. now rewrite skipn_app_len. }
  rewrite BB. cbv beta iota.
  assert (B0 : bbb_from_bytes h = Ok (header_at h name, [])).
  { rewrite B. f_equal. f_equal. unfold rest_at. apply skipn_all2. unfold len in H. lia. }
  destruct (many_parse ws junk (S (length (log_bytes ws ++ junk))) (len (h ++ log_bytes ws ++ junk)) W)
    as (es & EE & S); [lia|exact J|rewrite (len_app h); lia|].
  rewrite EE.
  replace (get_range (h ++ log_bytes ws ++ junk) 0 BASE_BLOCK_LEN) with (Some h).
  2:{ symmetry. rewrite <- (app_nil_l (h ++ _)). apply get_range_app; [reflexivity|exact H]. }
  eexists. split; [reflexivity|]. cbn [tl_base_block tl_base_bytes tl_entries].
  repeat split; [exact B0|].
  replace (len (h ++ log_bytes ws ++ junk) - len (log_bytes ws ++ junk)) with 512 in S
    by (rewrite (len_app h); lia).
  exact S.
Qed.

Lemma entry_err_nil total : entry_from_bytes total [] = Err.
Proof. reflexivity. Qed.

(** ** Crash points *)
Lemma firstn_log ws n : Forall w_ok ws -> n <= len (log_bytes ws) ->
  exists i, firstn (N.to_nat n) (log_bytes ws) = log_bytes (complete ws n) ++ i
    /\ Forall w_ok (complete ws n)
    /\ (i = [] \/ exists w j, w_ok w /\ entry_bytes w = i ++ j /\ j <> []).
Proof.
  intros W. revert n. induction W as [|w ws Hw Hws IH]; intros n L.
  - exists []. cbn [log_bytes flat_map complete app]. rewrite firstn_nil.
    split; [reflexivity|]. split; [constructor|now left].
  - cbn [log_bytes flat_map complete] in *. change (flat_map entry_bytes ws) with (log_bytes ws) in *.
    rewrite len_app, len_entry in L.
    destruct (N.leb_spec (w_size w) n).
    + destruct (IH (n - w_size w)) as (i & E & F & G); [lia|]. exists i.
      split; [|split; [constructor; assumption|exact G]].
      rewrite firstn_app.
      replace (N.to_nat n - length (entry_bytes w))%nat with (N.to_nat (n - w_size w)).
      2:{ pose proof (len_entry w) as Q. unfold len in Q. lia. }
      rewrite E, firstn_len_all by (rewrite len_entry; lia).
      now rewrite app_assoc.
    + exists (firstn (N.to_nat n) (entry_bytes w)). split; [|split; [constructor|]].
      * rewrite firstn_app.
        replace (N.to_nat n - length (entry_bytes w))%nat with 0%nat.
        2:{ pose proof (len_entry w) as Q. unfold len in Q. lia. }
        cbn [firstn]. rewrite app_nil_r. reflexivity.
      * right. exists w, (skipn (N.to_nat n) (entry_bytes w)). split; [exact Hw|].
        rewrite firstn_skipn. split; [reflexivity|]. intros E.
        apply (f_equal len) in E. rewrite len_skipn, len_entry in E.
        change (len (@nil N)) with 0 in E. lia.
Qed.

Lemma torn_log h ws n : 512 = len h -> bytes_at h 0 4 = REGF -> Forall w_ok ws ->
  n <= len (log_bytes ws) ->
  exists l, log_from_bytes (firstn (N.to_nat (512 + n)) (h ++ log_bytes ws)) = Ok l
    /\ bbb_from_bytes h = Ok (tl_base_block l, [])
    /\ tl_base_bytes l = h
    /\ entries_say 512 (complete ws n) (tl_entries l).
Proof.
  intros H T W L. rewrite firstn_app, firstn_len_all by lia.
  replace (N.to_nat (512 + n) - length h)%nat with (N.to_nat n) by (unfold len in H; lia).
  destruct (firstn_log ws n W L) as (i & -> & F & G). apply log_parse; try assumption.
  destruct G as [->|(w & j & Hw & E & J)]; [apply entry_err_nil|]. eapply entry_torn; eassumption.
Qed.
Lemma torn_header h ws n : 512 = len h -> n < 512 ->
  log_from_bytes (firstn (N.to_nat n) (h ++ log_bytes ws)) = Err.
Proof.
  intros H L. unfold log_from_bytes. rewrite bbb_reject; [reflexivity|].
  left. rewrite len_firstn, len_app. lia.
Qed.

Lemma log_from_bytes_fuel i : log_from_bytes i <> OutOfFuel.
Proof.
  unfold log_from_bytes. destruct (bbb_cases i) as [(? & ? & ? & ? & ? & ->)|(? & ->)]; [|discriminate].
  pose proof (many_fuel (S (length (rest_at i 512))) (len i) (rest_at i 512) ltac:(lia)) as M.
  destruct (many_entries _ _ _) as [[? ?]| | |]; try discriminate; [|congruence].
  unfold or_panic. destruct (get_range i 0 BASE_BLOCK_LEN); discriminate.
Qed.
