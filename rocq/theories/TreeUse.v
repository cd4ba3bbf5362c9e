(** Using an opened well-formed hive: look-ups, filtered iteration, any history
    of calls. *)
From Verif Require Import Base BaseFacts Util UtilSpec UtilText UtilLz LayoutSpec LayoutFacts HeaderFacts BaseBlock Types Value Node Recover
  Parser TxLog TxSpec TxBuild NodeFrame CellSpec CellFacts CellData CellList CellRead TreeSpec TreeRead TreeIter TreeOpen TreeFilter TreeLook.

(** ** Written paths *)
Lemma trim_start_repeat a s : trim_start_bs (repeat 92 a ++ s) = trim_start_bs s.
Proof. induction a as [|a IH]; [reflexivity|]. cbn [repeat app trim_start_bs]. exact IH. Qed.
Lemma trim_start_keep c s : c <> 92 -> trim_start_bs (c :: s) = c :: s.
Proof. intros H. cbn [trim_start_bs]. unfold BS. destruct (N.eqb_spec c 92); [contradiction|reflexivity]. Qed.
Lemma rev_repeat' {A} (x : A) n : rev (repeat x n) = repeat x n.
Proof.
  induction n as [|n IH]; [reflexivity|]. cbn [repeat rev]. rewrite IH. clear IH. induction n as [|n IH]; [reflexivity|].
  cbn [repeat app]. now rewrite IH.
Qed.
Lemma trim_end_keep s c b : c <> 92 -> trim_end_bs ((s ++ [c]) ++ repeat 92 b) = s ++ [c].
Proof.
  intros H. unfold trim_end_bs. rewrite !rev_app_distr, rev_repeat', trim_start_repeat. cbn [rev app].
  rewrite trim_start_keep by exact H. cbn [rev]. now rewrite rev_involutive.
Qed.
Lemma spelled_joined segs : segs <> [] -> spelled segs = 92 :: joined segs.
Proof.
  induction segs as [|n [|m r] IH]; intros H; [contradiction| |].
  - cbn [spelled flat_map joined]. now rewrite app_nil_r.
  - change (spelled (n :: m :: r)) with (92 :: n ++ spelled (m :: r)). rewrite IH by discriminate. reflexivity.
Qed.
Lemma utf8_repeat b : utf8 (repeat 92 b) = repeat 92 b.
Proof. induction b as [|b IH]; [reflexivity|]. cbn [repeat]. rewrite utf8_slash. now rewrite IH. Qed.
Lemma utf8_last z : Forall scalar z -> ~ In 92 z -> z <> [] -> exists w c, utf8 z = w ++ [c] /\ c <> 92.
Proof.
  intros S NI NE. pose proof (utf8_no_slash z S NI) as NU.
  destruct (exists_last (l := utf8 z)) as (w & c & E).
  - destruct z as [|c z]; [contradiction|]. cbn [utf8 flat_map]. intros E. apply app_eq_nil in E as [E _].
    unfold utf8_char in E. repeat match type of E with (if ?b then _ else _) = _ => destruct b end; discriminate.
  - exists w, c. split; [exact E|]. intros ->. apply NU. rewrite E. apply in_or_app. right. now left.
Qed.
Lemma last_split (segs : list (list N)) : segs <> [] -> hd_error (rev segs) <> Some [] -> exists pre z, segs = pre ++ [z] /\ z <> [].
Proof.
  intros NE H. destruct (exists_last NE) as (pre & z & ->). exists pre, z. split; [reflexivity|].
  intros ->. apply H. rewrite rev_app_distr. reflexivity.
Qed.
Lemma spelled_app a b : spelled (a ++ b) = spelled a ++ spelled b. Proof. apply flat_map_app. Qed.
(** The components made of a path below the root. *)
Lemma path_components names b : good names -> names <> [] -> hd_error (rev names) <> Some [] ->
  map (fun s => ComponentString (to_lower s)) (split_bs (trim_end_bs (utf8 (spelled names ++ repeat 92 b)))) = map lit ([] :: names).
Proof.
  intros (S & C) NE H. destruct (last_split names NE H) as (pre & z & E & Z).
  assert (SZ : Forall scalar z /\ ~ In 92 z).
  { rewrite E in S, C. apply Forall_app in S as [_ S]. apply Forall_app in C as [_ C]. apply Forall_cons_iff in S as [S _].
    apply Forall_cons_iff in C as [C _]. now split. }
  destruct (utf8_last z (proj1 SZ) (proj2 SZ) Z) as (w & c & W & NC).
  assert (T : exists s, utf8 (spelled names) = s ++ [c]).
  { exists (utf8 (spelled pre) ++ 92 :: w). rewrite E, spelled_app, utf8_app. cbn [spelled flat_map]. rewrite app_nil_r, utf8_slash, W.
    now rewrite <- app_assoc. }
  destruct T as (s & T). rewrite utf8_app, utf8_repeat, T, trim_end_keep, <- T by exact NC.
  rewrite utf8_spelled, split_spelled.
  - cbn [map]. f_equal. rewrite map_map. apply map_ext_in. intros n I. unfold lit. f_equal. apply lower_utf8.
    rewrite Forall_forall in S. now apply S.
  - apply Forall_map, Forall_forall. intros n I. rewrite Forall_forall in S, C. apply utf8_no_slash; auto.
Qed.
Lemma find_byte_first n r : ~ In 92 n -> find_byte 92 (n ++ 92 :: r) = Some (len n).
Proof.
  induction n as [|c n IH]; intros NI; [reflexivity|]. cbn [app find_byte].
  destruct (N.eqb_spec c 92) as [->|]; [exfalso; apply NI; now left|]. rewrite IH by (intros I; apply NI; now right).
  rewrite len_cons. cbn [option_map]. f_equal. lia.
Qed.
Lemma find_byte_none n : ~ In 92 n -> find_byte 92 n = None.
Proof.
  induction n as [|c n IH]; intros NI; [reflexivity|]. cbn [find_byte].
  destruct (N.eqb_spec c 92) as [->|]; [exfalso; apply NI; now left|]. rewrite IH; [reflexivity|]. intros I; apply NI; now right.
Qed.
Lemma strip_first n r : ~ In 92 n -> strip_root (n ++ 92 :: r) = r.
Proof.
  intros NI. unfold strip_root. rewrite find_byte_first by exact NI.
  replace (N.to_nat (len n + 1)) with (S (length n)) by (unfold len; lia).
  rewrite skipn_app, skipn_all2 by lia. replace (S (length n) - length n)%nat with 1%nat by lia. reflexivity.
Qed.
Lemma strip_none n : ~ In 92 n -> strip_root n = [].
Proof. intros NI. unfold strip_root. now rewrite find_byte_none. Qed.
(** What get_key makes of a path. *)
Lemma utf8_first n : Forall scalar n -> ~ In 92 n -> n <> [] -> exists c w, utf8 n = c :: w /\ c <> 92.
Proof.
  intros S NI NE. pose proof (utf8_no_slash n S NI) as NU. destruct (utf8 n) as [|c w] eqn:E.
  - destruct n as [|c n]; [contradiction|]. cbn [utf8 flat_map] in E. apply app_eq_nil in E as [E _].
    unfold utf8_char in E. repeat match type of E with (if ?b then _ else _) = _ => destruct b end; discriminate.
  - exists c, w. split; [reflexivity|]. intros ->. apply NU. now left.
Qed.
Lemma joined_first n r b : exists rest, joined (n :: r) ++ repeat 92 b = n ++ rest.
Proof. destruct r; cbn [joined]; [now eexists|]. rewrite <- app_assoc. now eexists. Qed.
Lemma trim_path a segs b : path_names segs ->
  trim_start_bs (utf8 (repeat 92 a ++ joined segs ++ repeat 92 b))
  = match segs with [] => [] | _ => utf8 (joined segs ++ repeat 92 b) end.
Proof.
  intros (S & C & F & _). rewrite utf8_app, utf8_repeat, trim_start_repeat. destruct segs as [|n r].
  - cbn [joined app]. rewrite utf8_repeat. rewrite <- (app_nil_r (repeat 92 b)), trim_start_repeat. reflexivity.
  - apply Forall_cons_iff in S as [S _]. apply Forall_cons_iff in C as [C _].
    destruct (utf8_first n S C) as (c & w & W & NC); [intros ->; apply F; reflexivity|].
    destruct (joined_first n r b) as (rest & E). rewrite E, utf8_app, W. cbn [app]. now apply trim_start_keep.
Qed.
Lemma strip_path n r b : Forall scalar n -> ~ In 92 n -> (r = [] -> (b <= 1)%nat) ->
  strip_root (utf8 (joined (n :: r) ++ repeat 92 b))
  = match r with [] => [] | _ => utf8 (joined r ++ repeat 92 b) end.
Proof.
  intros S C B. pose proof (utf8_no_slash n S C) as NU. destruct r as [|m r].
  - cbn [joined]. rewrite utf8_app, utf8_repeat. specialize (B eq_refl). destruct b as [|[|b]]; [| |lia].
    + cbn [repeat]. rewrite app_nil_r. now apply strip_none.
    + cbn [repeat]. now apply strip_first.
  - change (joined (n :: m :: r)) with (n ++ 92 :: joined (m :: r)). rewrite <- app_assoc. cbn [app].
    rewrite utf8_app, utf8_slash. now apply strip_first.
Qed.

(** ** An opened hive *)
Record opened (t : key_tree) (p : parser) : Prop := {
  od_hive : hive (ps_buffer p) t;
  od_hbin : ps_hbin p = 4096;
  od_quiet : quiet (ps_state p);
  od_cached : cached (t_name t) (ps_state p);
  od_root : exists k, ps_root p = Some k /\ waits (ps_file p) ([], true, t) k;
  od_header : exists name, ps_base_block p = Some (base_block_at (ps_buffer p) name) }.
Lemma od_file t p : opened t p -> ps_file p = mkFI 4096 (ps_buffer p).
Proof. intros O. pose proof (od_hbin _ _ O) as H. unfold ps_buffer, ps_hbin in *. destruct (ps_file p). cbn in *. now subst. Qed.
Lemma build_opened order fuel hash full buffer files p t : known_file_type buffer ->
  build order fuel hash false full buffer files = Ok p -> hive (ps_buffer p) t -> opened t p.
Proof.
  intros K E HV. destruct (hive_root _ _ _ _ _ _ _ _ K E HV) as (k & R & W & _).
  destruct (build_plain _ _ _ _ _ _ _ K E) as (P & (H & L & BB) & _). split; try assumption.
  - exact (plain_quiet _ _ _ P).
  - left. destruct P as [_ P]. assert (X : st_root_offset (set_info [] (ps_state p)) = 0) by now rewrite P. exact X.
  - now exists k.
Qed.
Lemma opened_state t p st : opened t p -> root_only (ps_state p) st -> cached (t_name t) st -> opened t (ps_set_state st p).
Proof.
  intros [O1 O2 O3 O4 O5 O6] RO CA. split; try assumption. eapply quiet_root_only; eassumption.
Qed.
Lemma opened_facts t p : opened t p -> bytes_ok (fi_buffer (ps_file p)) /\ fi_hbin (ps_file p) < 2 ^ 32
  /\ tree_stored (ps_file p) true t.
Proof.
  intros O. pose proof (od_file _ _ O) as F. destruct (od_hive _ _ O) as (B & _ & _ & T & _). rewrite F. cbn [fi_buffer fi_hbin].
  split; [exact B|]. split; [reflexivity|exact T].
Qed.
Lemma opened_read_root t p : opened t p -> num_at (ps_buffer p) 36 4 = 32 ->
  exists k, get_root_key p = Ok (Some k, p) /\ waits (ps_file p) ([], true, t) k.
Proof.
  intros O R. destruct (od_header _ _ O) as (name & BB). unfold get_root_key. rewrite BB.
  destruct (opened_facts _ _ O) as (B & H & T). destruct (od_hive _ _ O) as (_ & _ & TP & _).
  replace (w64 _) with (t_pos t).
  - destruct (key_load (ps_file p) (ps_state p) true t [] true true B H T) as (k & K & LD); [right; apply (od_quiet _ _ O)|].
    rewrite K. exists k. cbv beta iota. split; [f_equal; f_equal; now destruct p|]. split; [exact LD|constructor].
  - rewrite (od_hbin _ _ O), TP. cbn [base_block_at bb_base header_at bb_root_offset]. rewrite <- to_i32_at, R. reflexivity.
Qed.
Lemma opened_clean t p : opened t p -> clean_names t -> ~ In 92 (t_name t) /\ Forall scalar (t_name t).
Proof.
  intros O C. split; [destruct t; now apply Forall_cons_iff in C as [C _]|].
  destruct (od_root _ _ O) as (k & _ & ((? & ? & ? & _ & _ & S & _) & _)). exact S.
Qed.
Lemma by_path fi root x k st segs b : bytes_ok (fi_buffer fi) -> fi_hbin fi < 2 ^ 32 -> on_way fi root x k -> cached root st ->
  good segs -> segs <> [] -> hd_error (rev segs) <> Some [] ->
  forall fuel, (length segs <= fuel)%nat ->
  exists o st', get_sub_key_by_path fuel fi st k (utf8 (joined segs ++ repeat 92 b)) = Ok (o, st') /\ root_only st st' /\ cached root st'
  /\ gives o (reached (p_above (fst x)) segs (p_tree (fst x))).
Proof.
  intros B H OW CA GS NE LS fuel LF. pose proof OW as (((L & SA) & FK) & NH & (r & NM) & CL & CT).
  pose proof L as (full & d & raw & BK & V & SC & _).
  assert (GN : good (names_of (fst x))).
  { split; [|exact CL]. unfold names_of. apply Forall_app. split; [exact SA|]. now constructor. }
  assert (PK : kn_path k = utf8 (spelled (names_of (fst x)))) by (unfold names_of; rewrite spelled_path; apply loaded_path in L; exact L).
  unfold get_sub_key_by_path.
  assert (NN : utf8 (joined segs ++ repeat 92 b) <> []).
  { destruct (last_split segs NE LS) as (pre & z & -> & Z). intros X.
    assert (J : spelled (pre ++ [z]) <> [92]).
    { rewrite spelled_app. cbn [spelled flat_map]. rewrite app_nil_r. destruct pre as [|n pre]; [destruct z; [contradiction|discriminate]|].
      cbn [spelled flat_map app]. destruct z; [contradiction|]. intros Y. injection Y as Y. apply app_eq_nil in Y as [_ Y]. discriminate. }
    apply J. rewrite spelled_joined by exact NE. f_equal. rewrite utf8_app in X. apply app_eq_nil in X as [X _].
    destruct (joined (pre ++ [z])) as [|c w]; [reflexivity|]. exfalso. cbn [utf8 flat_map] in X. apply app_eq_nil in X as [X _].
    unfold utf8_char in X. repeat match type of X with (if ?b then _ else _) = _ => destruct b end; discriminate. }
  destruct (utf8 (joined segs ++ repeat 92 b)) as [|c0 w0] eqn:U; [contradiction|]. rewrite <- U. clear U c0 w0 NN.
  set (q := with_has_root true _).
  assert (PQ : rq_path q = map lit ([] :: names_of (fst x) ++ segs)).
  { unfold q, with_has_root, add_key_path, empty_query. cbn [rq_path app].
    replace (kn_path k ++ BS :: utf8 (joined segs ++ repeat 92 b)) with (utf8 (spelled (names_of (fst x) ++ segs) ++ repeat 92 b)).
    - apply path_components.
      + destruct GN as [G1 G2], GS as [G3 G4]. split; now apply Forall_app.
      + destruct (names_of (fst x)); [exact NE|discriminate].
      + rewrite rev_app_distr. destruct (rev segs) as [|z l] eqn:RS; [|exact LS]. exfalso. apply NE. apply (f_equal (@rev _)) in RS. now rewrite rev_involutive in RS.
    - rewrite PK, spelled_app, (spelled_joined segs NE). rewrite <- app_assoc. cbn [app]. rewrite utf8_app, utf8_slash. reflexivity. }
  apply (look fi q root B H eq_refl eq_refl segs fuel x k st (names_of (fst x))); try assumption.
  - apply Forall_app. split; [apply GN|apply GS].
  - clear. induction (names_of (fst x)); constructor; [apply same_refl|assumption].
Qed.
Lemma root_on_way t p k : opened t p -> clean_names t -> waits (ps_file p) ([], true, t) k ->
  on_way (ps_file p) (t_name t) (([], true, t), None) k.
Proof.
  intros O C W. destruct (opened_clean _ _ O C) as [C1 C2].
  assert (FN : kn_filter k = None) by (destruct (waits_fields _ _ _ W) as (_ & _ & F); exact F).
  split; [split; [cbn [fst]; rewrite set_filter_same by exact FN; exact W|exact FN]|]. split; [reflexivity|].
  split; [now exists []|]. split; [|exact C]. constructor; [exact C1|constructor].
Qed.
Lemma opened_get_key t p : opened t p -> num_at (ps_buffer p) 36 4 = 32 -> clean_names t ->
  forall a segs b (has_root : bool) fuel, path_names segs -> (has_root = true -> (length segs <= 1)%nat -> (b <= 1)%nat) ->
  (length segs <= fuel)%nat ->
  exists o p', get_key fuel p (utf8 (repeat 92 a ++ joined segs ++ repeat 92 b)) has_root = Ok (o, p')
  /\ opened t p' /\ (exists st, p' = ps_set_state st p)
  /\ gives o (reached [] (if has_root then tl segs else segs) t).
Proof.
  intros O R C a segs b hr fuel PN HB LF. destruct (opened_read_root t p O R) as (k & GR & W).
  destruct (opened_facts _ _ O) as (B & H & _). pose proof (root_on_way _ _ _ O C W) as OW.
  unfold get_key. rewrite GR, trim_path by exact PN. pose proof PN as (S & CL & F & LS).
  set (sub := if hr then tl segs else segs).
  assert (SUB : (if hr then strip_root (match segs with [] => [] | _ => utf8 (joined segs ++ repeat 92 b) end)
                 else match segs with [] => [] | _ => utf8 (joined segs ++ repeat 92 b) end)
    = match sub with [] => [] | _ => utf8 (joined sub ++ repeat 92 b) end).
  { unfold sub. destruct hr; [|reflexivity]. destruct segs as [|n r]; [reflexivity|]. cbn [tl].
    apply Forall_cons_iff in S as [S _]. apply Forall_cons_iff in CL as [CL _]. apply strip_path; [exact S|exact CL|].
    intros ->. apply HB; [reflexivity|]. cbn. lia. }
  match goal with |- context [get_sub_key_by_path _ _ _ _ ?s] => replace s with (match sub with [] => [] | _ => utf8 (joined sub ++ repeat 92 b) end) by (symmetry; exact SUB) end.
  assert (GS : good sub).
  { unfold sub. destruct hr; [|now split]. destruct segs; [split; constructor|]. cbn [tl].
    apply Forall_cons_iff in S as [_ S]. apply Forall_cons_iff in CL as [_ CL]. now split. }
  assert (LS' : hd_error (rev sub) <> Some []).
  { unfold sub. destruct hr; [|exact LS]. destruct segs as [|n r]; [discriminate|]. cbn [tl rev] in *.
    destruct (rev r); [discriminate|exact LS]. }
  assert (LL : (length sub <= fuel)%nat) by (unfold sub; destruct hr; destruct segs; cbn [tl length] in *; lia).
  destruct sub as [|n r] eqn:SE.
  - cbn [get_sub_key_by_path]. cbv beta iota. exists (Some k), (ps_set_state (ps_state p) p). split; [reflexivity|].
    split; [apply opened_state; [exact O|auto|apply (od_cached _ _ O)]|]. split; [now eexists|].
    exists k. split; [reflexivity|]. exact (waits_shown _ _ _ W).
  - destruct (by_path (ps_file p) (t_name t) _ k (ps_state p) (n :: r) b B H OW (od_cached _ _ O) GS) with (fuel := fuel) as (o & st' & E & RO & CC & G).
    { discriminate. } { exact LS'. } { exact LL. }
    rewrite E. cbv beta iota. exists o, (ps_set_state st' p). split; [reflexivity|].
    split; [now apply opened_state|]. split; [now eexists|]. exact G.
Qed.
(** Every path is written like this. *)
Lemma split_some s : split_bs s <> [].
Proof. destruct s as [|c s]; [discriminate|]. cbn [split_bs]. destruct (c =? BS); [discriminate|]. destruct (split_bs s); discriminate. Qed.
Lemma split_clean s : Forall (fun n => ~ In 92 n) (split_bs s).
Proof.
  induction s as [|c s IH]; [constructor; [auto|constructor]|]. cbn [split_bs]. unfold BS. destruct (N.eqb_spec c 92) as [->|NC].
  - constructor; [auto|exact IH].
  - destruct (split_bs s) as [|p ps]; [constructor; [|constructor]; intros [J|[]]; congruence|].
    apply Forall_cons_iff in IH as [I1 I2]. constructor; [|exact I2]. intros [J|J]; [congruence|contradiction].
Qed.
Lemma split_scalar s : Forall scalar s -> Forall (Forall scalar) (split_bs s).
Proof.
  induction 1 as [|c s C F IH]; [constructor; constructor|]. cbn [split_bs]. destruct (c =? BS); [constructor; [constructor|exact IH]|].
  destruct (split_bs s) as [|p ps]; [constructor; [|constructor]; now constructor|].
  apply Forall_cons_iff in IH as [I1 I2]. constructor; [now constructor|exact I2].
Qed.
Lemma joined_split s : joined (split_bs s) = s.
Proof.
  induction s as [|c s IH]; [reflexivity|]. cbn [split_bs]. unfold BS. pose proof (split_some s) as N. destruct (N.eqb_spec c 92) as [->|NC].
  - destruct (split_bs s) as [|p ps]; [contradiction|]. cbn [joined app]. f_equal. exact IH.
  - destruct (split_bs s) as [|p ps]; [contradiction|]. cbn [joined] in *. destruct ps; cbn [app]; now rewrite IH.
Qed.
Lemma split_last s c : c <> 92 -> exists pre z, split_bs (s ++ [c]) = pre ++ [z ++ [c]].
Proof.
  intros NC. induction s as [|d s (pre & z & IH)].
  - exists [], []. cbn [app split_bs]. unfold BS. destruct (N.eqb_spec c 92); [contradiction|reflexivity].
  - cbn [app split_bs]. destruct (d =? BS); [exists ([] :: pre), z; now rewrite IH|]. rewrite IH. destruct pre as [|p pre].
    + exists [], (d :: z). reflexivity.
    + exists ((d :: p) :: pre), z. reflexivity.
Qed.
Lemma lead s : exists a r, s = repeat 92 a ++ r /\ hd_error r <> Some 92.
Proof.
  induction s as [|c s (a & r & E & H)]; [now exists O, []|]. destruct (N.eq_dec c 92) as [->|NC].
  - exists (S a), r. split; [cbn; now rewrite <- E|exact H].
  - exists O, (c :: s). split; [reflexivity|]. intros [= X]. contradiction.
Qed.
Lemma trail s : exists r b, s = r ++ repeat 92 b /\ hd_error (rev r) <> Some 92.
Proof.
  destruct (lead (rev s)) as (b & r & E & H). exists (rev r), b. rewrite rev_involutive. split; [|exact H].
  rewrite <- (rev_involutive s), E, rev_app_distr, rev_repeat'. reflexivity.
Qed.
Lemma path_form path : Forall scalar path ->
  exists a segs b, path = repeat 92 a ++ joined segs ++ repeat 92 b /\ path_names segs.
Proof.
  intros S. destruct (lead path) as (a & r & E & H1). destruct (trail r) as (m & b & E2 & H2). subst r. exists a.
  destruct m as [|c m]; [exists [], b; split; [exact E|split; [constructor|split; [constructor|split; discriminate]]]|].
  exists (split_bs (c :: m)), b. rewrite joined_split. split; [exact E|].
  assert (S' : Forall scalar (c :: m)) by (rewrite E in S; apply Forall_app in S as [_ S]; now apply Forall_app in S as [S _]).
  split; [now apply split_scalar|]. split; [apply split_clean|]. split.
  - cbn [split_bs]. unfold BS. destruct (N.eqb_spec c 92) as [->|NC]; [exfalso; apply H1; reflexivity|].
    destruct (split_bs m); discriminate.
  - destruct (exists_last (l := c :: m)) as (w & z & W); [discriminate|]. rewrite W in *. rewrite rev_app_distr in H2. cbn [rev app hd_error] in H2.
    destruct (split_last w z) as (pre & y & ->); [intros ->; now apply H2|]. rewrite rev_app_distr. cbn [rev app hd_error].
    destruct y; discriminate.
Qed.

(** ** Iterating an opened hive *)
Lemma opened_iterate t p anc m n : opened t p -> (2 * length (positions t) < n)%nat ->
  (exists ks, iterate n p None anc m false = Ok ks /\ shown ks (preorder [] t))
  /\ (exists ks, iterate n p None anc m true = Ok ks /\ shown ks (postorder [] t)).
Proof.
  intros O LN. destruct (od_root _ _ O) as (k & R & W). destruct (opened_facts _ _ O) as (B & HB & _).
  assert (Q := od_quiet _ _ O). destruct (od_hive _ _ O) as (_ & _ & _ & _ & ND).
  assert (OK : kn_offset k = t_pos t) by (destruct W as ((? & ? & ? & BR & _) & _); apply BR).
  assert (BW : forall q, In q (below t) -> ~ In q [t_pos t]).
  { intros q I [J|[]]. subst q. rewrite positions_eq in ND. apply NoDup_cons_iff in ND as [ND _]. contradiction. }
  unfold iterate, from_parser. rewrite R. split.
  - edestruct (pre_collect (ps_file p) B HB n [([], true, t)]) as (ks & C & S); [| | | | | |exists ks; split; [exact C|]].
    + now right.
    + reflexivity.
    + constructor; [exact W|constructor].
    + unfold all_pos. cbn [flat_map]. rewrite app_nil_r. exact ND.
    + unfold all_below. cbn [flat_map cx_offsets]. rewrite app_nil_r, OK. exact BW.
    + unfold all_pos. cbn [flat_map]. rewrite app_nil_r. cbn [p_tree snd]. lia.
    + cbn [flat_map] in S. rewrite app_nil_r in S. exact S.
  - edestruct (post_collect (ps_file p) B HB n [] [([], true, t)]) as (ks & C & S); [split| |exists ks; split; [exact C|]].
    + now right.
    + reflexivity.
    + constructor.
    + constructor; [exact W|constructor].
    + unfold all_pos. cbn [flat_map app]. rewrite app_nil_r. exact ND.
    + unfold all_below. cbn [flat_map cx_offsets app]. rewrite app_nil_r, OK. exact BW.
    + unfold all_pos, out_of, posts. cbn [flat_map app]. rewrite !app_nil_r. cbn [p_tree snd p_above fst].
      rewrite post_length. lia.
    + unfold out_of, posts in S. cbn [flat_map app] in S. rewrite app_nil_r in S. exact S.
Qed.
Lemma below_root_len q root : below_root q -> len (segments q [root]) < len (rq_path q).
Proof. unfold below_root, segments. destruct (rq_has_root q); cbn [tl]; rewrite ?len_cons; change (len (@nil (list N))) with 0; lia. Qed.
Lemma opened_filter t p q anc m n : opened t p -> clean_names t -> below_root q -> (length (positions t) < n)%nat ->
  exists ks, iterate n p (Some q) anc m false = Ok ks /\ shown ks (filtered q anc (preorder [] t)).
Proof.
  intros O CN BR LN. destruct (od_root _ _ O) as (k & R & W). destruct (opened_facts _ _ O) as (B & HB & _).
  assert (Q := od_quiet _ _ O). destruct (od_hive _ _ O) as (_ & _ & _ & _ & ND).
  assert (OK : kn_offset k = t_pos t) by (destruct W as ((? & ? & ? & BA & _) & _); apply BA).
  destruct (root_on_way _ _ _ O CN W) as (ST & _ & _ & CL & _).
  unfold iterate, from_parser. rewrite R.
  edestruct (fcollect (ps_file p) q (t_name t) anc B HB n [(([], true, t), None)]) as (ks & C & S); [split| |exists ks; split; [exact C|]].
  - now right.
  - reflexivity.
  - reflexivity.
  - exact (od_cached _ _ O).
  - constructor; [exact ST|constructor].
  - constructor; [|constructor]. split; [exists []; split; [reflexivity|]; now split|]. split; [exact CL|]. split; [exact CN|].
    now apply below_root_len.
  - unfold fpos, all_pos. cbn [map fst flat_map]. rewrite app_nil_r. exact ND.
  - unfold fbelow, all_below. cbn [map fst flat_map cx_offsets]. rewrite app_nil_r, OK. intros x I [J|[]]. subst x.
    rewrite positions_eq in ND. apply NoDup_cons_iff in ND as [ND _]. contradiction.
  - unfold fpos, all_pos. cbn [map fst flat_map]. rewrite app_nil_r. exact LN.
  - cbn [flat_map] in S. rewrite app_nil_r in S. exact S.
Qed.

