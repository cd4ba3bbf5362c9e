(** Two files that fill the same layout look the same. *)
From Verif Require Import Base BaseFacts Util UtilSpec LayoutSpec Types Value Node Recover Parser TxLog TxSpec
  CellSpec TreeSpec TreeOpen TreeUse History TreeSession BuildBytes LiveSpec LiveView LiveOpen LivePlain FillSpec FillFacts.

Lemma fill_opens sheet t order fuel hash full buffer files p : laid_out sheet t ->
  known_file_type buffer -> bytes_ok buffer -> Forall bytes_ok files ->
  build order fuel hash false full buffer files = Ok p -> filled sheet (ps_buffer p) -> opens buffer files t p.
Proof.
  intros L K B F E FL. split; [exact K|]. split; [|eauto 6]. apply (fill_hive sheet); auto. eapply build_bytes; eauto.
Qed.
Lemma shown_values_same a : forall b l, Forall2 value_shown a l -> Forall2 value_shown b l -> Forall2 same_value a b.
Proof.
  induction a as [|x a IH]; intros b l A B; inversion A; subst; inversion B; subst; constructor.
  - unfold value_shown, same_value in *. repeat match goal with H : _ /\ _ |- _ => destruct H end. repeat split; congruence.
  - eapply IH; eauto.
Qed.
Lemma shown_same a : forall b l, shown a l -> shown b l -> Forall2 same_key a b.
Proof.
  unfold shown. induction a as [|x a IH]; intros b l A B; inversion A; subst; inversion B; subst; constructor.
  - unfold key_shown in *. repeat match goal with H : _ /\ _ |- _ => destruct H end. unfold same_key.
    repeat split; try congruence. eapply shown_values_same; eassumption.
  - eapply IH; eauto.
Qed.
Lemma fill_same sheet t : laid_out sheet t -> forall order1 fuel1 hash1 full1 buffer1 files1 p1 order2 fuel2 hash2 full2 buffer2 files2 p2 n anc m post,
  known_file_type buffer1 -> bytes_ok buffer1 -> Forall bytes_ok files1 ->
  build order1 fuel1 hash1 false full1 buffer1 files1 = Ok p1 -> filled sheet (ps_buffer p1) ->
  known_file_type buffer2 -> bytes_ok buffer2 -> Forall bytes_ok files2 ->
  build order2 fuel2 hash2 false full2 buffer2 files2 = Ok p2 -> filled sheet (ps_buffer p2) ->
  (2 * length (positions t) < n)%nat ->
  exists ks1 ks2, iterate n p1 None anc m post = Ok ks1 /\ iterate n p2 None anc m post = Ok ks2 /\ Forall2 same_key ks1 ks2
  /\ shown ks1 (if post then postorder [] t else preorder [] t).
Proof.
  intros L order1 fuel1 hash1 full1 buffer1 files1 p1 order2 fuel2 hash2 full2 buffer2 files2 p2 n anc m post K1 B1 F1 E1 FL1 K2 B2 F2 E2 FL2 N.
  pose proof (fill_opens _ _ _ _ _ _ _ _ _ L K1 B1 F1 E1 FL1) as O1. pose proof (fill_opens _ _ _ _ _ _ _ _ _ L K2 B2 F2 E2 FL2) as O2.
  destruct post.
  - destruct (session_postorder _ _ _ _ (fun _ => False) p1 anc m n O1 ltac:(constructor) N) as (ks1 & I1 & S1).
    destruct (session_postorder _ _ _ _ (fun _ => False) p2 anc m n O2 ltac:(constructor) N) as (ks2 & I2 & S2).
    exists ks1, ks2. split; [exact I1|]. split; [exact I2|]. split; [eapply shown_same; eauto|exact S1].
  - destruct (session_preorder _ _ _ _ (fun _ => False) p1 anc m n O1 ltac:(constructor) N) as (ks1 & I1 & S1).
    destruct (session_preorder _ _ _ _ (fun _ => False) p2 anc m n O2 ltac:(constructor) N) as (ks2 & I2 & S2).
    exists ks1, ks2. split; [exact I1|]. split; [exact I2|]. split; [eapply shown_same; eauto|exact S1].
Qed.
Lemma fill_found sheet t : laid_out sheet t -> clean_names t -> forall order1 fuel1 hash1 full1 buffer1 files1 p1 order2 fuel2 hash2 full2 buffer2 files2 p2,
  known_file_type buffer1 -> bytes_ok buffer1 -> Forall bytes_ok files1 ->
  build order1 fuel1 hash1 false full1 buffer1 files1 = Ok p1 -> filled sheet (ps_buffer p1) -> num_at (ps_buffer p1) 36 4 = 32 ->
  known_file_type buffer2 -> bytes_ok buffer2 -> Forall bytes_ok files2 ->
  build order2 fuel2 hash2 false full2 buffer2 files2 = Ok p2 -> filled sheet (ps_buffer p2) -> num_at (ps_buffer p2) 36 4 = 32 ->
  forall path, Forall scalar path -> exists fuel, forall n, (fuel <= n)%nat -> exists o1 q1 o2 q2,
  get_key n p1 (utf8 path) false = Ok (o1, q1) /\ get_key n p2 (utf8 path) false = Ok (o2, q2)
  /\ match o1, o2 with Some a, Some b => same_key a b | None, None => True | _, _ => False end.
Proof.
  intros L C order1 fuel1 hash1 full1 buffer1 files1 p1 order2 fuel2 hash2 full2 buffer2 files2 p2 K1 B1 F1 E1 FL1 R1 K2 B2 F2 E2 FL2 R2 path P.
  pose proof (session_starts _ _ _ _ (fill_opens _ _ _ _ _ _ _ _ _ L K1 B1 F1 E1 FL1) C R1) as S1.
  pose proof (session_starts _ _ _ _ (fill_opens _ _ _ _ _ _ _ _ _ L K2 B2 F2 E2 FL2) C R2) as S2.
  destruct (path_form path P) as (a & segs & b & -> & PN). exists (length segs). intros n N.
  destruct (session_get_key _ _ _ _ a segs b false n S1 PN ltac:(discriminate) N) as (o1 & q1 & G1 & _ & M1).
  destruct (session_get_key _ _ _ _ a segs b false n S2 PN ltac:(discriminate) N) as (o2 & q2 & G2 & _ & M2).
  exists o1, q1, o2, q2. split; [exact G1|]. split; [exact G2|]. destruct (hd_error _) as [(names & s)|].
  - destruct M1 as (k1 & -> & H1). destruct M2 as (k2 & -> & H2).
    assert (X : Forall2 same_key [k1] [k2]) by (apply (shown_same _ _ [(names, s)]); (constructor; [assumption|constructor])). now inversion X.
  - subst. exact I.
Qed.
(** With recovery on, what is in the open places may show up as deleted items;
    the live keys are the same. *)
Lemma fill_live sheet t order fuel hash full buffer files p order' fuel' q n anc m ks : laid_out sheet t ->
  known_file_type buffer -> bytes_ok buffer -> Forall bytes_ok files ->
  build order fuel hash false full buffer files = Ok p -> filled sheet (ps_buffer p) ->
  build order' fuel' hash true full buffer files = Ok q -> iterate n q None anc m false = Ok ks ->
  shown (live_keys ks) (preorder [] t).
Proof.
  intros L K B F E FL Q I. pose proof (fill_opens _ _ _ _ _ _ _ _ _ L K B F E FL) as O.
  destruct (session_preorder _ _ _ _ (fun _ => False) p anc m (S (2 * length (positions t))) O ltac:(constructor) ltac:(lia)) as (ks0 & I0 & S0).
  rewrite <- (twins_iterate full hash _ _ _ _ _ _ _ _ _ (build_twin full hash _ _ _ _ _ _ _ _ E Q) I0 I).
  rewrite (clean_keys ks0) by exact (iterate_clean _ _ _ _ _ _ _ _ _ _ _ _ _ K E I0). exact S0.
Qed.
Lemma fill_live_same sheet t : laid_out sheet t -> forall order1 order1' fuel1 fuel1' hash1 full1 buffer1 files1 p1 q1 order2 order2' fuel2 fuel2' hash2 full2 buffer2 files2 p2 q2
    n1 n2 anc m ks1 ks2,
  known_file_type buffer1 -> bytes_ok buffer1 -> Forall bytes_ok files1 ->
  build order1 fuel1 hash1 false full1 buffer1 files1 = Ok p1 -> filled sheet (ps_buffer p1) -> build order1' fuel1' hash1 true full1 buffer1 files1 = Ok q1 ->
  known_file_type buffer2 -> bytes_ok buffer2 -> Forall bytes_ok files2 ->
  build order2 fuel2 hash2 false full2 buffer2 files2 = Ok p2 -> filled sheet (ps_buffer p2) -> build order2' fuel2' hash2 true full2 buffer2 files2 = Ok q2 ->
  iterate n1 q1 None anc m false = Ok ks1 -> iterate n2 q2 None anc m false = Ok ks2 ->
  Forall2 same_key (live_keys ks1) (live_keys ks2) /\ shown (live_keys ks1) (preorder [] t).
Proof.
  intros L order1 order1' fuel1 fuel1' hash1 full1 buffer1 files1 p1 q1 order2 order2' fuel2 fuel2' hash2 full2 buffer2 files2 p2 q2 n1 n2 anc m ks1 ks2
    K1 B1 F1 E1 FL1 Q1 K2 B2 F2 E2 FL2 Q2 I1 I2.
  pose proof (fill_live _ _ _ _ _ _ _ _ _ _ _ _ _ _ _ _ L K1 B1 F1 E1 FL1 Q1 I1) as S1.
  pose proof (fill_live _ _ _ _ _ _ _ _ _ _ _ _ _ _ _ _ L K2 B2 F2 E2 FL2 Q2 I2) as S2. split; [eapply shown_same; eauto|exact S1].
Qed.
