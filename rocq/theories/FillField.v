(** The fields of keys do not depend on the bytes that a layout leaves open. *)
From Verif Require Import Base BaseFacts Util UtilSpec LayoutSpec Types Value Node Recover Parser TxLog TxSpec
  CellSpec CellData TreeSpec TreeRead TreeOpen TreeUse History TreeSession NavRead NavFacts DateTree BuildBytes FillSpec FillFacts FillView.

Lemma first_at a b off n : firstn 80 a = firstn 80 b -> off + n <= 80 -> bytes_at a off n = bytes_at b off n.
Proof.
  intros E L. unfold bytes_at. rewrite !firstn_skipn_comm.
  replace (firstn (N.to_nat off + N.to_nat n) a) with (firstn (N.to_nat off + N.to_nat n) (firstn 80 a)) by (rewrite firstn_firstn; f_equal; lia).
  rewrite E, firstn_firstn. do 2 f_equal. lia.
Qed.
Lemma first_num a b off n : firstn 80 a = firstn 80 b -> off + n <= 80 -> num_at a off n = num_at b off n.
Proof. intros E L. unfold num_at. now rewrite (first_at a b). Qed.
Lemma first_i32 a b off : firstn 80 a = firstn 80 b -> off + 4 <= 80 -> i32_at a off = i32_at b off.
Proof. intros E L. unfold i32_at. now rewrite (first_num a b). Qed.
Lemma first_fields f g a b : firstn 80 a = firstn 80 b -> same_fields (nk_detail_at f a) (nk_detail_at g b).
Proof.
  intros E. unfold same_fields. cbn [nk_detail_at kd_size kd_flags kd_time kd_access kd_parent kd_nsub kd_nvol kd_sublist kd_vollist kd_nvalues kd_vallist kd_security kd_class
    kd_max_name kd_max_class kd_max_value_name kd_max_value_data kd_work kd_name_size kd_class_size].
  repeat split; (apply first_num || apply first_i32); try exact E; lia.
Qed.
Lemma rest_stored buf pos bs : stored buf pos bs -> exists post, rest_at buf pos = bs ++ post.
Proof.
  intros (pre & post & -> & L). exists post. unfold rest_at. rewrite skipn_app. unfold len in L. rewrite skipn_all2 by lia.
  replace (N.to_nat pos - length pre)%nat with 0%nat by lia. reflexivity.
Qed.
Lemma head_fill sheet buf1 buf2 root t : tree_stored (mkFI 4096 sheet) root t -> filled sheet buf1 -> filled sheet buf2 ->
  firstn 80 (rest_at buf1 (t_pos t)) = firstn 80 (rest_at buf2 (t_pos t)).
Proof.
  intros T F1 F2. inversion T as [root' pos name vals subs d raw FT NEG NM RT S V SB SUBS]; subst. cbn [t_pos fi_buffer] in *. unfold nk_bytes in S.
  set (h := enc_i32 (kd_size d) ++ [110; 107] ++ enc 2 (kd_flags d) ++ enc 8 (kd_time d) ++ enc 4 (kd_access d) ++ enc_i32 (kd_parent d) ++ enc 4 (kd_nsub d) ++ enc 4 (kd_nvol d)
    ++ enc 4 (kd_sublist d) ++ enc_i32 (kd_vollist d) ++ enc 4 (kd_nvalues d) ++ enc_i32 (kd_vallist d) ++ enc 4 (kd_security d) ++ enc_i32 (kd_class d) ++ enc 4 (kd_max_name d)
    ++ enc 4 (kd_max_class d) ++ enc 4 (kd_max_value_name d) ++ enc 4 (kd_max_value_data d) ++ enc 4 (kd_work d) ++ enc 2 (kd_name_size d) ++ enc 2 (kd_class_size d)).
  assert (X : stored sheet pos (h ++ raw ++ kd_slack d)) by (unfold h; rewrite <- !app_assoc; exact S).
  assert (LH : length h = 80%nat) by reflexivity. assert (BH : bytes_ok h).
  { unfold h. rewrite !bytes_ok_app. repeat split; try apply enc_i32_bytes; try apply enc_bytes; repeat constructor. }
  destruct (stored_tail F1 _ _ _ BH X) as (a & _ & S1). destruct (stored_tail F2 _ _ _ BH X) as (b & _ & S2). clearbody h.
  apply rest_stored in S1 as (p1 & ->). apply rest_stored in S2 as (p2 & ->). rewrite <- !app_assoc, !firstn_app, LH, !firstn_all2 by lia. reflexivity.
Qed.
Lemma postorder_stored fi t : forall root above x, tree_stored fi root t -> In x (postorder above t) -> exists r, tree_stored fi r (snd x).
Proof.
  induction t as [pos name vals subs IH] using tree_ind'. intros root above x T I. cbn [postorder] in I. apply in_app_or in I as [I|[<-|[]]]; [|eauto].
  apply in_flat_map in I as (s & S & I). inversion T; subst. rewrite Forall_forall in IH.
  match goal with H : Forall (tree_stored fi false) subs |- _ => rewrite Forall_forall in H; specialize (H s S); exact (IH s S false _ x H I) end.
Qed.
Lemma fields_same fi1 fi2 ks1 : forall ks2 l, shown ks1 l -> shown ks2 l -> Forall (born fi1) ks1 -> Forall (born fi2) ks2 ->
  (forall x, In x l -> firstn 80 (rest_at (fi_buffer fi1) (t_pos (snd x))) = firstn 80 (rest_at (fi_buffer fi2) (t_pos (snd x)))) ->
  Forall2 (fun a b => same_fields (kn_detail a) (kn_detail b)) ks1 ks2.
Proof.
  unfold shown. induction ks1 as [|a ks1 IH]; intros ks2 l S1 S2 B1 B2 E; inversion S1; subst; inversion S2; subst; constructor.
  - inversion B1 as [|? ? (_ & f & D1) ?]; inversion B2 as [|? ? (_ & g & D2) ?]; subst. rewrite D1, D2. apply first_fields.
    match goal with H : key_shown a _ _, H' : key_shown _ _ (snd y) |- _ => idtac end.
    repeat match goal with H : key_shown _ _ _ |- _ => destruct H as (-> & _) end. apply E. now left.
  - inversion B1; inversion B2; subst. eapply IH; eauto. intros z I. apply E. now right.
Qed.
Lemma fill_fields sheet t : laid_out sheet t -> forall order1 fuel1 hash1 full1 buffer1 files1 p1 order2 fuel2 hash2 full2 buffer2 files2 p2 n anc m post ks1 ks2,
  known_file_type buffer1 -> bytes_ok buffer1 -> Forall bytes_ok files1 ->
  build order1 fuel1 hash1 false full1 buffer1 files1 = Ok p1 -> filled sheet (ps_buffer p1) ->
  known_file_type buffer2 -> bytes_ok buffer2 -> Forall bytes_ok files2 ->
  build order2 fuel2 hash2 false full2 buffer2 files2 = Ok p2 -> filled sheet (ps_buffer p2) ->
  (2 * length (positions t) < n)%nat -> iterate n p1 None anc m post = Ok ks1 -> iterate n p2 None anc m post = Ok ks2 ->
  Forall2 (fun a b => same_fields (kn_detail a) (kn_detail b)) ks1 ks2.
Proof.
  intros L order1 fuel1 hash1 full1 buffer1 files1 p1 order2 fuel2 hash2 full2 buffer2 files2 p2 n anc m post ks1 ks2 K1 B1 F1 E1 FL1 K2 B2 F2 E2 FL2 N I1 I2.
  pose proof (fill_opens _ _ _ _ _ _ _ _ _ L K1 B1 F1 E1 FL1) as O1. pose proof (fill_opens _ _ _ _ _ _ _ _ _ L K2 B2 F2 E2 FL2) as O2.
  pose proof (fresh_born _ _ _ _ _ _ _ _ _ _ O1 I1) as W1. pose proof (fresh_born _ _ _ _ _ _ _ _ _ _ O2 I2) as W2.
  destruct (fill_same sheet t L _ _ _ _ _ _ _ _ _ _ _ _ _ _ n anc m post K1 B1 F1 E1 FL1 K2 B2 F2 E2 FL2 N) as (a1 & b1 & J1 & _ & _ & S1).
  destruct (fill_same sheet t L _ _ _ _ _ _ _ _ _ _ _ _ _ _ n anc m post K2 B2 F2 E2 FL2 K1 B1 F1 E1 FL1 N) as (a2 & b2 & J2 & _ & _ & S2).
  rewrite I1 in J1. injection J1 as <-. rewrite I2 in J2. injection J2 as <-.
  apply (fields_same (ps_file p1) (ps_file p2) ks1 ks2 _ S1 S2 W1 W2). intros x I. destruct L as (_ & _ & T & _).
  assert (X : exists r, tree_stored (mkFI 4096 sheet) r (snd x)).
  { destruct post; [now apply (postorder_stored _ t true [])|]. destruct (preorder_stored _ t true [] x T I) as (r & R & _). eauto. }
  destruct X as (r & R). exact (head_fill sheet _ _ r (snd x) R FL1 FL2).
Qed.
