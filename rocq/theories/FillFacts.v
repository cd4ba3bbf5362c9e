(** What a hive shows does not depend on the bytes that its layout leaves open. *)
From Verif Require Import Base BaseFacts Util UtilSpec LayoutSpec Types CellSpec CellData CellList TreeSpec TreeRead FillSpec.

Definition fits_byte (s b : N) : Prop := s = b \/ s = open_byte.

Lemma fits_known a b : bytes_ok a -> Forall2 fits_byte a b -> b = a.
Proof.
  intros B F. induction F as [|x y a b E F IH]; [reflexivity|]. inversion B; subst. f_equal; [|now apply IH].
  destruct E as [E|E]; [now symmetry|]. subst. unfold open_byte, byte in *. lia.
Qed.
Lemma fits_len a b : Forall2 fits_byte a b -> len b = len a.
Proof. intros F. unfold len. f_equal. now induction F; cbn; [|f_equal]. Qed.
Lemma fits_app a b c : Forall2 fits_byte (a ++ b) c -> exists x y, c = x ++ y /\ Forall2 fits_byte a x /\ Forall2 fits_byte b y.
Proof. intros F. apply Forall2_app_inv_l in F as (x & y & A & B & ->). eauto. Qed.
Lemma enc_i32_bytes z : bytes_ok (enc_i32 z).
Proof. apply enc_bytes. Qed.
Lemma flat_enc_bytes k l : bytes_ok (flat_map (enc k) l).
Proof. induction l as [|x l IH]; [constructor|]. cbn [flat_map]. apply bytes_ok_app. split; [apply enc_bytes|exact IH]. Qed.
Lemma utf16le_bytes text : Forall scalar text -> bytes_ok (utf16le text).
Proof.
  unfold utf16le, utf16, bytes_ok. intros S. induction S as [|c l C S IH]; [constructor|]. cbn [flat_map]. unfold unit_bytes in *.
  rewrite flat_map_app. apply Forall_app. split; [|exact IH]. unfold utf16_char. unfold scalar in C.
  destruct (c <? 0x10000) eqn:E; cbn [flat_map app]; repeat constructor; try (apply N.mod_lt; discriminate).
  - apply N.ltb_lt in E. apply N.div_lt_upper_bound; lia.
  - apply N.ltb_ge in E. assert ((c - 65536) / 1024 < 1024) by (apply N.div_lt_upper_bound; lia). apply N.div_lt_upper_bound; [discriminate|]. lia.
  - assert ((c - 65536) mod 1024 < 1024) by (apply N.mod_lt; discriminate). apply N.div_lt_upper_bound; [discriminate|]. lia.
Qed.
Lemma name_bytes a raw text : stored_name a raw text -> bytes_ok raw.
Proof. destruct a; cbn; [now intros (B & _)|]. intros (S & _ & ->). now apply utf16le_bytes. Qed.

Section fill.
Context {sheet buf : list N}.
Hypothesis FILL : filled sheet buf.
Local Notation fi := (mkFI 4096 sheet).
Local Notation fj := (mkFI 4096 buf).

Lemma stored_fill pos bs : stored sheet pos bs -> exists bs', stored buf pos bs' /\ Forall2 fits_byte bs bs'.
Proof.
  intros (pre & post & -> & L). destruct FILL as (body & more & -> & F). apply fits_app in F as (x & y & -> & FX & F).
  apply fits_app in F as (z & w & -> & FZ & _). exists z. split; [|exact FZ]. exists x, (w ++ more).
  split; [now rewrite <- !app_assoc|]. rewrite (fits_len _ _ FX). exact L.
Qed.
Lemma stored_known pos bs : bytes_ok bs -> stored sheet pos bs -> stored buf pos bs.
Proof. intros B S. destruct (stored_fill _ _ S) as (bs' & S' & F). now rewrite (fits_known _ _ B F) in S'. Qed.
(** The first bytes are open, the others are not. *)
Lemma stored_head pos a b : bytes_ok b -> stored sheet pos (a ++ b) -> exists a', len a' = len a /\ stored buf pos (a' ++ b).
Proof.
  intros B S. destruct (stored_fill _ _ S) as (bs & S' & F). apply fits_app in F as (x & y & -> & FX & FY).
  rewrite (fits_known _ _ B FY) in S'. exists x. split; [now apply fits_len|exact S'].
Qed.
Lemma stored_tail pos a b : bytes_ok a -> stored sheet pos (a ++ b) -> exists b', len b' = len b /\ stored buf pos (a ++ b').
Proof.
  intros B S. destruct (stored_fill _ _ S) as (bs & S' & F). apply fits_app in F as (x & y & -> & FX & FY).
  rewrite (fits_known _ _ B FX) in S'. exists y. split; [now apply fits_len|exact S'].
Qed.

Lemma segments_fill offs segs : bytes_ok (concat segs) -> Forall2 (segment_cell fi) offs segs -> Forall2 (segment_cell fj) offs segs.
Proof.
  intros B F. induction F as [|o s offs segs S F IH]; [constructor|]. cbn [concat] in B. apply bytes_ok_app in B as [B1 B2].
  constructor; [|now apply IH]. destruct S as (size & I & L & S). exists size. split; [exact I|]. split; [exact L|].
  apply stored_known; [|exact S]. apply bytes_ok_app. split; [apply enc_i32_bytes|exact B1].
Qed.
Lemma big_fill off offs : big_data_cell fi off offs -> big_data_cell fj off offs.
Proof.
  intros (size & lo & ls & I & L & LS & U & F & S1 & S2). destruct (stored_head _ _ _ (flat_enc_bytes 4 offs) S2) as (ls' & LL & S2').
  exists size, lo, ls'. rewrite LL. repeat (split; [assumption|]). split; [|exact S2'].
  apply stored_known; [|exact S1]. apply bytes_ok_app. split; [apply enc_i32_bytes|]. apply bytes_ok_app. split; [repeat constructor|].
  apply bytes_ok_app. split; apply enc_bytes.
Qed.
Lemma data_fill d data : bytes_ok data -> data_stored fi d data -> data_stored fj d data.
Proof.
  intros B [D|[D|D]].
  - now left.
  - right. left. destruct D as (A1 & A2 & A3 & size & L & S). destruct (stored_head _ _ _ B S) as (size' & L' & S').
    repeat (split; [assumption|]). exists size'. split; [congruence|exact S'].
  - right. right. destruct D as (segs & offs & -> & G & F & BD & R). exists segs, offs. split; [reflexivity|]. split; [exact G|].
    split; [now apply segments_fill|]. split; [now apply big_fill|exact R].
Qed.
Lemma value_fill off v : bytes_ok (v_data v) -> value_stored fi off v -> value_stored fj off v.
Proof.
  intros B (d & raw & V & FL & NM & TY & D & S). destruct d as [sz ns ds dof ty fl pad nm sl bs fu]. unfold vk_bytes in S. cbn in *.
  assert (X : stored sheet (4096 + off) ((enc_i32 sz ++ [118; 107] ++ enc 2 ns ++ enc 4 ds ++ enc 4 dof ++ enc 4 ty ++ enc 2 fl ++ enc 2 pad ++ raw) ++ sl)).
  { rewrite <- !app_assoc. exact S. }
  apply stored_tail in X as (sl' & L & X).
  - exists (mkVD sz ns ds dof ty fl pad nm sl' bs fu), raw. split; [|split; [exact FL|split; [exact NM|split; [exact TY|split]]]].
    + unfold vk_fits in *. cbn in *. now rewrite L.
    + apply (data_fill (mkVD sz ns ds dof ty fl pad nm sl bs fu)); assumption.
    + unfold vk_bytes. cbn. rewrite <- !app_assoc in X. exact X.
  - rewrite !bytes_ok_app. repeat split; try apply enc_i32_bytes; try apply enc_bytes; [repeat constructor|now apply (name_bytes _ _ _ NM)].
Qed.
Lemma values_fill d vals : Forall (fun v => bytes_ok (v_data v)) vals -> values_stored fi d vals -> values_stored fj d vals.
Proof.
  intros B (NV & [E|(L & VL & size & offs & LS & U & S & F)]); (split; [exact NV|]); [now left|]. right. split; [exact L|]. split; [exact VL|].
  destruct (stored_head _ _ _ (flat_enc_bytes 4 offs) S) as (size' & L' & S'). exists size', offs. split; [congruence|]. split; [exact U|].
  split; [exact S'|]. clear - B F FILL. induction F as [|o v offs vals V F IH]; [constructor|]. inversion B; subst. constructor; [now apply value_fill|now apply IH].
Qed.
(** The four more bytes of each item of an lf or lh list may be open. *)
Lemma items_fill (items : list (N * list N)) bs : Forall2 fits_byte (flat_map (fun x => enc 4 (fst x) ++ snd x) items) bs ->
  exists items', bs = flat_map (fun x => enc 4 (fst x) ++ snd x) items' /\ map fst items' = map fst items /\ map (fun x => len (snd x)) items' = map (fun x => len (snd x)) items.
Proof.
  revert bs. induction items as [|[o h] items IH]; intros bs F.
  - inversion F; subst. now exists [].
  - cbn [flat_map fst snd] in F. apply fits_app in F as (x & y & -> & FX & FY). apply fits_app in FX as (e & h' & -> & FE & FH).
    rewrite (fits_known _ _ (enc_bytes 4 o) FE). destruct (IH y FY) as (items' & -> & M & L). exists ((o, h') :: items').
    split; [reflexivity|]. cbn [map fst snd]. rewrite M, L, (fits_len _ _ FH). now split.
Qed.
Lemma hinted off size (sig : list N) (items : list (N * list N)) : bytes_ok sig -> u16 (len items) ->
  Forall (fun x => fst x + 4096 < 2 ^ 32 /\ len (snd x) = 4) items ->
  stored sheet (4096 + off) (enc_i32 size ++ sig ++ enc 2 (len items) ++ flat_map (fun x => enc 4 (fst x) ++ snd x) items) ->
  exists items', map fst items' = map fst items /\ u16 (len items') /\ Forall (fun x => fst x + 4096 < 2 ^ 32 /\ len (snd x) = 4) items'
  /\ stored buf (4096 + off) (enc_i32 size ++ sig ++ enc 2 (len items') ++ flat_map (fun x => enc 4 (fst x) ++ snd x) items').
Proof.
  intros BS U F S. destruct (stored_fill _ _ S) as (bs & S' & FB). apply fits_app in FB as (a & y & -> & FA & FB).
  apply fits_app in FB as (b & y' & -> & FB' & FB). apply fits_app in FB as (c & y'' & -> & FC & FB).
  rewrite (fits_known _ _ (enc_i32_bytes size) FA), (fits_known _ _ BS FB'), (fits_known _ _ (enc_bytes 2 _) FC) in S'.
  destruct (items_fill _ _ FB) as (items' & -> & M & L). assert (LE : len items' = len items).
  { unfold len. rewrite <- (map_length fst items'), M, map_length. reflexivity. }
  exists items'. split; [exact M|]. rewrite LE. split; [exact U|]. split; [|exact S'].
  clear - F M L. revert items' M L. induction F as [|x items (A & B) F IH]; intros [|x' items'] M L; try discriminate; [constructor|].
  cbn [map] in *. injection M as M1 M2. injection L as L1 L2. constructor; [|now apply IH]. rewrite M1, L1. now split.
Qed.
Lemma hinted_keys (items items' : list (N * list N)) : map fst items' = map fst items ->
  map (fun x => 4096 + fst x) items = map (fun x => 4096 + fst x) items'.
Proof. intros M. rewrite <- (map_map fst (fun o => 4096 + o)), <- (map_map fst (fun o => 4096 + o) items'). now rewrite M. Qed.
Lemma list_fill : (forall off ks, key_list fi off ks -> key_list fj off ks) /\ (forall os ks, key_lists fi os ks -> key_lists fj os ks).
Proof.
  apply (key_list_both fi (key_list fj) (key_lists fj)).
  - intros off size items I U F S. destruct (hinted off size [108; 102] items) as (items' & M & U' & F' & S'); auto; [repeat constructor|].
    cbn [fi_hbin]. rewrite (hinted_keys _ _ M). now apply (lf_list fj off size items').
  - intros off size items I U F S. destruct (hinted off size [108; 104] items) as (items' & M & U' & F' & S'); auto; [repeat constructor|].
    cbn [fi_hbin]. rewrite (hinted_keys _ _ M). now apply (lh_list fj off size items').
  - intros off size items I U F S. apply (li_list fj off size items); auto. apply stored_known; [|exact S].
    rewrite !bytes_ok_app. repeat split; [apply enc_i32_bytes|repeat constructor|apply enc_bytes|apply flat_enc_bytes].
  - intros off size subs keys I U F S _ K. apply (ri_list fj off size subs keys); auto. apply stored_known; [|exact S].
    rewrite !bytes_ok_app. repeat split; [apply enc_i32_bytes|repeat constructor|apply enc_bytes|apply flat_enc_bytes].
  - constructor.
  - intros o os ks kss _ K _ KS. now constructor.
Qed.
Lemma tree_fill t : forall root, Forall (fun v => bytes_ok (v_data v)) (all_values t) -> tree_stored fi root t -> tree_stored fj root t.
Proof.
  induction t as [pos name vals subs IH] using tree_ind'. intros root B T. cbn [all_values] in B. apply Forall_app in B as [BV BS].
  inversion T as [root' pos' name' vals' subs' d raw FT NEG NM RT S V SB SUBS]; subst.
  destruct d as [sz fl ti ac pa nsu nv sul vol nval vall sec cl mn mc mvn mvd wo nsz csz sl fu]. unfold nk_bytes in S. cbn in *.
  assert (X : stored sheet pos ((enc_i32 sz ++ [110; 107] ++ enc 2 fl ++ enc 8 ti ++ enc 4 ac ++ enc_i32 pa ++ enc 4 nsu ++ enc 4 nv ++ enc 4 sul ++ enc_i32 vol
    ++ enc 4 nval ++ enc_i32 vall ++ enc 4 sec ++ enc_i32 cl ++ enc 4 mn ++ enc 4 mc ++ enc 4 mvn ++ enc 4 mvd ++ enc 4 wo ++ enc 2 nsz ++ enc 2 csz ++ raw) ++ sl)).
  { rewrite <- !app_assoc. exact S. }
  apply stored_tail in X as (sl' & L & X).
  2:{ rewrite !bytes_ok_app. repeat split; try apply enc_i32_bytes; try apply enc_bytes; [repeat constructor|now apply (name_bytes _ _ _ NM)]. }
  apply (key_stored fj _ pos name vals subs (mkKD sz fl ti ac pa nsu nv sul vol nval vall sec cl mn mc mvn mvd wo nsz csz sl' fu) raw); [|exact NEG|exact NM|reflexivity| | | |].
  - unfold nk_fits in *. cbn in *. now rewrite L.
  - unfold nk_bytes. cbn [kd_size kd_flags kd_time kd_access kd_parent kd_nsub kd_nvol kd_sublist kd_vollist kd_nvalues kd_vallist kd_security kd_class
      kd_max_name kd_max_class kd_max_value_name kd_max_value_data kd_work kd_name_size kd_class_size kd_slack]. rewrite <- !app_assoc in X. exact X.
  - apply (values_fill (mkKD sz fl ti ac pa nsu nv sul vol nval vall sec cl mn mc mvn mvd wo nsz csz sl fu)); assumption.
  - destruct SB as (N1 & [E|(L1 & K)]); (split; [exact N1|]); [now left|right]. split; [exact L1|]. now apply list_fill.
  - apply Forall_forall. intros s I. rewrite Forall_forall in IH, SUBS. apply IH; auto. clear - BS I.
    apply Forall_forall. intros v IV. rewrite Forall_forall in BS. apply BS. apply in_flat_map. eauto.
Qed.
End fill.

Lemma fill_hive sheet buf t : laid_out sheet t -> filled sheet buf -> bytes_ok buf -> hive buf t.
Proof.
  intros (H & P & T & ND & D) F B. split; [exact B|]. split; [|split; [exact P|split; [now apply (tree_fill F)|exact ND]]].
  assert (L : 4096 + 4 <= len sheet).
  { assert (LL : length (bytes_at sheet 4096 4) = 4%nat) by (rewrite H; reflexivity). unfold bytes_at in LL.
    rewrite firstn_length, skipn_length in LL. unfold len. lia. }
  assert (S : stored sheet 4096 [104; 98; 105; 110]).
  { exists (firstn (N.to_nat 4096) sheet), (skipn 4 (skipn (N.to_nat 4096) sheet)). split; [|rewrite len_firstn; lia].
    rewrite <- (firstn_skipn (N.to_nat 4096) sheet) at 1. f_equal. rewrite <- H. symmetry. apply (firstn_skipn 4). }
  apply (stored_known F) in S; [|repeat constructor]. destruct S as (pre & post & -> & L').
  unfold bytes_at. rewrite skipn_app. unfold len in L'. rewrite skipn_all2 by lia. replace (N.to_nat 4096 - length pre)%nat with 0%nat by lia. reflexivity.
Qed.
