(** Reading the keys of a well-formed hive. *)
From Verif Require Import Base BaseFacts Util UtilSpec UtilText LayoutSpec LayoutFacts Types Value Node CellSpec CellFacts
  CellData CellList CellRead TreeSpec.

(** ** Induction over trees *)
Lemma tree_ind' (P : key_tree -> Prop) :
  (forall pos name vals subs, Forall P subs -> P (KeyTree pos name vals subs)) -> forall t, P t.
Proof.
  intros H. fix IH 1. intros [pos name vals subs]. apply H.
  induction subs as [|s r IHs]; constructor; [apply IH|exact IHs].
Qed.

(** ** Names *)
Lemma stored_name_utf8 a raw text : bytes_ok raw -> stored_name a raw text ->
  string_from_bytes a raw (len raw) = Ok (utf8 text, 0) /\ Forall scalar text.
Proof.
  intros B S. destruct (stored_name_text _ _ _ S) as (s & E & R).
  destruct (string_text _ _ _ _ _ B E) as (t & F & ->).
  rewrite read_utf8_utf8 in R by exact F. injection R as ->. now split.
Qed.
Lemma utf8_app a b : utf8 (a ++ b) = utf8 a ++ utf8 b.
Proof. apply flat_map_app. Qed.
Lemma utf8_slash n : utf8 (92 :: n) = 92 :: utf8 n. Proof. reflexivity. Qed.
Lemma spelled_app a b : spelled (a ++ b) = spelled a ++ spelled b.
Proof. apply flat_map_app. Qed.
Lemma spelled_scalar names : Forall (Forall scalar) names -> Forall scalar (spelled names).
Proof.
  induction 1 as [|n l H F IH]; [constructor|]. cbn [spelled flat_map app]. constructor; [left; reflexivity|].
  apply Forall_app. now split.
Qed.

(** ** Values *)
Lemma stored_rest buf pos bs : stored buf pos bs -> rest_at buf pos = bs ++ rest_at buf (pos + len bs) /\ pos + len bs <= len buf.
Proof.
  intros S. pose proof (stored_len _ _ _ S) as L. destruct S as (pre & post & -> & P). split; [|exact L].
  unfold rest_at. replace (N.to_nat pos) with (length pre) by (unfold len in P; lia).
  rewrite skipn_app, skipn_all, Nat.sub_diag. cbn [skipn app]. f_equal.
  replace (N.to_nat (pos + len bs)) with (length pre + length bs)%nat by (unfold len in *; lia).
  rewrite app_assoc, skipn_app, app_length, Nat.sub_diag. rewrite skipn_all2 by (rewrite app_length; lia). reflexivity.
Qed.
Lemma stored_bytes buf pos bs : bytes_ok buf -> stored buf pos bs -> bytes_ok bs.
Proof.
  intros B (pre & post & -> & _). apply bytes_ok_app in B as [_ B]. now apply bytes_ok_app in B as [B _].
Qed.
Lemma value_data_type raw data : value_data (data_type_of raw) data = value_data (raw mod 4096) data.
Proof.
  unfold data_type_of. change 0xFFF with (N.ones 12). rewrite N.land_ones. change (2 ^ 12) with 4096.
  set (t := raw mod 4096). unfold known_type.
  destruct ((t <=? 0xB) || (t =? 0x10) || ((0x101 <=? t) && (t <=? 0x11F)) || (t =? 999)) eqn:K; [reflexivity|].
  unfold value_data. replace (fixed_width t) with (@None N); [reflexivity|]. unfold fixed_width.
  symmetry. apply not_true_iff_false in K.
  repeat match goal with |- (if ?c then _ else _) = _ => let E := fresh in destruct c eqn:E end; try reflexivity;
  exfalso; apply K; lia.
Qed.
Definition quiet (st : state) : Prop :=
  st_deleted_keys st = [] /\ st_modified_keys st = [] /\ st_deleted_values st = [] /\ st_modified_values st = [].

Lemma value_load fi st o v : bytes_ok (fi_buffer fi) -> value_stored fi o v ->
  exists kv, value_read fi st None o kv /\ value_shown kv v /\ kv_logs kv = [] /\ kv_versions kv = []
  /\ kv_offset kv = fi_hbin fi + o.
Proof.
  intros B (d & raw & F & FL & N & T & D & S).
  destruct (stored_rest _ _ _ S) as (R & L).
  assert (BR : bytes_ok raw).
  { pose proof (stored_bytes _ _ _ B S) as X. unfold vk_bytes in X.
    repeat (apply bytes_ok_app in X as [? X]). assumption. }
  destruct (stored_name_utf8 _ _ _ BR N) as (E & SC).
  assert (VF : value_flags (vd_flags_raw d) = vd_flags_raw d) by (unfold value_flags; destruct (N.ltb_spec (vd_flags_raw d) 4); [easy|lia]).
  assert (X : (if vd_name_size d =? 0 then Ok ([], 0)
   else string_from_bytes (N.odd (value_flags (vd_flags_raw d))) raw (len raw)) = Ok (utf8 (v_name v), 0)).
  { rewrite VF, <- N.bit0_odd. destruct (N.eqb_spec (vd_name_size d) 0) as [Z|]; [|exact E].
    destruct F as (_ & _ & _ & _ & _ & _ & _ & NS & _). rewrite Z in NS. symmetry in NS. apply len_0 in NS. subst raw.
    destruct (N.testbit _ _); cbn in E; now injection E as <-. }
  pose proof (vk_round_trip d raw (rest_at (fi_buffer fi) (fi_hbin fi + o + len (vk_bytes d raw))) (fi_hbin fi + o) None (st_full st) _ _ F X) as V.
  rewrite <- R in V. set (v0 := mkKV _ _ _ _ _ _ _ _ _ _ _) in V.
  exists (read_value_bytes fi st v0). split; [exists v0; eexists; split; [exact V|reflexivity]|].
  assert (KD : exists offs, kv_with_data fi st v0 (value_data (kv_type v0) (v_data v)) offs []).
  { destruct D as [(D1 & D2 & pad & D3)|[(D1 & D2 & D3 & size & D4 & D5)|(segs & offs & D1 & D2 & D3 & D4 & D5 & D6)]].
    - eexists. now apply data_resident with (pad := pad).
    - eexists. now apply data_cell with (size := size).
    - rewrite D1 in D5, D6 |- *. eexists. now apply data_big with (offs := offs). }
  destruct KD as (offs & K1 & _ & K3). change (kv_type v0) with (data_type_of (vd_type_raw d)) in K1. rewrite value_data_type in K1. unfold value_shown.
  assert (G : let v' := read_value_bytes fi st v0 in vd_name (kv_detail v') = utf8 (v_name v)
     /\ vd_type_raw (kv_detail v') = vd_type_raw d /\ kv_state v' = Allocated /\ kv_versions v' = [] /\ kv_offset v' = fi_hbin fi + o
     /\ kv_type v' = data_type_of (vd_type_raw d)).
  { unfold read_value_bytes. destruct (read_value_bytes_direct _ _ _ _ _) as [[? ?] ?]. repeat split. }
  destruct G as (G1 & G2 & G3 & G4 & G5 & G6). cbv zeta in *.
  split; [|split; [exact K3|split; assumption]].
  split; [rewrite G1; now apply read_utf8_utf8|]. split; [now rewrite G2|]. split; [|split; [exact G3|now rewrite G6, T, shown_data_type]].
  rewrite <- T. exact K1.
Qed.

(** ** Keys *)
Lemma uml_quiet st k n : quiet st -> update_modified_lists (S n) st k = Ok k.
Proof.
  intros (Q1 & Q2 & Q3 & Q4). cbn [update_modified_lists]. destruct (is_deleted_primary_file _); [reflexivity|].
  rewrite Q1, Q2, Q3, Q4. cbn [aget]. rewrite map_id, app_nil_r. now destruct k.
Qed.
(** A key as it is after its cell has been read; the values are read after. *)
Definition bare (full : bool) (t : key_tree) (path : list N) (d : nk_detail) (raw : list N) (k : key_node) : Prop :=
  kn_offset k = t_pos t /\ kn_name k = utf8 (t_name t) /\ kn_path k = path ++ [92] ++ utf8 (t_name t)
  /\ kn_detail k = kd_with_full (if full then Some (nk_table d) else None) d
  /\ kn_state k = Allocated /\ kn_filter k = None /\ kn_deleted k = [] /\ kn_versions k = []
  /\ kn_to_return k = 0 /\ kn_track k = 0 /\ ~ In WarningParse (kn_logs k).
Lemma key_parse fi st root t path : bytes_ok (fi_buffer fi) -> tree_stored fi root t ->
  exists d raw k rest, nk_fits d raw /\ N.testbit (kd_flags d) 2 = root
  /\ values_stored fi d (t_vals t) /\ subs_stored fi d (t_subs t) /\ Forall (tree_stored fi false) (t_subs t)
  /\ get_from (fi_buffer fi) (t_pos t) = Some (rest_at (fi_buffer fi) (t_pos t))
  /\ t_pos t + 80 <= len (fi_buffer fi)
  /\ Forall scalar (t_name t)
  /\ kn_from_bytes st (rest_at (fi_buffer fi) (t_pos t)) (t_pos t) path None = Ok (k, rest)
  /\ bare (st_full st) t path d raw k /\ kn_values k = [].
Proof.
  intros B S. inversion S as [? pos name vals subs d raw F NEG N R C V U A]; subst. cbn [t_pos t_vals t_subs t_name].
  destruct (stored_rest _ _ _ C) as (E & L).
  assert (BR : bytes_ok raw).
  { pose proof (stored_bytes _ _ _ B C) as X. unfold nk_bytes in X.
    repeat (apply bytes_ok_app in X as [? X]). assumption. }
  destruct (stored_name_utf8 _ _ _ BR N) as (NE & SC). rewrite <- compressed_flag in NE.
  destruct (nk_round_trip st d raw (rest_at (fi_buffer fi) (pos + len (nk_bytes d raw))) pos path None _ _ F NE)
    as (k & K0 & K1 & K2 & K3 & K4 & K5 & K6 & K7 & K8 & K9 & K10 & K11 & K12 & K13 & K14 & K15 & K16 & K17).
  rewrite <- E in K0. exists d, raw, k. eexists.
  split; [exact F|]. split; [reflexivity|]. split; [exact V|]. split; [exact U|]. split; [exact A|].
  split; [rewrite get_from_rest by (unfold len in *; lia); reflexivity|].
  split; [unfold nk_bytes in L; revert L; lens; lia|].
  split; [exact SC|]. split; [exact K0|]. split; [|exact K7]. unfold bare. cbn [t_pos t_name].
  repeat (split; [assumption|]). rewrite K9. cbn [N.to_nat repeat]. rewrite app_nil_r. unfold key_flags_warn.
  destruct (_ =? _); [intros []|intros [?|[]]; discriminate].
Qed.
Lemma bare_nsub full t path d raw k : bare full t path d raw k ->
  kd_nsub (kn_detail k) = kd_nsub d /\ kd_sublist (kn_detail k) = kd_sublist d
  /\ kd_nvalues (kn_detail k) = kd_nvalues d /\ kd_vallist (kn_detail k) = kd_vallist d /\ kd_flags (kn_detail k) = kd_flags d.
Proof. intros (_ & _ & _ & -> & _). repeat split. Qed.
Lemma bare_values full t path d raw k vs : bare full t path d raw k -> bare full t path d raw (kn_set_values vs k).
Proof. intros H. exact H. Qed.

Lemma values_load fi st full t path d raw k : bytes_ok (fi_buffer fi) -> fi_hbin fi < 2 ^ 32 -> nk_fits d raw ->
  values_stored fi d (t_vals t) -> bare full t path d raw k -> kn_values k = [] -> 0 < kd_nvalues d ->
  exists vs, read_values fi st None k = Ok (kn_set_values vs k, true) /\ Forall2 value_shown vs (t_vals t)
  /\ Forall (fun v => kv_versions v = []) vs.
Proof.
  intros B H F (NV & V) BK _ P. destruct V as [V|(LE & POS & size & offs & S4 & U & S & VS)].
  { rewrite V in NV. unfold len in NV. cbn in NV. lia. }
  destruct (bare_nsub _ _ _ _ _ _ BK) as (_ & _ & K1 & K2 & _). unfold read_values. rewrite K1, K2.
  pose proof (stored_len _ _ _ S) as SL. rewrite len_app in SL.
  assert (I : (0 < kd_vallist d < 2147483648)%Z).
  { destruct F as (_ & _ & _ & _ & _ & _ & _ & _ & _ & _ & I & _). unfold i32 in I. change (2 ^ 31)%Z with 2147483648%Z in I. lia. }
  assert (IU : i32_as_usize (kd_vallist d) = Z.to_N (kd_vallist d)) by (unfold i32_as_usize; rewrite Z.mod_small by lia; reflexivity).
  rewrite IU. destruct (Z.ltb_spec 0 (kd_vallist d)); [|lia].
  destruct (N.ltb_spec (Z.to_N (kd_vallist d)) (len (fi_buffer fi))); [|lia]. cbn [andb].
  destruct (N.ltb_spec 1048576 (kd_nvalues d)); [lia|].
  assert (LO : len offs = kd_nvalues d).
  { rewrite NV. unfold len. f_equal. clear -VS. induction VS; cbn; congruence. }
  unfold parse_key_values. rewrite IU. unfold w64. change (2 ^ 32) with 4294967296 in H.
  rewrite N.mod_small by lia. rewrite N.add_comm. destruct (stored_from _ _ _ S) as (post & ->).
  assert (SZ : exists x, size = enc 4 x /\ x < 2 ^ 32).
  { exists (le size). split.
    - replace 4%nat with (length size) by (unfold len in S4; lia). symmetry. apply enc_le.
      apply stored_bytes in S; [|exact B]. now apply bytes_ok_app in S as [S _].
    - change (2 ^ 32) with (256 ^ 4). replace 4 with (len size). apply le_bound. apply stored_bytes in S; [|exact B]. now apply bytes_ok_app in S as [S _]. }
  destruct SZ as (x & -> & XB). rewrite <- !app_assoc. rewrite le_u32_enc by exact XB. rewrite <- LO, count_u32 by exact U.
  assert (VL : exists vs, Forall2 (value_read fi st None) offs vs /\ Forall2 value_shown vs (t_vals t)
      /\ Forall (fun v => kv_versions v = []) vs).
  { clear -VS B. induction VS as [|o v os vs V VS (vs' & I1 & I2 & I3)]; [exists []; repeat constructor|].
    destruct (value_load fi st o v B V) as (kv & R & SH & _ & VV & _). exists (kv :: vs').
    repeat split; constructor; assumption. }
  destruct VL as (vs & R & SH & VV). exists vs. rewrite (loop_all _ _ _ _ _ R). cbv beta iota.
  split; [|split; assumption]. rewrite app_nil_r. reflexivity.
Qed.
