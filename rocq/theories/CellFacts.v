(** Proofs about key and value cells. *)
From Verif Require Import Base BaseFacts LayoutSpec LayoutFacts Util UtilSpec UtilText BaseBlock Types
  Value Node CellSpec.

Lemma le_i32_spec z r : i32 z -> le_i32 (enc_i32 z ++ r) = Some (z, r).
Proof.
  intros H. change (enc_i32 z) with (enc 4 (of_i32 z)). apply le_i32_enc.
  unfold i32 in H. change (2 ^ 31)%Z with 2147483648%Z in H. lia.
Qed.
Lemma len_enc_i32 z : len (enc_i32 z) = 4. Proof. unfold enc_i32. now rewrite len_enc. Qed.
Lemma abs_size_eq z : unsigned_abs z = abs_size z. Proof. reflexivity. Qed.

(** Length of what is left, in terms of the parts. *)
Ltac lens := repeat (rewrite len_app || rewrite len_enc || rewrite len_enc_i32 || rewrite len_cons || rewrite len_nil).
Ltac estep := cbv [nom ok_or];
  first [ rewrite le_u32_enc by assumption | rewrite le_u16_enc by assumption
        | rewrite le_u64_enc by assumption | rewrite le_i32_spec by assumption ];
  cbv beta iota.

Definition kd_with_full (t : option (list (N * N))) (d : nk_detail) : nk_detail :=
  mkKD (kd_size d) (kd_flags d) (kd_time d) (kd_access d) (kd_parent d) (kd_nsub d) (kd_nvol d)
    (kd_sublist d) (kd_vollist d) (kd_nvalues d) (kd_vallist d) (kd_security d) (kd_class d)
    (kd_max_name d) (kd_max_class d) (kd_max_value_name d) (kd_max_value_data d) (kd_work d)
    (kd_name_size d) (kd_class_size d) (kd_slack d) t.

Lemma string_total a s : exists t w, string_from_bytes a s (len s) = Ok (t, w).
Proof.
  unfold string_from_bytes. destruct a; [eauto|]. apply utf16_string_total. lia.
Qed.

Lemma nk_round_trip st d name rest off path seq text w : nk_fits d name ->
  string_from_bytes (has_flag (key_flags (kd_flags d)) 0x20) name (len name) = Ok (text, w) ->
  exists k, kn_from_bytes st (nk_bytes d name ++ rest) off path seq = Ok (k, rest)
  /\ kn_detail k = kd_with_full (if st_full st then Some (nk_table d) else None) d
  /\ kn_name k = text /\ kn_path k = path ++ [92] ++ text /\ kn_offset k = off
  /\ kn_state k = Allocated /\ kn_seq k = seq /\ kn_values k = [] /\ kn_filter k = None
  /\ kn_logs k = key_flags_warn (kd_flags d) ++ repeat WarningConversion (N.to_nat w)
  /\ kn_hash k = Some (kn_hash_of st (kd_flags d) (kd_time d) (kd_access d))
  /\ kn_sub_offsets k = [] /\ kn_versions k = [] /\ kn_deleted k = [] /\ kn_updated_by k = None
  /\ kn_to_return k = 0 /\ kn_track k = 0 /\ kn_index k = 0.
Proof.
  intros (F1 & F2 & F3 & F4 & F5 & F6 & F7 & F8 & F9 & F10 & F11 & F12 & F13 & F14 & F15 & F16 & F17
          & F18 & F19 & F20 & NS & SZ) T.
  unfold u16, is_u32, u64 in *. unfold kn_from_bytes.
  assert (LT : len (nk_bytes d name ++ rest) = abs_size (kd_size d) + len rest).
  { unfold nk_bytes. lens. lia. }
  set (input := nk_bytes d name ++ rest) in *. unfold input at 1. unfold nk_bytes. rewrite <- !app_assoc.
  estep.
  match goal with |- context [nk_check_size _ (len ?i + 4)] => set (i1 := i) end.
  assert (L1 : len i1 + 4 = len input). { unfold i1. rewrite LT. lens. lia. }
  unfold nk_check_size. rewrite L1. change unsigned_abs with abs_size.
  destruct (N.leb_spec 72 (abs_size (kd_size d))); [|lia].
  destruct (N.leb_spec (abs_size (kd_size d)) (len input)); [|lia]. cbn [andb negb].
  unfold i1 at 1. change [110; 107] with NK. cbv [nom ok_or]. rewrite tag_app. cbv beta iota.
  do 19 estep. rewrite take_app by assumption. cbv beta iota. rewrite NS, T. cbv beta iota.
  match goal with |- context [parser_eat_remaining ?i ?s ?c] =>
    replace (parser_eat_remaining i s c) with (Some (kd_slack d, rest)) end.
  2:{ unfold parser_eat_remaining. rewrite LT. change unsigned_abs with abs_size.
      replace (abs_size (kd_size d) + len rest - len (kd_slack d ++ rest)) with (80 + len name) by (lens; lia).
      destruct (N.ltb_spec (80 + len name) (abs_size (kd_size d))).
      - rewrite take_app by lia. reflexivity.
      - assert (E : len (kd_slack d) = 0) by lia. apply len_0 in E. now rewrite E. }
  eexists. split; [reflexivity|]. split; [|now repeat split].
  cbn [kn_detail]. unfold kd_with_full. rewrite NS. f_equal.
  destruct (st_full st); [|reflexivity]. unfold nk_table. rewrite NS. f_equal.
  unfold i1. rewrite LT, SZ.
  repeat (rewrite len_app || rewrite len_enc || rewrite len_enc_i32). change (len [110; 107]) with 2.
  repeat (f_equal; [f_equal; lia|]). f_equal. f_equal; lia.
Qed.

Lemma string_total_at a b off n : off + n <= len b ->
  exists t w, string_from_bytes a (bytes_at b off n) n = Ok (t, w).
Proof.
  intros H. assert (E : n = len (bytes_at b off n)) by (rewrite len_bytes_at; lia).
  destruct (string_total a (bytes_at b off n)) as (t & w & H1). rewrite <- E in H1. eauto.
Qed.
Lemma eat_rest b m s : s <= len b -> m <= len b ->
  parser_eat_remaining (rest_at b m) s m = Some (bytes_at b m (s - m), rest_at b (N.max s m)).
Proof.
  intros. unfold parser_eat_remaining. destruct (N.ltb_spec m s).
  - rewrite take_rest by lia. do 3 f_equal. lia.
  - replace (s - m) with 0 by lia. replace (N.max s m) with m by lia. reflexivity.
Qed.
Lemma le_i32_cases b : (4 <= len b /\ le_i32 b = Some (i32_at b 0, rest_at b 4))
  \/ (len b < 4 /\ le_i32 b = None).
Proof.
  destruct (N.le_gt_cases 4 (len b)).
  - left. split; [easy|]. rewrite <- (rest_at_0 b) at 1. rewrite le_i32_rest by lia. reflexivity.
  - right. split; [easy|]. now apply le_i32_short.
Qed.

(** The key read from a buffer, up to its name. *)
Definition kn_at (st : state) (b : list N) (off : N) (path : list N) (seq : option N)
  (name : list N) (w : N) : key_node :=
  {| kn_offset := off; kn_detail := nk_detail_at (st_full st) b; kn_name := name;
     kn_path := path ++ [92] ++ name; kn_state := Allocated; kn_seq := seq; kn_updated_by := None;
     kn_values := [];
     kn_logs := key_flags_warn (num_at b 6 2) ++ repeat WarningConversion (N.to_nat w);
     kn_sub_offsets := [];
     kn_hash := Some (kn_hash_of st (num_at b 6 2) (num_at b 8 8) (num_at b 16 4));
     kn_versions := []; kn_deleted := [];
     kn_to_return := 0; kn_track := 0; kn_filter := None; kn_index := 0 |}.
Definition kn_name_at (b : list N) : res (list N * N) :=
  string_from_bytes (has_flag (key_flags (num_at b 6 2)) 0x20) (bytes_at b 80 (num_at b 76 2)) (num_at b 76 2).

Lemma pos_rest b m : m <= len b -> len b - len (rest_at b m) = m.
Proof. intros. rewrite len_rest_at. lia. Qed.

Lemma kn_read_at st b off path seq : nk_ok b ->
  exists name w, kn_name_at b = Ok (name, w)
  /\ kn_from_bytes st b off path seq = Ok (kn_at st b off path seq name w, rest_at b (nk_end b)).
Proof.
  intros (L & S & T & NS).
  destruct (string_total_at (has_flag (key_flags (num_at b 6 2)) 0x20) b 80 (num_at b 76 2)) as (t & w & E); [lia|].
  exists t, w. split; [exact E|]. unfold kn_from_bytes.
  destruct (le_i32_cases b) as [(_ & H)|(? & _)]; [|lia]. cbv [nom ok_or]. rewrite H. cbv beta iota.
  unfold nk_check_size. change unsigned_abs with abs_size. rewrite len_rest_at.
  destruct (N.leb_spec 72 (abs_size (i32_at b 0))); [|lia].
  destruct (N.leb_spec (abs_size (i32_at b 0)) (len b - 4 + 4)); [|lia]. cbn [andb negb].
  rewrite tag_rest by (change (len NK) with 2; lia). change (len NK) with 2. rewrite T.
  change (beq [110; 107] NK) with true. cbv beta iota. norm_pos. do 20 pstep. rewrite E. cbv beta iota.
  rewrite pos_rest by lia. rewrite eat_rest by lia. cbv beta iota.
  unfold kn_at, nk_detail_at, nk_end. repeat rewrite pos_rest by lia. rewrite N.sub_diag.
  replace (len b - (len b - 4)) with 4 by lia. reflexivity.
Qed.
Lemma kn_reject st b off path seq : ~ nk_ok b -> kn_from_bytes st b off path seq = Err.
Proof.
  intros NO. unfold kn_from_bytes. cbv [nom ok_or].
  destruct (le_i32_cases b) as [(L & H)|(? & H)]; rewrite H; [|easy]. cbv beta iota.
  unfold nk_check_size. change unsigned_abs with abs_size. rewrite len_rest_at.
  destruct (N.leb_spec 72 (abs_size (i32_at b 0))); [|easy].
  destruct (N.leb_spec (abs_size (i32_at b 0)) (len b - 4 + 4)); [|easy]. cbn [andb negb].
  rewrite tag_rest by (change (len NK) with 2; lia). change (len NK) with 2.
  destruct (beq (bytes_at b 4 2) NK) eqn:T; [|easy]. apply beq_eq in T.
  assert (NS : len b < 80 + num_at b 76 2).
  { destruct (N.lt_ge_cases (len b) (80 + num_at b 76 2)); [easy|]. exfalso. apply NO. unfold nk_ok. repeat split; first [assumption|lia]. }
  cbv beta iota. norm_pos. destruct (N.le_gt_cases 80 (len b)) as [L80|L80].
  - do 19 pstep. rewrite take_rest_none by lia. reflexivity.
  - do 16 pstep. assert (R : len (rest_at b 72) < 8) by (rewrite len_rest_at; lia). revert R.
    generalize (rest_at b 72). intros r R.
    do 3 (pcase; [|reflexivity]). lia.
Qed.

Lemma kn_cases st b off path seq :
  (nk_ok b /\ exists name w, kn_name_at b = Ok (name, w)
   /\ kn_from_bytes st b off path seq = Ok (kn_at st b off path seq name w, rest_at b (nk_end b)))
  \/ (~ nk_ok b /\ kn_from_bytes st b off path seq = Err).
Proof.
  assert (D : nk_ok b \/ ~ nk_ok b).
  { unfold nk_ok. destruct (N.le_gt_cases 4 (len b)); [|right; lia].
    destruct (N.le_gt_cases 72 (abs_size (i32_at b 0))); [|right; lia].
    destruct (N.le_gt_cases (abs_size (i32_at b 0)) (len b)); [|right; lia].
    destruct (N.le_gt_cases (80 + num_at b 76 2) (len b)); [|right; lia].
    destruct (list_eq_dec N.eq_dec (bytes_at b 4 2) [110; 107]); [|right; tauto]. left. auto. }
  destruct D as [D|D]; [left|right]; (split; [easy|]); [now apply kn_read_at|now apply kn_reject].
Qed.

(** ** Value cells *)

Definition kv_name_at (b : list N) : res (list N * N) :=
  if num_at b 6 2 =? 0 then Ok ([], 0)
  else string_from_bytes (N.odd (value_flags (num_at b 20 2))) (bytes_at b 24 (num_at b 6 2)) (num_at b 6 2).
Definition kv_at (full : bool) (b : list N) (off : N) (seq : option N) (name : list N) (w : N)
  : key_value :=
  {| kv_offset := off; kv_detail := vk_detail_at full b name;
     kv_type := data_type_of (num_at b 16 4); kv_flags := value_flags (num_at b 20 2);
     kv_data_offsets := []; kv_state := Allocated;
     kv_logs := repeat WarningConversion (N.to_nat w); kv_versions := []; kv_hash := None;
     kv_seq := seq; kv_updated_by := None |}.

Lemma kv_name_total b : 24 + num_at b 6 2 <= len b -> exists t w, kv_name_at b = Ok (t, w).
Proof.
  intros. unfold kv_name_at. destruct (num_at b 6 2 =? 0); [eauto|]. now apply string_total_at.
Qed.
Lemma kv_read_at b off seq full : vk_ok b ->
  exists name w, kv_name_at b = Ok (name, w)
  /\ kv_from_bytes b off seq full = Ok (kv_at full b off seq name w, rest_at b (vk_end b)).
Proof.
  intros (L & S & T & NS). destruct (kv_name_total b NS) as (t & w & E).
  exists t, w. split; [exact E|]. unfold kv_from_bytes.
  destruct (le_i32_cases b) as [(_ & H)|(? & _)]; [|lia]. cbv [nom ok_or]. rewrite H. cbv beta iota.
  unfold vk_check_size. change unsigned_abs with abs_size.
  destruct (N.leb_spec 24 (abs_size (i32_at b 0))); [|lia].
  destruct (N.leb_spec (abs_size (i32_at b 0)) (len b)); [|lia]. cbn [andb negb].
  rewrite tag_rest by (change (len VK) with 2; lia). change (len VK) with 2. rewrite T.
  change (beq [118; 107] VK) with true. cbv beta iota. norm_pos. do 7 pstep.
  fold (kv_name_at b). rewrite E. cbv beta iota.
  rewrite pos_rest by lia. rewrite eat_rest by lia. cbv beta iota.
  unfold kv_at, vk_detail_at, vk_end. repeat rewrite pos_rest by lia. rewrite N.sub_diag. reflexivity.
Qed.
Lemma kv_reject b off seq full : ~ vk_ok b -> kv_from_bytes b off seq full = Err.
Proof.
  intros NO. unfold kv_from_bytes. cbv [nom ok_or].
  destruct (le_i32_cases b) as [(L & H)|(? & H)]; rewrite H; [|easy]. cbv beta iota.
  unfold vk_check_size. change unsigned_abs with abs_size.
  destruct (N.leb_spec 24 (abs_size (i32_at b 0))); [|easy].
  destruct (N.leb_spec (abs_size (i32_at b 0)) (len b)); [|easy]. cbn [andb negb].
  rewrite tag_rest by (change (len VK) with 2; lia). change (len VK) with 2.
  destruct (beq (bytes_at b 4 2) VK) eqn:T; [|easy]. apply beq_eq in T.
  assert (NS : len b < 24 + num_at b 6 2).
  { destruct (N.lt_ge_cases (len b) (24 + num_at b 6 2)); [easy|]. exfalso. apply NO. unfold vk_ok. repeat split; first [assumption|lia]. }
  cbv beta iota. norm_pos. do 6 pstep. rewrite take_rest_none by lia. reflexivity.
Qed.
Lemma kv_cases b off seq full :
  (vk_ok b /\ exists name w, kv_name_at b = Ok (name, w)
   /\ kv_from_bytes b off seq full = Ok (kv_at full b off seq name w, rest_at b (vk_end b)))
  \/ (~ vk_ok b /\ kv_from_bytes b off seq full = Err).
Proof.
  assert (D : vk_ok b \/ ~ vk_ok b).
  { unfold vk_ok. destruct (N.le_gt_cases 4 (len b)); [|right; lia].
    destruct (N.le_gt_cases 24 (abs_size (i32_at b 0))); [|right; lia].
    destruct (N.le_gt_cases (abs_size (i32_at b 0)) (len b)); [|right; lia].
    destruct (N.le_gt_cases (24 + num_at b 6 2) (len b)); [|right; lia].
    destruct (list_eq_dec N.eq_dec (bytes_at b 4 2) [118; 107]); [|right; tauto]. left. auto. }
  destruct D as [D|D]; [left|right]; (split; [easy|]); [now apply kv_read_at|now apply kv_reject].
Qed.

