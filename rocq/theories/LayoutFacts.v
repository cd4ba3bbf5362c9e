(** Reading fields by position. *)
From Verif Require Import Base BaseFacts LayoutSpec.

Lemma skipn_skipn {A} (m n : nat) (l : list A) : skipn m (skipn n l) = skipn (n + m) l.
Proof. revert l. induction n; intros; [easy|]. destruct l; [now rewrite !skipn_nil|apply IHn]. Qed.
Lemma num_at_le b off n : num_at b off n = le (bytes_at b off n).
Proof. reflexivity. Qed.
Lemma rest_rest b m n : rest_at (rest_at b m) n = rest_at b (m + n).
Proof. unfold rest_at. rewrite skipn_skipn. f_equal. lia. Qed.
Lemma rest_at_0 b : rest_at b 0 = b.
Proof. reflexivity. Qed.
Lemma len_rest_at b n : len (rest_at b n) = len b - n.
Proof. apply len_skipn. Qed.
Lemma len_bytes_at b off n : len (bytes_at b off n) = N.min n (len b - off).
Proof. unfold bytes_at. now rewrite len_firstn, len_skipn. Qed.
Lemma bytes_at_rest b m n k : bytes_at (rest_at b m) n k = bytes_at b (m + n) k.
Proof. unfold bytes_at, rest_at. rewrite skipn_skipn. do 2 f_equal. lia. Qed.
Lemma num_at_rest b m n k : num_at (rest_at b m) n k = num_at b (m + n) k.
Proof. unfold num_at. now rewrite bytes_at_rest. Qed.
Lemma i32_at_rest b m n : i32_at (rest_at b m) n = i32_at b (m + n).
Proof. unfold i32_at. now rewrite num_at_rest. Qed.
Lemma bytes_ok_at b off n : bytes_ok b -> bytes_ok (bytes_at b off n).
Proof. intros. now apply bytes_ok_firstn, bytes_ok_skipn. Qed.
Lemma bytes_ok_rest b n : bytes_ok b -> bytes_ok (rest_at b n).
Proof. intros. now apply bytes_ok_skipn. Qed.
Lemma num_at_bound b off n : bytes_ok b -> num_at b off n < 256 ^ n.
Proof.
  intros. rewrite num_at_le. eapply N.lt_le_trans; [apply le_bound, bytes_ok_at, H|].
  apply N.pow_le_mono_r; [easy|]. rewrite len_bytes_at. lia.
Qed.

Lemma take_rest b m k : m + k <= len b -> take k (rest_at b m) = Some (bytes_at b m k, rest_at b (m + k)).
Proof.
  intros. unfold take. rewrite len_rest_at. destruct (N.leb_spec k (len b - m)); [|lia].
  f_equal. f_equal. unfold rest_at. rewrite skipn_skipn. f_equal. lia.
Qed.
Lemma le_u16_rest b m : m + 2 <= len b -> le_u16 (rest_at b m) = Some (num_at b m 2, rest_at b (m + 2)).
Proof. intros. unfold le_u16. now rewrite take_rest. Qed.
Lemma le_u32_rest b m : m + 4 <= len b -> le_u32 (rest_at b m) = Some (num_at b m 4, rest_at b (m + 4)).
Proof. intros. unfold le_u32. now rewrite take_rest. Qed.
Lemma le_u64_rest b m : m + 8 <= len b -> le_u64 (rest_at b m) = Some (num_at b m 8, rest_at b (m + 8)).
Proof. intros. unfold le_u64. now rewrite take_rest. Qed.
Lemma to_i32_at b m : to_i32 (num_at b m 4) = i32_at b m.
Proof.
  unfold to_i32, i32_at. change (2 ^ 31)%Z with 2147483648%Z. change (2 ^ 32)%Z with 4294967296%Z.
  destruct (N.ltb_spec (num_at b m 4) 2147483648), (Z.ltb_spec (Z.of_N (num_at b m 4)) 2147483648); lia.
Qed.
Lemma le_i32_rest b m : m + 4 <= len b -> le_i32 (rest_at b m) = Some (i32_at b m, rest_at b (m + 4)).
Proof. intros. unfold le_i32. rewrite take_rest by easy. now rewrite <- to_i32_at, num_at_le. Qed.
Lemma tag_rest b m t : m + len t <= len b ->
  tag t (rest_at b m) = if beq (bytes_at b m (len t)) t then Some (t, rest_at b (m + len t)) else None.
Proof.
  intros. unfold tag. rewrite take_rest by easy.
  destruct (beq (bytes_at b m (len t)) t) eqn:E; [|easy]. apply beq_eq in E. now rewrite E.
Qed.
Lemma take_rest_none b m k : len b < m + k -> 0 < k -> take k (rest_at b m) = None.
Proof. intros. apply take_short. rewrite len_rest_at. lia. Qed.
Lemma le_u16_short i : len i < 2 -> le_u16 i = None.
Proof. intros. unfold le_u16. now rewrite take_short. Qed.
Lemma le_u32_short i : len i < 4 -> le_u32 i = None.
Proof. intros. unfold le_u32. now rewrite take_short. Qed.
Lemma le_u64_short i : len i < 8 -> le_u64 i = None.
Proof. intros. unfold le_u64. now rewrite take_short. Qed.
Lemma le_i32_short i : len i < 4 -> le_i32 i = None.
Proof. intros. unfold le_i32. now rewrite take_short. Qed.
Lemma tag_short t i : len i < len t -> tag t i = None.
Proof. intros. unfold tag. now rewrite take_short. Qed.
Lemma get_from_rest b n : n <= len b -> get_from b n = Some (rest_at b n).
Proof. intros. unfold get_from. destruct (N.leb_spec n (len b)); [easy|lia]. Qed.
Lemma get_from_none {A} (b : list A) n : len b < n -> get_from b n = None.
Proof. intros. unfold get_from. destruct (N.leb_spec n (len b)); [lia|easy]. Qed.
Lemma get_range_at b x y : x <= y -> y <= len b -> get_range b x y = Some (bytes_at b x (y - x)).
Proof.
  intros. unfold get_range. destruct (N.leb_spec x y); [|lia].
  destruct (N.leb_spec y (len b)); [|lia]. reflexivity.
Qed.
Lemma get_range_none {A} (b : list A) x y : y < x \/ len b < y -> get_range b x y = None.
Proof.
  intros. unfold get_range. destruct (N.leb_spec x y); [|easy].
  destruct (N.leb_spec y (len b)); [lia|easy].
Qed.

(** Compute sums of literals in positions. *)
Ltac norm_pos := repeat match goal with
  | |- context [rest_at ?b (?x + ?y)] =>
      let v := eval vm_compute in (x + y) in
      match v with N0 => idtac | Npos _ => idtac end; change (rest_at b (x + y)) with (rest_at b v)
  end.
(** Step a parser over a buffer known to be long enough. *)
Ltac pstep := cbv [nom ok_or];
  first [ rewrite le_u32_rest by lia | rewrite le_u16_rest by lia | rewrite le_i32_rest by lia
        | rewrite le_u64_rest by lia | rewrite take_rest by lia ];
  cbv beta iota; norm_pos.

(** What a successful step consumed. *)
Lemma take_len k i a r : take k i = Some (a, r) -> len i = k + len r.
Proof. intros H. apply take_some in H as [-> <-]. apply len_app. Qed.
Lemma le_u16_len i x r : le_u16 i = Some (x, r) -> len i = 2 + len r.
Proof. unfold le_u16. destruct (take 2 i) as [[a b]|] eqn:E; [|easy]. intros [= <- <-]. now apply take_len in E. Qed.
Lemma le_u32_len i x r : le_u32 i = Some (x, r) -> len i = 4 + len r.
Proof. unfold le_u32. destruct (take 4 i) as [[a b]|] eqn:E; [|easy]. intros [= <- <-]. now apply take_len in E. Qed.
Lemma le_u64_len i x r : le_u64 i = Some (x, r) -> len i = 8 + len r.
Proof. unfold le_u64. destruct (take 8 i) as [[a b]|] eqn:E; [|easy]. intros [= <- <-]. now apply take_len in E. Qed.
Lemma le_i32_len i x r : le_i32 i = Some (x, r) -> len i = 4 + len r.
Proof. unfold le_i32. destruct (take 4 i) as [[a b]|] eqn:E; [|easy]. intros [= <- <-]. now apply take_len in E. Qed.
Lemma tag_len t i x r : tag t i = Some (x, r) -> len i = len t + len r.
Proof. intros H. apply tag_some in H as [-> _]. apply len_app. Qed.

(** Case analysis on the next parser step of the goal; the failing branch is
    left first. *)
Ltac pcase := cbv [nom ok_or];
  match goal with
  | |- context [match match le_u32 ?i with _ => _ end with _ => _ end] =>
      let E := fresh "E" in destruct (le_u32 i) as [[? ?]|] eqn:E; [apply le_u32_len in E|]
  | |- context [match match le_u16 ?i with _ => _ end with _ => _ end] =>
      let E := fresh "E" in destruct (le_u16 i) as [[? ?]|] eqn:E; [apply le_u16_len in E|]
  | |- context [match match le_u64 ?i with _ => _ end with _ => _ end] =>
      let E := fresh "E" in destruct (le_u64 i) as [[? ?]|] eqn:E; [apply le_u64_len in E|]
  | |- context [match match le_i32 ?i with _ => _ end with _ => _ end] =>
      let E := fresh "E" in destruct (le_i32 i) as [[? ?]|] eqn:E; [apply le_i32_len in E|]
  | |- context [match match take ?k ?i with _ => _ end with _ => _ end] =>
      let E := fresh "E" in destruct (take k i) as [[? ?]|] eqn:E; [apply take_len in E|]
  end; cbv beta iota.
