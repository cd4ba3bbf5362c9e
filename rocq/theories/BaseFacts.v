(** General lemmas about Base. *)
From Verif Require Import Base.

Arguments N.add : simpl never.
Arguments N.mul : simpl never.
Arguments N.sub : simpl never.
Arguments N.div : simpl never.
Arguments N.modulo : simpl never.
Arguments N.leb : simpl never.
Arguments N.ltb : simpl never.
Arguments N.eqb : simpl never.
Arguments N.to_nat : simpl never.
Arguments N.of_nat : simpl never.
Arguments N.land : simpl never.
Arguments N.lor : simpl never.
Arguments N.shiftl : simpl never.
Arguments N.shiftr : simpl never.

Ltac dlia := lia.

Lemma len_nil {A} : len (@nil A) = 0.
Proof. reflexivity. Qed.
Lemma len_cons {A} (x : A) l : len (x :: l) = len l + 1.
Proof. unfold len. cbn [length]. lia. Qed.
Lemma len_app {A} (a b : list A) : len (a ++ b) = len a + len b.
Proof. unfold len. rewrite app_length. lia. Qed.
Lemma len_map {A B} (f : A -> B) l : len (map f l) = len l.
Proof. unfold len. now rewrite map_length. Qed.
Lemma len_rev {A} (l : list A) : len (rev l) = len l.
Proof. unfold len. now rewrite rev_length. Qed.
Lemma to_nat_len {A} (l : list A) : N.to_nat (len l) = length l.
Proof. unfold len. lia. Qed.
Lemma len_firstn {A} n (l : list A) : len (firstn (N.to_nat n) l) = N.min n (len l).
Proof. unfold len. rewrite firstn_length. lia. Qed.
Lemma len_skipn {A} n (l : list A) : len (skipn (N.to_nat n) l) = len l - n.
Proof. unfold len. rewrite skipn_length. lia. Qed.
Lemma len_repeat {A} (x : A) n : len (repeat x n) = N.of_nat n.
Proof. unfold len. now rewrite repeat_length. Qed.
Lemma len_0 {A} (l : list A) : len l = 0 -> l = [].
Proof. destruct l; [easy|]. rewrite len_cons. lia. Qed.

(** Normalise lengths. *)
Ltac nil_len := repeat match goal with
  | |- context [@len ?A (@nil ?A)] => change (@len A (@nil A)) with 0
  | H : context [@len ?A (@nil ?A)] |- _ => change (@len A (@nil A)) with 0 in H
  end.
Ltac lens := repeat rewrite ?len_app, ?len_cons, ?len_map, ?len_rev; nil_len.
Ltac lens_in H := repeat rewrite ?len_app, ?len_cons, ?len_map, ?len_rev in H; nil_len.

Lemma firstn_app_len {A} (a b : list A) n : n = len a -> firstn (N.to_nat n) (a ++ b) = a.
Proof.
  intros ->. rewrite to_nat_len, firstn_app, Nat.sub_diag.
  cbn [firstn]. now rewrite app_nil_r, firstn_all.
Qed.
Lemma skipn_app_len {A} (a b : list A) n : n = len a -> skipn (N.to_nat n) (a ++ b) = b.
Proof.
  intros ->. rewrite to_nat_len, skipn_app, Nat.sub_diag, skipn_all.
  reflexivity.
Qed.
Lemma firstn_len_all {A} (l : list A) n : len l <= n -> firstn (N.to_nat n) l = l.
Proof. intros. apply firstn_all2. unfold len in *. lia. Qed.

Lemma get_from_app {A} (a b : list A) n : n = len a -> get_from (a ++ b) n = Some b.
Proof.
  intros ->. unfold get_from. rewrite len_app.
  destruct (N.leb_spec (len a) (len a + len b)); [|lia].
  now rewrite skipn_app_len.
Qed.
Lemma get_from_some {A} (l r : list A) n :
  get_from l n = Some r -> n <= len l /\ r = skipn (N.to_nat n) l /\ len r = len l - n
    /\ l = firstn (N.to_nat n) l ++ r.
Proof.
  unfold get_from. destruct (N.leb_spec n (len l)); [|discriminate].
  intros [= <-]. rewrite len_skipn, firstn_skipn. auto.
Qed.
Lemma get_range_app {A} (a b c : list A) x y :
  x = len a -> y = len a + len b -> get_range (a ++ b ++ c) x y = Some b.
Proof.
  intros -> ->. unfold get_range. rewrite !len_app.
  destruct (N.leb_spec (len a) (len a + len b)); [|lia].
  destruct (N.leb_spec (len a + len b) (len a + (len b + len c))); [|lia].
  cbn [andb]. rewrite skipn_app_len by reflexivity.
  rewrite firstn_app_len by lia. reflexivity.
Qed.
Lemma get_range_some {A} (l r : list A) x y :
  get_range l x y = Some r -> x <= y /\ y <= len l /\ len r = y - x
    /\ r = firstn (N.to_nat (y - x)) (skipn (N.to_nat x) l).
Proof.
  unfold get_range. destruct (N.leb_spec x y); [|discriminate].
  destruct (N.leb_spec y (len l)); [|discriminate].
  cbn [andb]. intros [= <-]. rewrite len_firstn, len_skipn. repeat split; lia.
Qed.
Lemma get_at_app {A} (a : list A) x b n : n = len a -> get_at (a ++ x :: b) n = Some x.
Proof.
  intros ->. unfold get_at. rewrite len_app, len_cons.
  destruct (N.ltb_spec (len a) (len a + (len b + 1))); [|lia].
  rewrite to_nat_len, nth_error_app2, Nat.sub_diag by lia. reflexivity.
Qed.
Lemma get_at_nth {A} (l : list A) n : get_at l n = nth_error l (N.to_nat n).
Proof.
  unfold get_at. destruct (N.ltb_spec n (len l)); [reflexivity|].
  symmetry. apply nth_error_None. unfold len in *. lia.
Qed.
Lemma get_at_lt {A} (l : list A) n x : get_at l n = Some x -> n < len l.
Proof. unfold get_at. destruct (N.ltb_spec n (len l)); easy. Qed.
Lemma get_at_ex {A} (l : list A) n : n < len l -> exists x, get_at l n = Some x.
Proof.
  intros H. rewrite get_at_nth. destruct (nth_error l (N.to_nat n)) eqn:E; [eauto|].
  apply nth_error_None in E. unfold len in H. lia.
Qed.

(** Little-endian codec. *)
Lemma enc_length k n : length (enc k n) = k.
Proof. revert n. induction k; intros; cbn; [easy|]. now rewrite IHk. Qed.
Lemma len_enc k n : len (enc k n) = N.of_nat k.
Proof. unfold len. now rewrite enc_length. Qed.
Lemma enc_bytes k n : bytes_ok (enc k n).
Proof.
  revert n. induction k; intros; cbn; constructor; [|apply IHk].
  red. apply N.mod_upper_bound. easy.
Qed.
Lemma le_cons b l : le (b :: l) = b + 256 * le l.
Proof. reflexivity. Qed.
Lemma le_enc_mod k n : le (enc k n) = n mod (256 ^ N.of_nat k).
Proof.
  revert n. induction k; intros.
  - cbn. now rewrite N.mod_1_r.
  - cbn [enc]. rewrite le_cons, IHk.
    replace (N.of_nat (S k)) with (N.succ (N.of_nat k)) by lia.
    rewrite N.pow_succ_r'.
    rewrite N.mod_mul_r by (try easy; apply N.pow_nonzero; easy). reflexivity.
Qed.
Lemma le_enc k n : n < 256 ^ N.of_nat k -> le (enc k n) = n.
Proof. intros. rewrite le_enc_mod. now apply N.mod_small. Qed.
Lemma le_bound l : bytes_ok l -> le l < 256 ^ len l.
Proof.
  induction 1 as [|b l Hb Hl IH].
  - cbn. lia.
  - rewrite le_cons, len_cons, N.add_1_r, N.pow_succ_r'. red in Hb. lia.
Qed.
Lemma enc_le l : bytes_ok l -> enc (length l) (le l) = l.
Proof.
  induction 1 as [|b l Hb Hl IH]; [reflexivity|].
  cbn [length enc]. rewrite le_cons. red in Hb. f_equal; [dlia|].
  transitivity (enc (length l) (le l)); [f_equal; lia|exact IH].
Qed.
Lemma le_inj a b : bytes_ok a -> bytes_ok b -> length a = length b -> le a = le b -> a = b.
Proof. intros Ha Hb L E. rewrite <- (enc_le a Ha), <- (enc_le b Hb). now rewrite L, E. Qed.

(** Parsers. *)
Lemma take_app a b n : n = len a -> take n (a ++ b) = Some (a, b).
Proof.
  intros ->. unfold take. rewrite len_app.
  destruct (N.leb_spec (len a) (len a + len b)); [|lia].
  now rewrite firstn_app_len, skipn_app_len.
Qed.
Lemma take_some n i a r : take n i = Some (a, r) -> i = a ++ r /\ len a = n.
Proof.
  unfold take. destruct (N.leb_spec n (len i)); [|discriminate].
  intros [= <- <-]. rewrite firstn_skipn, len_firstn. split; [easy|lia].
Qed.
Lemma take_none n i : take n i = None -> len i < n.
Proof. unfold take. destruct (N.leb_spec n (len i)); easy. Qed.
Lemma take_short n i : len i < n -> take n i = None.
Proof. unfold take. destruct (N.leb_spec n (len i)); [lia|easy]. Qed.
Lemma take_exists n i : n <= len i -> exists a r, take n i = Some (a, r).
Proof. intros. unfold take. destruct (N.leb_spec n (len i)); [eauto|lia]. Qed.

Lemma le_u16_enc n r : n < 65536 -> le_u16 (enc 2 n ++ r) = Some (n, r).
Proof. intros. unfold le_u16. rewrite take_app by now rewrite len_enc. now rewrite le_enc. Qed.
Lemma le_u32_enc n r : n < 4294967296 -> le_u32 (enc 4 n ++ r) = Some (n, r).
Proof. intros. unfold le_u32. rewrite take_app by now rewrite len_enc. now rewrite le_enc. Qed.
Lemma le_u64_enc n r : n < 18446744073709551616 -> le_u64 (enc 8 n ++ r) = Some (n, r).
Proof. intros. unfold le_u64. rewrite take_app by now rewrite len_enc. now rewrite le_enc. Qed.
Lemma of_i32_bound z : of_i32 z < 4294967296.
Proof. unfold of_i32. pose proof (Z.mod_pos_bound z 4294967296). lia. Qed.
Lemma to_of_i32 z : (-2147483648 <= z < 2147483648)%Z -> to_i32 (of_i32 z) = z.
Proof.
  intros. unfold to_i32, of_i32.
  destruct (N.ltb_spec (Z.to_N (z mod 4294967296)) 2147483648); dlia.
Qed.
Lemma le_i32_enc z r : (-2147483648 <= z < 2147483648)%Z ->
  le_i32 (enc 4 (of_i32 z) ++ r) = Some (z, r).
Proof.
  intros. unfold le_i32. rewrite take_app by now rewrite len_enc.
  rewrite le_enc by apply of_i32_bound. now rewrite to_of_i32.
Qed.

Lemma beq_refl a : beq a a = true.
Proof. induction a; cbn; [easy|]. now rewrite N.eqb_refl. Qed.
Lemma beq_eq a b : beq a b = true <-> a = b.
Proof.
  split; [|intros ->; apply beq_refl].
  revert b. induction a; destruct b; cbn; try easy.
  intros H. apply andb_prop in H as [H1 H2]. apply N.eqb_eq in H1. f_equal; auto.
Qed.
Lemma beq_neq a b : beq a b = false <-> a <> b.
Proof. rewrite <- beq_eq. destruct (beq a b); split; congruence. Qed.
Lemma tag_app t r : tag t (t ++ r) = Some (t, r).
Proof. unfold tag. rewrite take_app by easy. now rewrite beq_refl. Qed.
Lemma tag_some t i b r : tag t i = Some (b, r) -> i = t ++ r /\ b = t.
Proof.
  unfold tag. destruct (take (len t) i) as [[b' r']|] eqn:E; [|discriminate].
  destruct (beq b' t) eqn:F; [|discriminate]. intros [= <- <-].
  apply take_some in E as [-> _]. apply beq_eq in F. now subst.
Qed.

(** [bytes_ok] closure. *)
Lemma bytes_ok_app a b : bytes_ok (a ++ b) <-> bytes_ok a /\ bytes_ok b.
Proof. apply Forall_app. Qed.
Lemma bytes_ok_firstn n l : bytes_ok l -> bytes_ok (firstn n l).
Proof.
  intros H. apply Forall_forall. intros x Hx. eapply Forall_forall; [apply H|].
  rewrite <- (firstn_skipn n l). apply in_or_app. now left.
Qed.
Lemma bytes_ok_skipn n l : bytes_ok l -> bytes_ok (skipn n l).
Proof.
  intros H. apply Forall_forall. intros x Hx. eapply Forall_forall; [apply H|].
  rewrite <- (firstn_skipn n l). apply in_or_app. now right.
Qed.
