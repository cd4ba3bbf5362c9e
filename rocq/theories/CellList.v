(** Proofs about sub-key lists and security cells. *)
From Verif Require Import Base BaseFacts LayoutSpec LayoutFacts Util Types Value Node CellSpec CellFacts
  CellData.

(** ** Fuel *)
Notation psl := parse_sub_key_list.

(** The loop over the entries of an index root. *)
Fixpoint each_list (f : N -> res (list N)) (items : list N) : res (list N) :=
  match items with
  | [] => Ok []
  | o :: r => let* a := f o in let* b := each_list f r in Ok (a ++ b)
  end.
(** What is at a list offset: entries of an index root, or a final answer. *)
Definition list_at (fi : file_info) (o : N) : list N + res (list N) :=
  match get_from (fi_buffer fi) (o + fi_hbin fi) with
  | None => inr Err
  | Some slice =>
      match ri_from_bytes slice with
      | Some items => inl items
      | None =>
          inr match lf_offsets (fi_hbin fi) slice with
              | Some l => Ok l
              | None =>
                  match lh_offsets (fi_hbin fi) slice with
                  | Some l => Ok l
                  | None => ok_or (li_offsets (fi_hbin fi) slice)
                  end
              end
      end
  end.
Lemma psl_step n fi o : psl (S n) fi o =
  match list_at fi o with inl items => each_list (psl n fi) items | inr r => r end.
Proof.
  unfold list_at. cbn [parse_sub_key_list]. unfold ok_or at 1.
  destruct (get_from _ _) as [slice|]; [|easy]. cbv beta iota.
  destruct (ri_from_bytes slice) as [items|]; [|easy].
  induction items as [|i r IH]; [easy|]. cbn [each_list]. now rewrite <- IH.
Qed.
Lemma list_at_final fi o r : list_at fi o = inr r -> r <> OutOfFuel.
Proof.
  unfold list_at. destruct (get_from _ _); [|now intros [= <-]]. destruct (ri_from_bytes _); [easy|].
  intros [= <-]. destruct (lf_offsets _ _); [easy|]. destruct (lh_offsets _ _); [easy|].
  now destruct (li_offsets _ _).
Qed.

Lemma each_mono (f g : N -> res (list N)) items : (forall o, f o <> OutOfFuel -> g o = f o) ->
  each_list f items <> OutOfFuel -> each_list g items = each_list f items.
Proof.
  intros M. induction items as [|o r IH]; [easy|]. cbn [each_list]. intros H.
  rewrite (M o). 2:{ intros E. rewrite E in H. now apply H. }
  destruct (f o); try easy. rewrite IH; [easy|]. intros E. rewrite E in H. now apply H.
Qed.
Lemma psl_mono fi : forall n m o, (n <= m)%nat -> psl n fi o <> OutOfFuel -> psl m fi o = psl n fi o.
Proof.
  induction n as [|n IH]; intros m o L H; [now exfalso|].
  destruct m as [|m]; [lia|]. rewrite !psl_step in *. destruct (list_at fi o) as [items|r]; [|easy].
  apply each_mono; [|easy]. intros o' H'. apply IH; [lia|easy].
Qed.

(** A call that needs all its fuel makes one that needs all the rest. *)
Lemma each_needs (f g : N -> res (list N)) items : (forall o, f o <> OutOfFuel -> g o = f o) ->
  each_list f items = OutOfFuel -> each_list g items <> OutOfFuel ->
  exists o, In o items /\ f o = OutOfFuel /\ g o <> OutOfFuel.
Proof.
  intros M. induction items as [|o r IH]; [easy|]. cbn [each_list]. intros F G.
  destruct (f o) eqn:E.
  - rewrite (M o) in G by now rewrite E. rewrite E in G.
    destruct (each_list f r) eqn:E2; try easy.
    destruct IH as (o' & I & A); [easy| |exists o'; split; [now right|easy]].
    intros E3. rewrite E3 in G. now apply G.
  - easy.
  - easy.
  - exists o. split; [now left|]. split; [easy|]. intros E3. rewrite E3 in G. now apply G.
Qed.

Definition needs fi (n : nat) o := psl n fi o <> OutOfFuel /\ psl (pred n) fi o = OutOfFuel /\ (0 < n)%nat.
Lemma needs_down fi n o : needs fi (S (S n)) o ->
  o <= len (fi_buffer fi) /\ exists o', needs fi (S n) o'.
Proof.
  intros (A & B & _). cbn [pred] in B. rewrite psl_step in A, B. split.
  - unfold list_at in B. destruct (get_from _ _) as [s|] eqn:E; [|easy].
    apply get_from_some in E as [E _]. lia.
  - destruct (list_at fi o) as [items|r] eqn:LA; [|now apply list_at_final in LA].
    destruct (each_needs (psl n fi) (psl (S n) fi) items) as (o' & _ & X & Y); [|easy|easy|].
    + intros o' H. apply psl_mono; [lia|easy].
    + exists o'. split; [easy|]. split; [easy|lia].
Qed.
Lemma needs_unique fi n m o : needs fi n o -> needs fi m o -> n = m.
Proof.
  intros (A & B & C) (D & E & F).
  destruct (Nat.lt_trichotomy n m) as [L|[L|L]]; [|easy|]; exfalso.
  - apply A. rewrite <- (psl_mono fi n (pred m) o) by (easy || lia). easy.
  - apply D. rewrite <- (psl_mono fi m (pred n) o) by (easy || lia). easy.
Qed.
Lemma needs_chain fi : forall n o, needs fi (S n) o ->
  exists l, length l = n /\ NoDup l /\ (forall x, In x l -> x <= len (fi_buffer fi))
  /\ (forall x, In x l -> exists m, (2 <= m <= S n)%nat /\ needs fi m x).
Proof.
  induction n as [|n IH]; intros o H.
  - exists []. repeat split; [constructor|easy|easy].
  - destruct (needs_down fi n o H) as (B & o' & H').
    destruct (IH o' H') as (l & L & ND & BL & NL). exists (o :: l). split; [cbn; lia|]. split; [|split].
    + constructor; [|easy]. intros I. destruct (NL o I) as (m & Lm & Hm).
      assert (E := needs_unique _ _ _ _ H Hm). lia.
    + intros x [<-|I]; [easy|now apply BL].
    + intros x [<-|I]; [exists (S (S n)); split; [lia|easy]|].
      destruct (NL x I) as (m & Lm & Hm). exists m. split; [lia|easy].
Qed.
Lemma nodup_bound (l : list N) B : NoDup l -> (forall x, In x l -> x <= B) -> (length l <= S (N.to_nat B))%nat.
Proof.
  intros ND H.
  assert (I : incl (map N.to_nat l) (seq 0 (S (N.to_nat B)))).
  { intros y Y. apply in_map_iff in Y as (x & <- & X). apply in_seq. specialize (H x X). lia. }
  assert (ND' : NoDup (map N.to_nat l)).
  { clear H I. induction ND as [|x l NI ND IH]; cbn; constructor; [|easy].
    intros M. apply in_map_iff in M as (y & E & Y). apply N2Nat.inj in E. now subst. }
  pose proof (NoDup_incl_length ND' I) as G. now rewrite map_length, seq_length in G.
Qed.
(** [list_fuel] is enough whenever any amount is. *)
Lemma list_fuel_enough fi o n : psl n fi o <> OutOfFuel -> psl (list_fuel fi) fi o = psl n fi o.
Proof.
  intros H. destruct (Nat.le_gt_cases n (list_fuel fi)) as [L|L]; [now apply psl_mono|].
  destruct (psl (list_fuel fi) fi o) eqn:E; try (rewrite <- E; symmetry; apply psl_mono; [lia|now rewrite E]).
  exfalso.
  (* the least sufficient fuel *)
  assert (EX : exists m, (list_fuel fi < m)%nat /\ needs fi m o).
  { clear L. induction n as [|n IH]; [now exfalso|].
    destruct (psl n fi o) eqn:P; try (apply IH; congruence).
    exists (S n). split; [|split; [easy|split; [easy|lia]]].
    destruct (Nat.lt_ge_cases (list_fuel fi) (S n)); [easy|]. exfalso.
    pose proof (psl_mono fi (S n) (list_fuel fi) o ltac:(lia) H). congruence. }
  destruct EX as (m & Lm & Hm). destruct m as [|m]; [lia|].
  destruct (needs_chain fi m o Hm) as (l & Ll & ND & B & _).
  pose proof (nodup_bound l _ ND B). unfold list_fuel in *. rewrite to_nat_len in *. lia.
Qed.

(** ** Well-formed lists *)
Lemma header_ok sig size n r : len sig = 2 -> i32 size -> u16 n ->
  list_header sig (enc_i32 size ++ sig ++ enc 2 n ++ r) = Some (n, r).
Proof.
  intros S I U. unfold list_header. rewrite le_i32_spec by easy. rewrite tag_app. now apply le_u16_enc.
Qed.
Lemma header_other sig sig' size r : len sig = 2 -> len sig' = 2 -> sig <> sig' -> i32 size ->
  list_header sig (enc_i32 size ++ sig' ++ r) = None.
Proof.
  intros S S' NE I. unfold list_header. rewrite le_i32_spec by easy. unfold tag. rewrite S.
  rewrite take_app by easy. destruct (beq sig' sig) eqn:E; [|easy]. apply beq_eq in E. now subst.
Qed.
Lemma sum32_small fi x : x + fi_hbin fi < 2 ^ 32 -> w32 (x + w32 (fi_hbin fi)) = fi_hbin fi + x
  /\ x + w32 (fi_hbin fi) <? 4294967296 = true /\ w32 (fi_hbin fi) = fi_hbin fi /\ x < 2 ^ 32.
Proof.
  change (2 ^ 32) with 4294967296. intros H. unfold w32.
  rewrite (N.mod_small (fi_hbin fi)) by lia. rewrite N.mod_small by lia. repeat split; try lia.
Qed.

Section Items.
  Context (fi : file_info) (items : list (N * list N)).
  Hypothesis F : Forall (fun x => fst x + fi_hbin fi < 2 ^ 32 /\ len (snd x) = 4) items.
  Lemma count_pairs (p : list N -> option (N * list N)) r :
    (forall o s r, o < 2 ^ 32 -> len s = 4 -> p (enc 4 o ++ s ++ r) = Some (o, r)) ->
    count p (len items) (flat_map (fun x => enc 4 (fst x) ++ snd x) items ++ r)
    = Some (map fst items, r).
  Proof.
    intros P.
    pose (p2 := fun i : list N => match p i with Some (o, r) => Some ((o, bytes_at i 4 4), r) | None => None end).
    assert (C : count p2 (len items) (flat_map (fun x => enc 4 (fst x) ++ snd x) items ++ r) = Some (items, r)).
    { apply count_flat_map; [|intros; discriminate]. intros (o & s) r' I. rewrite Forall_forall in F.
      destruct (F _ I) as (A & B). cbn [fst snd] in *. unfold p2. rewrite <- app_assoc, P; [|now apply (sum32_small fi)|easy].
      do 3 f_equal. unfold bytes_at. rewrite skipn_app_len by now rewrite len_enc. now apply firstn_app_len. }
    revert C. unfold count. destruct (_ <=? _); [|easy].
    generalize (flat_map (fun x => enc 4 (fst x) ++ snd x) items ++ r). generalize (N.to_nat (len items)).
    generalize items as l. clear F.
    intros l n. revert l. induction n as [|n IH]; intros l i; cbn [count_nat].
    - now intros [= <- <-].
    - unfold p2 at 1. destruct (p i) as [[o i']|]; [|easy].
      destruct (count_nat p2 n i') as [[xs i'']|] eqn:E; [|easy]. intros [= <- <-].
      now rewrite (IH _ _ E).
  Qed.
End Items.
Lemma lf_item_ok o s r : o < 2 ^ 32 -> len s = 4 -> lf_item (enc 4 o ++ s ++ r) = Some (o, r).
Proof. intros A B. unfold lf_item. rewrite le_u32_enc by easy. now rewrite take_app by easy. Qed.
Lemma lh_item_ok o s r : o < 2 ^ 32 -> len s = 4 -> lh_item (enc 4 o ++ s ++ r) = Some (o, r).
Proof. intros A B. unfold lh_item. rewrite le_u32_enc by easy. unfold le_u32. now rewrite take_app by easy. Qed.

Scheme key_list_ind2 := Minimality for key_list Sort Prop
  with key_lists_ind2 := Minimality for key_lists Sort Prop.
Combined Scheme key_list_both from key_list_ind2, key_lists_ind2.

Lemma lists_parse fi :
  (forall o ks, key_list fi o ks -> exists n, psl n fi o = Ok ks)
  /\ (forall os ks, key_lists fi os ks -> exists n, each_list (psl n fi) os = Ok ks).
Proof.
  apply key_list_both.
  - intros off size items I U F S. exists 1%nat. rewrite psl_step. unfold list_at.
    rewrite N.add_comm. destruct (stored_from _ _ _ S) as (post & ->). rewrite <- !app_assoc.
    unfold ri_from_bytes. change [108; 102] with LF. rewrite header_other by easy.
    unfold lf_offsets. rewrite header_ok by easy. rewrite (count_pairs fi items F lf_item) by apply lf_item_ok.
    f_equal. rewrite map_map. apply map_ext_in. intros x X. rewrite Forall_forall in F. now apply sum32_small, F.
  - intros off size items I U F S. exists 1%nat. rewrite psl_step. unfold list_at.
    rewrite N.add_comm. destruct (stored_from _ _ _ S) as (post & ->). rewrite <- !app_assoc.
    unfold ri_from_bytes. change [108; 104] with LH. rewrite header_other by easy.
    unfold lf_offsets. rewrite header_other by easy.
    unfold lh_offsets. rewrite header_ok by easy. rewrite (count_pairs fi items F lh_item) by apply lh_item_ok.
    f_equal. rewrite flat_map_concat_map, map_map, <- flat_map_concat_map. clear S U.
    induction F as [|x l (X & _) F IH]; [easy|]. cbn [flat_map map].
    destruct (sum32_small fi _ X) as (_ & B & W & _). rewrite B. cbn [app]. rewrite IH. f_equal. lia.
  - intros off size items I U F S. exists 1%nat. rewrite psl_step. unfold list_at.
    rewrite N.add_comm. destruct (stored_from _ _ _ S) as (post & ->). rewrite <- !app_assoc.
    unfold ri_from_bytes. change [108; 105] with LI. rewrite header_other by easy.
    unfold lf_offsets. rewrite header_other by easy.
    unfold lh_offsets. rewrite header_other by easy.
    unfold li_offsets. rewrite header_ok by easy. rewrite count_u32.
    2:{ eapply Forall_impl; [|exact F]. intros x X. now apply (sum32_small fi). }
    cbn [ok_or]. f_equal. apply map_ext_in. intros x X. rewrite Forall_forall in F. now apply sum32_small, F.
  - intros off size subs keys I U F S _ (n & IH). exists (Datatypes.S n). rewrite psl_step. unfold list_at.
    rewrite N.add_comm. destruct (stored_from _ _ _ S) as (post & ->). rewrite <- !app_assoc.
    unfold ri_from_bytes. change [114; 105] with RI. rewrite header_ok by easy. now rewrite count_u32.
  - now exists 0%nat.
  - intros o os ks kss _ (n & A) _ (m & B). exists (Nat.max n m). cbn [each_list].
    rewrite (psl_mono fi n) by (lia || now rewrite A). rewrite A.
    rewrite (each_mono (psl m fi)); [now rewrite B| |now rewrite B].
    intros x X. apply psl_mono; [lia|easy].
Qed.
Lemma list_parse fi o ks : key_list fi o ks -> psl (list_fuel fi) fi o = Ok ks.
Proof.
  intros H. apply lists_parse in H as (n & H). rewrite (list_fuel_enough fi o n) by now rewrite H. easy.
Qed.

(** ** Termination *)
Lemma psl_total fi o : psl (list_fuel fi) fi o <> OutOfFuel ->
  psl (list_fuel fi) fi o = Err \/ exists l, psl (list_fuel fi) fi o = Ok l.
Proof.
  assert (NP : forall n o, psl n fi o <> Panic).
  { induction n as [|n IH]; intros o'; [easy|]. rewrite psl_step.
    destruct (list_at fi o') as [items|r] eqn:L.
    - clear L. induction items as [|i r IH2]; [easy|]. cbn [each_list]. specialize (IH i).
      destruct (psl n fi i); try easy. now destruct (each_list _ r).
    - unfold list_at in L. destruct (get_from _ _); [|now injection L as <-]. destruct (ri_from_bytes _); [easy|].
      injection L as <-. destruct (lf_offsets _ _); [easy|]. destruct (lh_offsets _ _); [easy|].
      now destruct (li_offsets _ _). }
  intros H. specialize (NP (list_fuel fi) o). destruct (psl (list_fuel fi) fi o); eauto; congruence.
Qed.

Lemma count_nat_num n : forall b m l r, count_nat le_u32 n (rest_at b m) = Some (l, r) -> m <= len b ->
  m + 4 * N.of_nat n <= len b /\ l = map (fun i => num_at b (m + 4 * N.of_nat i) 4) (seq 0 n).
Proof.
  induction n as [|n IH]; intros b m l r; cbn [count_nat].
  - intros [= <- _] L. split; [lia|easy].
  - intros H L. destruct (N.le_gt_cases (m + 4) (len b)) as [G|G].
    + rewrite le_u32_rest in H by easy. destruct (count_nat le_u32 n (rest_at b (m + 4))) as [[xs i]|] eqn:E; [|easy].
      injection H as <- _. destruct (IH _ _ _ _ E G) as (A & ->). split; [lia|].
      cbn [seq map]. f_equal; [f_equal; lia|]. rewrite <- seq_shift, map_map. apply map_ext. intros i'. f_equal. lia.
    + rewrite le_u32_short in H; [easy|]. rewrite len_rest_at. lia.
Qed.
Lemma ri_entry fi o items x : list_at fi o = inl items -> In x items -> index_entry fi o x.
Proof.
  unfold list_at. destruct (get_from _ _) as [s|] eqn:G; [|easy].
  destruct (ri_from_bytes s) as [l|] eqn:R; [|easy]. intros [= <-] I.
  assert (P : o + fi_hbin fi <= len (fi_buffer fi)).
  { unfold get_from in G. destruct (N.leb_spec (o + fi_hbin fi) (len (fi_buffer fi))); easy. }
  rewrite get_from_rest in G by easy. injection G as <-. rewrite N.add_comm in *.
  set (b := fi_buffer fi) in *. set (p := fi_hbin fi + o) in *.
  unfold ri_from_bytes, list_header in R.
  destruct (N.le_gt_cases (p + 8) (len b)) as [L|L].
  - rewrite le_i32_rest in R by lia. rewrite tag_rest in R by (change (len RI) with 2; lia).
    change (len RI) with 2 in R. destruct (beq _ RI) eqn:T; [|easy]. apply beq_eq in T.
    rewrite le_u16_rest in R by lia. unfold count in R.
    destruct (_ <=? _); [|easy]. destruct (count_nat _ _ _) as [[l' r]|] eqn:C; [|easy]. injection R as <-.
    apply count_nat_num in C as (A & ->); [|lia].
    apply in_map_iff in I as (i & <- & I). apply in_seq in I. unfold index_entry. fold b p.
    replace (p + 4 + 2) with (p + 6) in * by lia. replace (p + 6 + 2) with (p + 8) in * by lia.
    split; [lia|]. split; [exact T|]. exists (N.of_nat i). split; [lia|easy].
  - exfalso. assert (LL : len (rest_at b p) < 8) by (rewrite len_rest_at; lia). revert R LL.
    generalize (rest_at b p). intros s R LL.
    destruct (le_i32 s) as [[? s1]|] eqn:E1; [|easy]. apply le_i32_len in E1.
    destruct (tag RI s1) as [[? s2]|] eqn:E2; [|easy]. apply tag_len in E2. change (len RI) with 2 in E2.
    destruct (le_u16 s2) as [[? s3]|] eqn:E3; [|easy]. apply le_u16_len in E3. lia.
Qed.
Lemma each_diverge (f : N -> res (list N)) items : each_list f items = OutOfFuel ->
  exists o, In o items /\ f o = OutOfFuel.
Proof.
  induction items as [|o r IH]; [easy|]. cbn [each_list]. destruct (f o) eqn:E; try easy.
  - destruct (each_list f r); try easy. intros _. destruct IH as (o' & I & H); [easy|]. exists o'. split; [now right|easy].
  - exists o. split; [now left|easy].
Qed.
(** A chain of index roots. *)
Fixpoint chained (fi : file_info) (l : list N) : Prop :=
  match l with
  | a :: (b :: _) as t => index_entry fi a b /\ chained fi t
  | _ => True
  end.
Lemma diverge_chain fi : forall n o, psl (S n) fi o = OutOfFuel ->
  exists l, length l = S (S n) /\ hd_error l = Some o /\ chained fi l.
Proof.
  induction n as [|n IH]; intros o H; rewrite psl_step in H;
    (destruct (list_at fi o) as [items|r] eqn:L; [|now apply list_at_final in L]);
    apply each_diverge in H as (o' & I & H); pose proof (ri_entry _ _ _ _ L I) as E.
  - exists [o; o']. split; [easy|]. split; [easy|]. split; [exact E|exact Logic.I].
  - destruct (IH o' H) as (l & Ll & Hh & C). exists (o :: l). split; [cbn; lia|]. split; [easy|].
    destruct l as [|x l]; [easy|]. injection Hh as ->. split; [exact E|exact C].
Qed.
Lemma chained_path fi l1 : forall a l2 b l3, chained fi (l1 ++ a :: l2 ++ b :: l3) ->
  index_path fi a b.
Proof.
  induction l1 as [|x l1 IH]; intros a l2 b l3 C.
  - cbn [app] in C. revert a C. induction l2 as [|y l2 IH2]; intros a C.
    + apply path_one, C.
    + cbn [app] in C. destruct C as (E & C). eapply path_more; [exact E|]. now apply IH2.
  - cbn [app] in C. apply (IH a l2 b l3). destruct (l1 ++ a :: l2 ++ b :: l3) eqn:E; [easy|]. apply C.
Qed.
Lemma chained_entry_bound fi l a b : chained fi (l ++ [b]) -> In a l -> a <= len (fi_buffer fi).
Proof.
  induction l as [|x l IH]; intros C I; [easy|]. destruct I as [->|I].
  - cbn [app] in C. destruct (l ++ [b]) eqn:E; [now destruct l|]. destruct C as ((A & _) & _). lia.
  - apply IH; [|easy]. cbn [app] in C. destruct (l ++ [b]) eqn:E; [now destruct l|]. apply C.
Qed.
Lemma dup_split (l : list N) : ~ NoDup l -> exists a l1 l2 l3, l = l1 ++ a :: l2 ++ a :: l3.
Proof.
  induction l as [|x l IH]; intros ND; [exfalso; apply ND; constructor|].
  destruct (in_dec N.eq_dec x l) as [I|NI].
  - apply in_split in I as (l2 & l3 & ->). now exists x, [], l2, l3.
  - destruct IH as (a & l1 & l2 & l3 & ->); [intros H; apply ND; now constructor|].
    now exists a, (x :: l1), l2, l3.
Qed.
(** Where parsing does not end, some index root reaches itself. *)
Lemma diverge_cycle fi o : psl (list_fuel fi) fi o = OutOfFuel ->
  exists c, (c = o \/ index_path fi o c) /\ index_path fi c c.
Proof.
  unfold list_fuel. intros H. apply diverge_chain in H as (l & Ll & Hh & C).
  destruct (exists_last (l := l)) as (l' & b & ->); [now destruct l|].
  assert (D : ~ NoDup l').
  { intros ND. pose proof (nodup_bound l' (len (fi_buffer fi)) ND (fun a I => chained_entry_bound fi l' a b C I)) as G.
    rewrite app_length in Ll. cbn in Ll. rewrite to_nat_len in G. lia. }
  destruct (dup_split _ D) as (a & l1 & l2 & l3 & ->).
  exists a. rewrite <- app_assoc in C, Hh. cbn [app] in C, Hh. rewrite <- app_assoc in C, Hh. cbn [app] in C, Hh. split.
  - destruct l1 as [|x l1]; cbn [app hd_error] in Hh; injection Hh as ->; [now left|right].
    exact (chained_path fi [] o l1 a _ C).
  - exact (chained_path fi l1 a l2 a _ C).
Qed.

(** ** Security cells *)
Section Security.
  Context {D : Type} (parse_sd : list N -> option D) (buf : list N) (hbin start : N).
  Notation sec n o := (read_security_loop parse_sd n buf start hbin o []).
  Definition sec_at (o : N) : option (N * D) :=
    match get_from buf (o + hbin) with
    | None => None
    | Some s => match sk_from_bytes s with
                | None => None
                | Some (flink, sd) => match parse_sd sd with None => None | Some d => Some (flink, d) end
                end
    end.
  Lemma sec_acc n : forall o acc, read_security_loop parse_sd n buf start hbin o acc =
    match sec n o with Ok l => Ok (acc ++ l) | Err => Err | Panic => Panic | OutOfFuel => OutOfFuel end.
  Proof.
    induction n as [|n IH]; intros o acc; [easy|]. cbn [read_security_loop]. cbv [ok_or nom].
    destruct (get_from _ _) as [s|]; [|easy]. destruct (sk_from_bytes s) as [[flink sd]|]; [|easy].
    destruct (parse_sd sd) as [d|]; [|easy]. destruct (flink =? start); [easy|].
    rewrite (IH _ (acc ++ [d])), (IH _ ([] ++ [d])). destruct (sec n flink); try easy. now rewrite <- app_assoc.
  Qed.
  Lemma sec_step n o : sec (S n) o =
    match sec_at o with
    | None => Err
    | Some (flink, d) =>
        if flink =? start then Ok [d]
        else match sec n flink with
             | Ok l => Ok (d :: l) | Err => Err | Panic => Panic | OutOfFuel => OutOfFuel
             end
    end.
  Proof.
    cbn [read_security_loop]. cbv [ok_or nom]. unfold sec_at.
    destruct (get_from _ _) as [s|]; [|easy]. destruct (sk_from_bytes s) as [[flink sd]|]; [|easy].
    destruct (parse_sd sd) as [d|]; [|easy]. destruct (flink =? start); [easy|].
    rewrite sec_acc. now destruct (sec n flink).
  Qed.
  Lemma sec_mono : forall n m o, (n <= m)%nat -> sec n o <> OutOfFuel -> sec m o = sec n o.
  Proof.
    induction n as [|n IH]; intros m o L H; [now exfalso|].
    destruct m as [|m]; [lia|]. rewrite !sec_step in *. destruct (sec_at o) as [[flink d]|]; [|easy].
    destruct (flink =? start); [easy|]. rewrite (IH m); [easy|lia|]. intros E. rewrite E in H. now apply H.
  Qed.
  Lemma sec_at_bound o x : sec_at o = Some x -> o <= len buf.
  Proof. unfold sec_at. destruct (get_from _ _) eqn:E; [|easy]. intros _. apply get_from_some in E as [E _]. lia. Qed.

  (** A chain of cells before the start is reached again. *)
  Fixpoint sec_chain (l : list N) : Prop :=
    match l with
    | a :: (b :: _) as t => (exists d, sec_at a = Some (b, d)) /\ b <> start /\ sec_chain t
    | _ => True
    end.
  Lemma sec_diverge : forall n o, sec (S n) o = OutOfFuel ->
    exists l, length l = S (S n) /\ hd_error l = Some o /\ sec_chain l.
  Proof.
    induction n as [|n IH]; intros o H; rewrite sec_step in H;
      (destruct (sec_at o) as [[flink d]|] eqn:A; [|easy]);
      (destruct (N.eqb_spec flink start) as [|NE]; [easy|]).
    - exists [o; flink]. split; [easy|]. split; [easy|]. split; [now exists d|]. now split.
    - destruct (sec (S n) flink) eqn:E; try easy. destruct (IH _ E) as (l & Ll & Hh & C).
      exists (o :: l). split; [cbn; lia|]. split; [easy|]. destruct l as [|x l]; [easy|]. injection Hh as ->.
      split; [now exists d|]. now split.
  Qed.
  (** The cells of a ring, in order from [o]. *)
  Inductive ring : N -> list N -> list D -> Prop :=
  | ring_last o d : sec_at o = Some (start, d) -> ring o [o] [d]
  | ring_next o next d os ds : sec_at o = Some (next, d) -> next <> start -> ring next os ds ->
      ring o (o :: os) (d :: ds).
  Lemma ring_sec o os ds : ring o os ds -> forall n, (length os <= n)%nat -> sec n o = Ok ds.
  Proof.
    induction 1 as [o d A|o next d os ds A NE R IH]; intros n L; (destruct n as [|n]; [cbn in L; lia|]);
      rewrite sec_step, A.
    - now rewrite N.eqb_refl.
    - apply N.eqb_neq in NE. rewrite NE, IH; [easy|cbn in L; lia].
  Qed.
  Lemma ring_det o os ds : ring o os ds -> forall os' ds', ring o os' ds' -> os' = os.
  Proof.
    induction 1 as [o d A|o next d os ds A NE R IH]; intros os' ds' R'; inversion R'; subst; try congruence.
    f_equal. assert (next0 = next) by congruence. subst. eapply IH; eassumption.
  Qed.
  Lemma ring_suffix o os ds : ring o os ds -> forall x, In x os -> exists os' ds' pre, ring x os' ds' /\ os = pre ++ os'.
  Proof.
    induction 1 as [o d A|o next d os ds A NE R IH]; intros x I.
    - destruct I as [<-|[]]. exists [o], [d], []. split; [now constructor|easy].
    - destruct I as [<-|I].
      + exists (o :: os), (d :: ds), []. split; [now apply ring_next with next|easy].
      + destruct (IH x I) as (os' & ds' & pre & R' & ->). exists os', ds', (o :: pre). now split.
  Qed.
  Lemma ring_nodup o os ds : ring o os ds -> NoDup os.
  Proof.
    induction 1 as [o d A|o next d os ds A NE R IH]; [repeat constructor; easy|]. constructor; [|easy].
    intros I. destruct (ring_suffix _ _ _ R _ I) as (os' & ds' & pre & R' & ->).
    assert (R2 : ring o (o :: pre ++ os') (d :: ds)) by now apply ring_next with next.
    pose proof (ring_det _ _ _ R2 _ _ R') as E. apply (f_equal (@length N)) in E. cbn in E.
    rewrite app_length in E. lia.
  Qed.
  Lemma ring_bound o os ds : ring o os ds -> forall x, In x os -> x <= len buf.
  Proof.
    induction 1 as [o d A|o next d os ds A NE R IH]; intros x [<-|I]; try easy.
    - now apply sec_at_bound in A.
    - now apply sec_at_bound in A.
    - now apply IH.
  Qed.
End Security.
Lemma ring_read {D} (parse_sd : list N -> option D) buf hbin start os ds :
  ring parse_sd buf hbin start start os ds -> read_cell_key_security parse_sd buf start hbin = Ok ds.
Proof.
  intros R. unfold read_cell_key_security. eapply ring_sec; [exact R|].
  pose proof (nodup_bound _ _ (ring_nodup _ _ _ _ _ _ _ R) (ring_bound _ _ _ _ _ _ _ R)) as G.
  rewrite to_nat_len in G. lia.
Qed.
Lemma sec_at_cell {D} (parse_sd : list N -> option D) buf hbin o next sd d :
  security_cell buf hbin o next sd -> parse_sd sd = Some d -> sec_at parse_sd buf hbin o = Some (next, d).
Proof.
  intros (size & reserved & prev & refs & I & U1 & U2 & U3 & U4 & U5 & S) P. unfold sec_at.
  rewrite N.add_comm. destruct (stored_from _ _ _ S) as (post & ->). rewrite <- !app_assoc.
  unfold sk_from_bytes. rewrite le_i32_spec by easy. change [115; 107] with SK. rewrite tag_app.
  rewrite le_u16_enc by easy. do 4 rewrite le_u32_enc by easy. rewrite take_app by easy. now rewrite P.
Qed.
Lemma sec_at_next {D} (parse_sd : list N -> option D) buf hbin o next d :
  sec_at parse_sd buf hbin o = Some (next, d) -> security_next buf hbin o next.
Proof.
  unfold sec_at. destruct (get_from _ _) as [s|] eqn:G; [|easy].
  destruct (sk_from_bytes s) as [[flink sd]|] eqn:E; [|easy]. destruct (parse_sd sd); [|easy]. intros [= -> ->].
  assert (P : o + hbin <= len buf).
  { unfold get_from in G. destruct (N.leb_spec (o + hbin) (len buf)); easy. }
  rewrite get_from_rest in G by easy. injection G as <-. rewrite N.add_comm in *.
  unfold security_next. set (p := hbin + o) in *. unfold sk_from_bytes in E.
  destruct (N.le_gt_cases (p + 24) (len buf)) as [L|L].
  - rewrite le_i32_rest in E by lia. rewrite tag_rest in E by (change (len SK) with 2; lia).
    change (len SK) with 2 in E. destruct (beq _ SK) eqn:T; [|easy]. apply beq_eq in T.
    rewrite le_u16_rest in E by lia. do 4 rewrite le_u32_rest in E by lia.
    destruct (take _ _) as [[x y]|]; [|easy]. injection E as E _.
    replace (p + 4 + 2 + 2) with (p + 8) in E by lia. split; [easy|]. split; [exact T|easy].
  - exfalso. assert (LL : len (rest_at buf p) < 24) by (rewrite len_rest_at; lia). revert E LL.
    generalize (rest_at buf p). intros s E LL.
    destruct (le_i32 s) as [[? s1]|] eqn:E1; [|easy]. apply le_i32_len in E1.
    destruct (tag SK s1) as [[? s2]|] eqn:E2; [|easy]. apply tag_len in E2. change (len SK) with 2 in E2.
    destruct (le_u16 s2) as [[? s3]|] eqn:E3; [|easy]. apply le_u16_len in E3.
    destruct (le_u32 s3) as [[? s4]|] eqn:E4; [|easy]. apply le_u32_len in E4.
    destruct (le_u32 s4) as [[? s5]|] eqn:E5; [|easy]. apply le_u32_len in E5.
    destruct (le_u32 s5) as [[? s6]|] eqn:E6; [|easy]. apply le_u32_len in E6.
    destruct (le_u32 s6) as [[? s7]|] eqn:E7; [|easy]. apply le_u32_len in E7. lia.
Qed.
Lemma sec_chain_path {D} (parse_sd : list N -> option D) buf hbin start l1 : forall a l2 b l3,
  sec_chain parse_sd buf hbin start (l1 ++ a :: l2 ++ b :: l3) -> security_path buf hbin start a b.
Proof.
  induction l1 as [|x l1 IH]; intros a l2 b l3 C.
  - cbn [app] in C. revert a C. induction l2 as [|y l2 IH2]; intros a C.
    + destruct C as ((d & A) & NE & _). apply sec_at_next in A. now apply sec_one.
    + cbn [app] in C. destruct C as ((d & A) & NE & C). apply sec_at_next in A.
      eapply sec_more; [exact A|exact NE|]. now apply IH2.
  - cbn [app] in C. apply (IH a l2 b l3). destruct (l1 ++ a :: l2 ++ b :: l3) eqn:E; [easy|]. apply C.
Qed.
Lemma sec_chain_bound {D} (parse_sd : list N -> option D) buf hbin start l a b :
  sec_chain parse_sd buf hbin start (l ++ [b]) -> In a l -> a <= len buf.
Proof.
  induction l as [|x l IH]; intros C I; [easy|]. destruct I as [->|I].
  - cbn [app] in C. destruct (l ++ [b]) eqn:E; [now destruct l|]. destruct C as ((d & A) & _). now apply sec_at_bound in A.
  - apply IH; [|easy]. cbn [app] in C. destruct (l ++ [b]) eqn:E; [now destruct l|]. apply C.
Qed.
Lemma security_cycle {D} (parse_sd : list N -> option D) buf hbin start :
  read_cell_key_security parse_sd buf start hbin = OutOfFuel ->
  exists c, security_path buf hbin start start c /\ security_path buf hbin start c c.
Proof.
  unfold read_cell_key_security. intros H. apply sec_diverge in H as (l & Ll & Hh & C).
  destruct l as [|x l]; [easy|]. injection Hh as ->.
  destruct (exists_last (l := l)) as (l' & b & ->); [intros ->; cbn in Ll; lia|].
  assert (C2 : sec_chain parse_sd buf hbin start (l' ++ [b])).
  { cbn in C. destruct (l' ++ [b]); [easy|]. apply C. }
  assert (D1 : ~ NoDup (start :: l')).
  { intros ND. pose proof (nodup_bound (start :: l') (len buf) ND
      (fun a I => sec_chain_bound parse_sd buf hbin start (start :: l') a b C I)) as G.
    cbn in Ll, G. rewrite app_length in Ll. cbn in Ll. rewrite to_nat_len in G. lia. }
  assert (NS : ~ In start l').
  { clear Ll D1. intros I. apply in_split in I as (l1 & l2 & ->).
    assert (X : forall l0 y, sec_chain parse_sd buf hbin start ((y :: l0) ++ start :: l2 ++ [b]) -> False).
    { clear. induction l0 as [|z l0 IH]; intros y Cc; cbn [app] in Cc.
      - destruct Cc as (_ & NE & _). now apply NE.
      - destruct Cc as (_ & _ & Cc). now apply (IH z). }
    rewrite <- app_assoc in C. cbn [app] in C. exact (X l1 start C). }
  assert (D2 : ~ NoDup l') by (intros ND; apply D1; now constructor).
  destruct (dup_split _ D2) as (a & l1 & l2 & l3 & ->).
  exists a. rewrite <- app_assoc in C. cbn [app] in C. rewrite <- app_assoc in C. cbn [app] in C. split.
  - exact (sec_chain_path parse_sd buf hbin start [] start l1 a _ C).
  - exact (sec_chain_path parse_sd buf hbin start (start :: l1) a l2 a _ C).
Qed.
Lemma security_outcome {D} (parse_sd : list N -> option D) buf start hbin :
  read_cell_key_security parse_sd buf start hbin <> Panic.
Proof.
  unfold read_cell_key_security. generalize (S (S (length buf))) as n. intros n. generalize start at 2 as o.
  induction n as [|n IH]; intros o; [easy|]. rewrite sec_step. destruct (sec_at _ _ _ _) as [[f d]|]; [|easy].
  destruct (f =? start); [easy|]. specialize (IH f). now destruct (read_security_loop _ _ _ _ _ _ _).
Qed.

Lemma security_ring_read {D} (parse_sd : list N -> option D) buf hbin start sds ds :
  security_ring buf hbin start start sds -> Forall2 (fun sd d => parse_sd sd = Some d) sds ds ->
  read_cell_key_security parse_sd buf start hbin = Ok ds.
Proof.
  intros R F.
  assert (X : exists os, ring parse_sd buf hbin start start os ds).
  { revert R F. generalize start at 2 4 as o. intros o R. revert ds.
    induction R as [o sd C|o next sd sds C NE R IH]; intros ds F.
    - inversion F as [|? d ? ds' P F']. inversion F'. subst. exists [o]. apply ring_last. now apply sec_at_cell with sd.
    - inversion F as [|? d ? ds' P F']. subst. destruct (IH ds' F') as (os & Ros). exists (o :: os).
      apply ring_next with next; [now apply sec_at_cell with sd|easy|easy]. }
  destruct X as (os & X). now apply ring_read with os.
Qed.
