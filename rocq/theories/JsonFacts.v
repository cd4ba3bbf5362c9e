(** Proofs about the JSON export: what is written is read back. *)
From Coq Require Import String.
From Verif Require Import Base BaseFacts Util UtilSpec UtilText LayoutSpec Types Value CellSpec CellData TreeSpec Log Export ExportSpec ExportFacts DateSpec Show ShowSpec ShowFacts Json JsonSpec.
Open Scope string_scope.
Open Scope N_scope.
Open Scope list_scope.

(** ** The text of a document *)
Fixpoint text_of (j : json) : list N :=
  match j with
  | Null => text "null"
  | Num z => decimal_z z
  | Str s => json_str s
  | Arr l => [91] ++ join [44] (map text_of l) ++ [93]
  | Obj l => [123] ++ join [44] (map (fun e => json_str (fst e) ++ [58] ++ text_of (snd e)) l) ++ [125]
  end.
Section Ind.
Context (P : json -> Prop) (HN : P Null) (HZ : forall z, P (Num z)) (HS : forall s, P (Str s)) (HA : forall l, Forall P l -> P (Arr l))
  (HO : forall l, Forall (fun e => P (snd e)) l -> P (Obj l)).
Fixpoint json_ind' (j : json) : P j :=
  match j with
  | Null => HN
  | Num z => HZ z
  | Str s => HS s
  | Arr l => HA l ((fix go l := match l return Forall P l with [] => Forall_nil P | x :: l => Forall_cons x (json_ind' x) (go l) end) l)
  | Obj l => HO l ((fix go l := match l return Forall (fun e => P (snd e)) l with [] => Forall_nil _ | x :: l => Forall_cons x (json_ind' (snd x)) (go l) end) l)
  end.
End Ind.

(** ** Strings *)
Lemma read_chars s r : read_str (flat_map json_char s ++ 34 :: r) = Some (s, r).
Proof.
  induction s as [|c s IH]; [reflexivity|]. cbn [flat_map]. rewrite <- app_assoc. unfold json_char at 1.
  destruct (N.eqb_spec c 34) as [->|]; [cbn [app read_str N.eqb Pos.eqb json_escapes find fst snd before]; now rewrite IH|].
  destruct (N.eqb_spec c 92) as [->|]; [cbn [app read_str N.eqb Pos.eqb json_escapes find fst snd before]; now rewrite IH|].
  destruct (N.eqb_spec c 8) as [->|]; [cbn [app read_str N.eqb Pos.eqb json_escapes find fst snd before]; now rewrite IH|].
  destruct (N.eqb_spec c 9) as [->|]; [cbn [app read_str N.eqb Pos.eqb json_escapes find fst snd before]; now rewrite IH|].
  destruct (N.eqb_spec c 10) as [->|]; [cbn [app read_str N.eqb Pos.eqb json_escapes find fst snd before]; now rewrite IH|].
  destruct (N.eqb_spec c 12) as [->|]; [cbn [app read_str N.eqb Pos.eqb json_escapes find fst snd before]; now rewrite IH|].
  destruct (N.eqb_spec c 13) as [->|]; [cbn [app read_str N.eqb Pos.eqb json_escapes find fst snd before]; now rewrite IH|].
  destruct (N.ltb_spec c 32) as [L|G].
  - assert (X : forall c, In c (map N.of_nat (seq 0 32)) -> hex4 48 48 (hex_small (c / 16)) (hex_small (c mod 16)) = Some c).
    { intros d I. cbn [seq map In] in I. repeat (destruct I as [<-|I]; [vm_compute; reflexivity|]). contradiction. }
    assert (I : In c (map N.of_nat (seq 0 32))).
    { replace c with (N.of_nat (N.to_nat c)) by lia. apply in_map. apply in_seq. lia. }
    cbn [app read_str N.eqb Pos.eqb json_escapes find fst snd]. rewrite (X c I).
    destruct (N.leb_spec 0xD800 c); [lia|]. cbn [andb]. rewrite IH. unfold utf8_char. destruct (N.ltb_spec c 0x80); [reflexivity|lia].
  - cbn [app read_str]. destruct (N.eqb_spec c 34); [contradiction|]. destruct (N.eqb_spec c 92); [contradiction|]. destruct (N.ltb_spec c 32); [lia|]. now rewrite IH.
Qed.
Lemma json_str_app s r : json_str s ++ r = 34 :: flat_map json_char s ++ 34 :: r.
Proof. unfold json_str. rewrite <- !app_assoc. reflexivity. Qed.

(** ** Numbers *)
Definition ends (r : list N) : Prop := match r with [] => True | c :: _ => c = 44 \/ c = 93 \/ c = 125 end.
Lemma digits_all d : forall n r, Forall digit d -> (match r with c :: _ => ~ digit c | [] => True end) -> read_digits n (d ++ r) = (fold_left (fun v c => 10 * v + (c - 48)) d n, r).
Proof.
  induction d as [|c d IH]; intros n r F E; cbn [app fold_left].
  - destruct r as [|c r]; [reflexivity|]. cbn [read_digits]. unfold digit in E. destruct (N.leb_spec 48 c), (N.leb_spec c 57); cbn [andb]; try reflexivity. exfalso. apply E. lia.
  - inversion F; subst. cbn [read_digits]. unfold digit in H1. destruct (N.leb_spec 48 c), (N.leb_spec c 57); cbn [andb]; try lia. now apply IH.
Qed.
(** No leading zero. *)
Lemma digits_head fuel : forall n r, (0 < fuel)%nat -> n < 2 ^ N.of_nat fuel -> n <> 0 -> exists c m, digits fuel n r = c :: m /\ c <> 48.
Proof.
  induction fuel as [|fuel IH]; intros n r L B NZ; [lia|]. cbn [digits]. destruct (N.ltb_spec n 10).
  - eexists _, _. split; [reflexivity|]. rewrite N.mod_small by lia. lia.
  - apply IH.
    + destruct fuel; [cbn in B; lia|lia].
    + rewrite Nnat.Nat2N.inj_succ, N.pow_succ_r' in B. apply N.div_lt_upper_bound; lia.
    + intros X. apply N.div_small_iff in X; lia.
Qed.
Lemma decimal_head n : n <> 0 -> exists c m, decimal n = c :: m /\ c <> 48.
Proof.
  intros NZ. apply digits_head; [lia| |exact NZ]. rewrite Nnat.Nat2N.inj_succ, N.pow_succ_r'.
  assert (n < 2 ^ N.of_nat (N.size_nat n)); [|lia]. destruct n as [|p]; [reflexivity|]. cbn [N.size_nat].
  assert (H := Pos.size_gt p). replace (N.of_nat (Pos.size_nat p)) with (N.pos (Pos.size p)); [exact H|].
  clear. induction p; cbn [Pos.size_nat Pos.size]; [rewrite Nnat.Nat2N.inj_succ, <- IHp; reflexivity..|reflexivity].
Qed.
Lemma whole_back n r : ends r -> read_whole (decimal n ++ r) = Some (n, r).
Proof.
  intros E. assert (ND : match r with c :: _ => ~ digit c | [] => True end) by (destruct r as [|c r]; [exact I|]; unfold digit; cbn [ends] in E; lia).
  destruct (N.eq_dec n 0) as [->|NZ].
  - change (decimal 0) with [48]. cbn [app read_whole]. destruct r as [|c r]; [reflexivity|]. unfold digit in ND. destruct (N.leb_spec 48 c), (N.leb_spec c 57); cbn [andb]; try reflexivity. exfalso. apply ND. lia.
  - destruct (decimal_numeral n) as (NE & F & V). destruct (decimal_head n NZ) as (c & m & Q & C).
    pose proof (digits_all (decimal n) 0 r F ND) as R. rewrite V in R. rewrite Q in *. inversion F; subst. cbn [app] in *. unfold digit in H1.
    assert (X : read_whole (c :: m ++ r) = if (48 <=? c) && (c <=? 57) then Some (read_digits 0 (c :: m ++ r)) else None).
    { unfold read_whole. destruct c as [|p]; [reflexivity|]. repeat (destruct p as [p|p|]; try reflexivity). now contradiction C. }
    rewrite X, R. destruct (N.leb_spec 48 c), (N.leb_spec c 57); cbn [andb]; try lia. reflexivity.
Qed.
Lemma ends_whole r : ends r -> whole_ends r = true.
Proof. destruct r as [|c r]; [reflexivity|]. intros [->|[->| ->]]; reflexivity. Qed.
Lemma num_back z r : ends r -> read_num (decimal_z z ++ r) = Some (z, r).
Proof.
  intros E. unfold read_num, decimal_z. destruct (Z.ltb_spec z 0).
  - cbn [app]. rewrite whole_back by exact E. cbn [option_map fst snd]. rewrite (ends_whole r E). f_equal. f_equal. lia.
  - pose proof (whole_back (Z.to_N z) r E) as W. destruct (decimal_numeral (Z.to_N z)) as (NE & F & V). destruct (decimal (Z.to_N z)) as [|c m]; [contradiction|].
    inversion F; subst. unfold digit in H2. cbn [app] in *.
    replace (match c with 45 => _ | _ => _ end) with (option_map (fun x => (Z.of_N (fst x), snd x)) (read_whole (c :: m ++ r))).
    2:{ destruct c as [|p]; [reflexivity|]. do 6 (destruct p as [p|p|]; try reflexivity). lia. }
    rewrite W. cbn [option_map fst snd]. rewrite (ends_whole r E). f_equal. f_equal. lia.
Qed.

(** ** Values *)
Lemma head_of j : exists c r, text_of j = c :: r /\ (c = 110 \/ c = 45 \/ digit c \/ c = 34 \/ c = 91 \/ c = 123).
Proof.
  destruct j as [|z|s|l|l]; cbn [text_of]; try (eexists _, _; split; [reflexivity|tauto]); try (unfold json_str; eexists _, _; split; [reflexivity|tauto]).
  unfold decimal_z. destruct (z <? 0)%Z; [eexists _, _; split; [reflexivity|tauto]|]. destruct (decimal_numeral (Z.to_N z)) as (NE & F & _).
  destruct (decimal _) as [|c m]; [contradiction|]. inversion F; subst. exists c, m. split; [reflexivity|]. tauto.
Qed.
Lemma skip_head j r : skip (text_of j ++ r) = text_of j ++ r.
Proof.
  destruct (head_of j) as (c & m & -> & H). cbn [app skip]. unfold digit in H.
  replace ((c =? 32) || (c =? 9) || (c =? 10) || (c =? 13)) with false; [reflexivity|].
  destruct (N.eqb_spec c 32), (N.eqb_spec c 9), (N.eqb_spec c 10), (N.eqb_spec c 13); cbn [orb]; lia || reflexivity.
Qed.
Definition item_texts (l : list json) : list N := join [44] (map text_of l).
Definition member_texts (l : list (list N * json)) : list N := join [44] (map (fun e => json_str (fst e) ++ [58] ++ text_of (snd e)) l).
Lemma join_cons sep x (l : list (list N)) : l <> [] -> join sep (x :: l) = x ++ sep ++ join sep l.
Proof. destruct l; [contradiction|reflexivity]. Qed.
Lemma read_num_value fuel z r : ends r -> read_value (S fuel) (decimal_z z ++ r) = Some (Num z, r).
Proof.
  intros E. pose proof (num_back z r E) as N0. pose proof (skip_head (Num z) r) as SK. cbn [text_of] in SK. cbn [read_value]. rewrite SK.
  destruct (head_of (Num z)) as (c & m & Q & H). cbn [text_of] in Q. rewrite Q in *. cbn [app] in *.
  assert (C : c = 45 \/ digit c).
  { clear - Q. unfold decimal_z in Q. destruct (z <? 0)%Z; [injection Q as <- _; now left|]. right. destruct (decimal_numeral (Z.to_N z)) as (_ & F & _). rewrite Q in F. now inversion F. }
  clear - C N0. unfold digit in C. destruct c as [|p]; [rewrite N0; reflexivity|].
  repeat (destruct p as [p|p|]; first [rewrite N0; reflexivity|exfalso; lia|idtac]).
Qed.
Lemma value_str fuel r x r' : read_str r = Some (x, r') -> read_value (S fuel) (34 :: r) = Some (Str x, r').
Proof. intros H. change (read_value (S fuel) (34 :: r)) with (match read_str r with Some (x, r) => Some (Str x, r) | None => None end). now rewrite H. Qed.
Lemma value_arr fuel r l r' : (forall r'', skip r <> 93 :: r'') -> read_items fuel r = Some (l, r') -> read_value (S fuel) (91 :: r) = Some (Arr l, r').
Proof.
  intros NE H. change (read_value (S fuel) (91 :: r)) with (match skip r with 93 :: r' => Some (Arr [], r') | _ => match read_items fuel r with Some (l, r) => Some (Arr l, r) | None => None end end).
  rewrite H. destruct (skip r) as [|c t]; [reflexivity|]. destruct c as [|p]; [reflexivity|]. do 7 (destruct p as [p|p|]; try reflexivity). now contradiction (NE t).
Qed.
Lemma value_obj fuel r l r' : (forall r'', skip r <> 125 :: r'') -> read_members fuel r = Some (l, r') -> read_value (S fuel) (123 :: r) = Some (Obj l, r').
Proof.
  intros NE H. change (read_value (S fuel) (123 :: r)) with (match skip r with 125 :: r' => Some (Obj [], r') | _ => match read_members fuel r with Some (l, r) => Some (Obj l, r) | None => None end end).
  rewrite H. destruct (skip r) as [|c t]; [reflexivity|]. destruct c as [|p]; [reflexivity|]. do 7 (destruct p as [p|p|]; try reflexivity). now contradiction (NE t).
Qed.
Lemma items_one fuel s x r : read_value fuel s = Some (x, 93 :: r) -> read_items (S fuel) s = Some ([x], r).
Proof. intros H. cbn [read_items]. rewrite H. reflexivity. Qed.
Lemma items_more fuel s x r : read_value fuel s = Some (x, 44 :: r) -> read_items (S fuel) s = before [x] (read_items fuel r).
Proof. intros H. cbn [read_items]. rewrite H. reflexivity. Qed.
Lemma members_one fuel r n r1 x r2 : read_str r = Some (n, 58 :: r1) -> read_value fuel r1 = Some (x, 125 :: r2) -> read_members (S fuel) (34 :: r) = Some ([(n, x)], r2).
Proof.
  intros H G. change (read_members (S fuel) (34 :: r)) with (match read_str r with
    | Some (name, r) => match skip r with
                        | 58 :: r => match read_value fuel r with
                                     | Some (x, r) => match skip r with 125 :: r => Some ([(name, x)], r) | 44 :: r => before [(name, x)] (read_members fuel r) | _ => None end
                                     | None => None end
                        | _ => None end
    | None => None end). rewrite H. change (skip (58 :: r1)) with (58 :: r1). cbv beta iota. rewrite G. reflexivity.
Qed.
Lemma members_more fuel r n r1 x r2 : read_str r = Some (n, 58 :: r1) -> read_value fuel r1 = Some (x, 44 :: r2) ->
  read_members (S fuel) (34 :: r) = before [(n, x)] (read_members fuel r2).
Proof.
  intros H G. change (read_members (S fuel) (34 :: r)) with (match read_str r with
    | Some (name, r) => match skip r with
                        | 58 :: r => match read_value fuel r with
                                     | Some (x, r) => match skip r with 125 :: r => Some ([(name, x)], r) | 44 :: r => before [(name, x)] (read_members fuel r) | _ => None end
                                     | None => None end
                        | _ => None end
    | None => None end). rewrite H. change (skip (58 :: r1)) with (58 :: r1). cbv beta iota. rewrite G. reflexivity.
Qed.
Definition back_at (j : json) : Prop := forall fuel r, ends r -> (List.length (text_of j) <= fuel)%nat -> read_value fuel (text_of j ++ r) = Some (j, r).
Lemma items_back r m : forall f, m <> [] -> Forall back_at m -> (List.length (item_texts m) + 1 <= f)%nat -> read_items f (item_texts m ++ 93 :: r) = Some (m, r).
Proof.
  induction m as [|x m IHm]; intros f NE F L; [contradiction|]. inversion F; subst. destruct f as [|f]; [lia|]. unfold item_texts in *. destruct m as [|y m].
  - cbn [map join] in *. apply items_one. apply H1; [cbn [ends]; lia|lia].
  - change (map text_of (x :: y :: m)) with (text_of x :: map text_of (y :: m)) in *. rewrite join_cons in * by discriminate. rewrite !app_length in L. cbn [List.length] in L.
    rewrite <- !app_assoc. rewrite (items_more f _ x (join [44] (map text_of (y :: m)) ++ 93 :: r)); [|apply H1; [cbn [ends app]; lia|lia]].
    rewrite IHm; [reflexivity|discriminate|assumption|lia].
Qed.
Lemma members_back r m : forall f, m <> [] -> Forall (fun e => back_at (snd e)) m -> (List.length (member_texts m) + 1 <= f)%nat ->
  read_members f (member_texts m ++ 125 :: r) = Some (m, r).
Proof.
  induction m as [|[n x] m IHm]; intros f NE F L; [contradiction|]. inversion F; subst. cbn [snd] in *. destruct f as [|f]; [lia|]. unfold member_texts in *. destruct m as [|y m].
  - cbn [map join fst snd] in *. rewrite <- !app_assoc, json_str_app. rewrite !app_length in L.
    apply (members_one f _ n (text_of x ++ 125 :: r)); [apply read_chars|]. apply H1; [cbn [ends]; lia|lia].
  - set (g := fun e => json_str (fst e) ++ [58] ++ text_of (snd e)) in *. change (map g ((n, x) :: y :: m)) with ((json_str n ++ [58] ++ text_of x) :: map g (y :: m)) in *.
    rewrite join_cons in * by discriminate. rewrite !app_length in L. cbn [List.length] in L. rewrite <- !app_assoc, json_str_app.
    rewrite (members_more f _ n (text_of x ++ [44] ++ join [44] (map g (y :: m)) ++ 125 :: r) x (join [44] (map g (y :: m)) ++ 125 :: r)); [|apply read_chars|apply H1; [cbn [ends app]; lia|lia]].
    rewrite IHm; [reflexivity|discriminate|assumption|lia].
Qed.
Lemma read_back j : back_at j.
Proof.
  induction j as [|z|s|l IH|l IH] using json_ind'; intros fuel r E L.
  - destruct fuel as [|fuel]; [cbn in L; lia|]. reflexivity.
  - destruct fuel as [|fuel]; [|apply read_num_value, E]. exfalso. destruct (head_of (Num z)) as (c & m & Q & _). rewrite Q in L. cbn in L. lia.
  - destruct fuel as [|fuel]; [cbn in L; lia|]. cbn [text_of]. rewrite json_str_app. apply value_str, read_chars.
  - destruct fuel as [|fuel]; [cbn in L; lia|]. cbn [text_of] in *. rewrite !app_length in L. cbn [List.length] in L.
    destruct l as [|x l]; [reflexivity|]. rewrite <- !app_assoc. apply value_arr.
    + intros t X. destruct (head_of x) as (c & m & Q & H). unfold digit in H.
      assert (S1 : exists m, skip (join [44] (map text_of (x :: l)) ++ 93 :: r) = c :: m).
      { destruct l as [|y l].
        - cbn [map join]. rewrite skip_head, Q. eexists. reflexivity.
        - change (map text_of (x :: y :: l)) with (text_of x :: map text_of (y :: l)). rewrite join_cons by discriminate. rewrite <- app_assoc, skip_head, Q. eexists. reflexivity. }
      destruct S1 as (m' & S1). change ([93] ++ r) with (93 :: r) in X. rewrite S1 in X. injection X as -> _. lia.
    + apply items_back; [discriminate|exact IH|unfold item_texts; lia].
  - destruct fuel as [|fuel]; [cbn in L; lia|]. cbn [text_of] in *. rewrite !app_length in L. cbn [List.length] in L.
    destruct l as [|x l]; [reflexivity|]. rewrite <- !app_assoc. apply value_obj.
    + intros t X. set (g := fun e => json_str (fst e) ++ [58] ++ text_of (snd e)) in *.
      assert (S1 : exists m, join [44] (map g (x :: l)) ++ [125] ++ r = 34 :: m).
      { destruct l as [|y l].
        - cbn [map join]. unfold g. rewrite <- !app_assoc, json_str_app. eexists. reflexivity.
        - change (map g (x :: y :: l)) with (g x :: map g (y :: l)). rewrite join_cons by discriminate. unfold g at 1. rewrite <- !app_assoc, json_str_app. eexists. reflexivity. }
      destruct S1 as (m & S1). rewrite S1 in X. discriminate X.
    + apply members_back; [discriminate|exact IH|unfold member_texts; lia].
Qed.
Lemma document_back j : read_json (text_of j) = Some j.
Proof.
  unfold read_json. rewrite <- (app_nil_r (text_of j)) at 2. rewrite read_back; [reflexivity|exact I|lia].
Qed.
(** Documents have no line breaks. *)
Lemma chars_line s : ~ In 10 (flat_map json_char s).
Proof.
  intros H. apply in_flat_map in H as (c & _ & H). unfold json_char in H.
  repeat match type of H with In _ (if ?b then _ else _) => let E := fresh in destruct b eqn:E end; cbn [In] in H.
  8:{ apply N.ltb_lt in H7. unfold hex_small in H. destruct (c / 16 <? 10), (c mod 16 <? 10); lia. }
  8:{ apply N.eqb_neq in H4. destruct H as [H|[]]. congruence. }
  all: repeat (destruct H as [H|H]; [discriminate H|]); contradiction.
Qed.
Lemma str_line s : ~ In 10 (json_str s).
Proof. unfold json_str. intros H. apply in_app_or in H as [H|H]; [cbn in H; lia|]. apply in_app_or in H as [H|H]; [now apply chars_line in H|cbn in H; lia]. Qed.
Lemma join_line l : Forall (fun s => ~ In 10 s) l -> ~ In 10 (join [44] l).
Proof.
  induction 1 as [|x l H F IH]; [easy|]. destruct l as [|y l]; [exact H|]. rewrite join_cons by discriminate. intros X. apply in_app_or in X as [X|X]; [contradiction|].
  apply in_app_or in X as [X|X]; [cbn in X; lia|contradiction].
Qed.
Lemma document_line j : ~ In 10 (text_of j).
Proof.
  induction j as [|z|s|l IH|l IH] using json_ind'; cbn [text_of].
  - vm_compute. intuition discriminate.
  - assert (D : forall n, ~ In 10 (decimal n)) by (intros n X; destruct (decimal_numeral n) as (_ & F & _); rewrite Forall_forall in F; apply F in X; unfold digit in X; lia).
    unfold decimal_z. destruct (z <? 0)%Z; [|apply D]. intros [X|X]; [discriminate X|now apply D in X].
  - apply str_line.
  - intros X. apply in_app_or in X as [X|X]; [cbn in X; lia|]. apply in_app_or in X as [X|X]; [|cbn in X; lia]. revert X. apply join_line. apply Forall_map. exact IH.
  - intros X. apply in_app_or in X as [X|X]; [cbn in X; lia|]. apply in_app_or in X as [X|X]; [|cbn in X; lia]. revert X. apply join_line. apply Forall_map.
    eapply Forall_impl; [|exact IH]. cbv beta. intros e H X. apply in_app_or in X as [X|X]; [now apply str_line in X|]. apply in_app_or in X as [X|X]; [cbn in X; lia|contradiction].
Qed.
