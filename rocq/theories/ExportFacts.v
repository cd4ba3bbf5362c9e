(** Proofs about the text exports. *)
From Coq Require Import String.
From Verif Require Import Base BaseFacts Util UtilSpec UtilText Types Value Node Parser TxSpec TxLog CellSpec TreeSpec TreeRead Pure TreeUse TreeSession LivePlain Log LogSpec LogFacts Export ExportSpec.
Open Scope list_scope.

(** ** Numerals *)
Lemma digits_read fuel : forall n r v, n < 10 ^ N.of_nat fuel ->
  exists k, fold_left (fun v c => 10 * v + (c - 48)) (digits fuel n r) v
            = fold_left (fun v c => 10 * v + (c - 48)) r (10 ^ k * v + n)
  /\ (Forall digit r -> Forall digit (digits fuel n r)) /\ ((0 < fuel)%nat -> digits fuel n r <> []).
Proof.
  induction fuel as [|fuel IH]; intros n r v L.
  { exists 0. cbn in L. cbn [digits]. split; [|split; [auto|lia]]. f_equal. cbn. lia. }
  cbn [digits]. assert (D : digit (48 + n mod 10)) by (unfold digit; lia).
  destruct (N.ltb_spec n 10) as [S|S].
  { exists 1. split; [|split; [intros; now constructor|discriminate]]. cbn [fold_left]. f_equal.
    change (10 ^ 1) with 10. rewrite N.mod_small by exact S. lia. }
  assert (L' : n / 10 < 10 ^ N.of_nat fuel).
  { rewrite Nnat.Nat2N.inj_succ, N.pow_succ_r' in L. apply N.div_lt_upper_bound; lia. }
  destruct (IH (n / 10) ((48 + n mod 10) :: r) v L') as (k & E & F & G). exists (k + 1). split.
  { rewrite E. cbn [fold_left]. f_equal. rewrite N.pow_add_r. change (10 ^ 1) with 10. lia. }
  split; [intros; apply F; now constructor|intros _]. destruct fuel; [|apply G; lia]. cbn. discriminate.
Qed.
Lemma decimal_numeral n : numeral (decimal n) n.
Proof.
  assert (L : n < 10 ^ N.of_nat (S (N.size_nat n))).
  { apply N.lt_le_trans with (2 ^ N.of_nat (N.size_nat n)).
    - destruct n as [|p]; [reflexivity|]. cbn [N.size_nat].
      assert (H := Pos.size_gt p). replace (N.of_nat (Pos.size_nat p)) with (N.pos (Pos.size p)); [exact H|].
      clear H. induction p; cbn [Pos.size_nat Pos.size]; [rewrite Nnat.Nat2N.inj_succ, <- IHp; reflexivity..|reflexivity].
    - rewrite Nnat.Nat2N.inj_succ, N.pow_succ_r'. transitivity (10 ^ N.of_nat (N.size_nat n)); [apply N.pow_le_mono_l; lia|lia]. }
  destruct (digits_read _ n [] 0 L) as (k & E & F & G). unfold decimal. split; [apply G; lia|]. split; [apply F; constructor|].
  rewrite E. cbn [fold_left]. lia.
Qed.
Lemma seq_numeral n : numeral_if (seq_text n) n.
Proof. destruct n; [apply decimal_numeral|reflexivity]. Qed.

(** ** Rows *)
Lemma plain_escape s : plain s -> escape_string s = s.
Proof.
  intros P. unfold escape_string. replace (existsb needs_quotes s) with false; [reflexivity|].
  symmetry. induction P as [|c s P0 P IH]; [reflexivity|]. cbn [existsb]. rewrite IH, orb_false_r.
  unfold needs_quotes. destruct (N.eqb_spec c 9), (N.eqb_spec c 13), (N.eqb_spec c 10), (N.eqb_spec c 44), (N.eqb_spec c 34);
    cbn; try reflexivity; exfalso; apply P0; subst; cbn; tauto.
Qed.
Lemma digits_plain s : Forall digit s -> plain s.
Proof. apply Forall_impl. intros c [A B] H. cbn in H. lia. Qed.
Lemma decimal_plain n : plain (decimal n).
Proof. apply digits_plain, decimal_numeral. Qed.
Lemma seq_plain n : plain (seq_text n).
Proof. destruct n; [apply decimal_plain|constructor]. Qed.
Lemma hex_plain bs : plain (to_hex_string bs).
Proof.
  unfold to_hex_string.
  assert (R : forall l : list N, plain l -> plain (removelast l)).
  { intros l H. induction H as [|c l H0 H IH]; [constructor|]. cbn [removelast]. destruct l; [constructor|]. now constructor. }
  apply R. clear R. induction bs as [|b bs IH]; [constructor|]. cbn [flat_map app].
  assert (D : forall d, ~ In (hex_digit d) [9; 10; 13; 34; 44]).
  { intros d. unfold hex_digit. destruct (d <? 10); cbn; lia. }
  repeat constructor; auto. cbn. lia.
Qed.
Fixpoint joined (sep : N) (fields : list (list N)) : list N :=
  match fields with
  | [] => [10]
  | [f] => f ++ [10]
  | f :: fs => f ++ [sep] ++ joined sep fs
  end.
Definition separator (sep : N) : Prop := sep = 9 \/ sep = 44.
Lemma fields_plain sep s cur r : separator sep -> existsb needs_quotes s = false ->
  forall st, st = Plain \/ st = Start ->
  read_fields_from sep st cur (s ++ r)
  = match s with [] => read_fields_from sep st cur r | _ => read_fields_from sep Plain (rev s ++ cur) r end.
Proof.
  intros SE. revert cur. induction s as [|c s IH]; intros cur H st Hst; [reflexivity|].
  cbn [existsb] in H. apply orb_false_iff in H as [Hc H]. unfold needs_quotes in Hc.
  rewrite !orb_false_iff in Hc. destruct Hc as [[[[C1 C2] C3] C4] C5].
  assert (CS : c =? sep = false) by (destruct SE; subst; assumption).
  cbn [app read_fields_from]. rewrite CS, C3, C5.
  assert (E : read_fields_from sep Plain (c :: cur) (s ++ r)
              = match s with [] => read_fields_from sep Plain (c :: cur) r
                | _ => read_fields_from sep Plain (rev s ++ c :: cur) r end) by (apply IH; auto).
  destruct Hst as [-> | ->]; rewrite E; destruct s; try reflexivity; cbn [rev]; now rewrite <- !app_assoc.
Qed.
Lemma fields_quoted sep s cur r :
  read_fields_from sep Quoted cur (flat_map (fun b => if b =? 34 then [34; 34] else [b]) s ++ r)
  = read_fields_from sep Quoted (rev s ++ cur) r.
Proof.
  revert cur. induction s as [|c s IH]; intros cur; [reflexivity|].
  cbn [flat_map rev]. destruct (N.eqb_spec c 34) as [->|C].
  - cbn [app read_fields_from]. change (34 =? 34) with true. cbn iota. rewrite IH. now rewrite <- app_assoc.
  - cbn [app read_fields_from]. apply N.eqb_neq in C. rewrite C. rewrite IH. now rewrite <- app_assoc.
Qed.
Lemma field_sep sep s r : separator sep ->
  read_fields_from sep Start [] (escape_string s ++ sep :: r)
  = match read_fields_from sep Start [] r with Some (fs, rest) => Some (s :: fs, rest) | None => None end.
Proof.
  intros SE. assert (S34 : sep =? 34 = false) by (destruct SE; subst; reflexivity).
  assert (S34' : 34 =? sep = false) by (destruct SE; subst; reflexivity).
  unfold escape_string. destruct (existsb needs_quotes s) eqn:E.
  - cbn [app read_fields_from]. rewrite S34'. change (34 =? 10) with false. change (34 =? 34) with true. cbn iota.
    rewrite <- app_assoc, fields_quoted, app_nil_r. cbn [app read_fields_from].
    change (34 =? 34) with true. cbn iota. rewrite S34, N.eqb_refl, rev_involutive. reflexivity.
  - rewrite fields_plain by auto. destruct s as [|c s]; cbn [read_fields_from]; rewrite N.eqb_refl.
    + reflexivity.
    + rewrite app_nil_r, rev_involutive. reflexivity.
Qed.
Lemma field_end sep s r : separator sep -> read_fields_from sep Start [] (escape_string s ++ 10 :: r) = Some ([s], r).
Proof.
  intros SE. assert (S10 : 10 =? sep = false) by (destruct SE; subst; reflexivity).
  assert (S34' : 34 =? sep = false) by (destruct SE; subst; reflexivity).
  unfold escape_string. destruct (existsb needs_quotes s) eqn:E.
  - cbn [app read_fields_from]. rewrite S34'. change (34 =? 10) with false. change (34 =? 34) with true. cbn iota.
    rewrite <- app_assoc, fields_quoted, app_nil_r. cbn [app read_fields_from].
    change (34 =? 34) with true. change (10 =? 34) with false. cbn iota. rewrite S10. change (10 =? 10) with true. cbn iota.
    now rewrite rev_involutive.
  - rewrite fields_plain by auto. destruct s as [|c s]; cbn [read_fields_from]; rewrite S10; change (10 =? 10) with true; cbn iota.
    + reflexivity.
    + now rewrite app_nil_r, rev_involutive.
Qed.
Lemma row_read sep f fs rest : separator sep ->
  read_fields sep (joined sep (map escape_string (f :: fs)) ++ rest) = Some (f :: fs, rest).
Proof.
  intros SE. unfold read_fields. revert f. induction fs as [|g fs IH]; intros f.
  - cbn [map joined]. rewrite <- app_assoc. cbn [app]. now rewrite field_end.
  - specialize (IH g). cbn [map] in IH |- *.
    change (joined sep (escape_string f :: escape_string g :: map escape_string fs))
      with (escape_string f ++ [sep] ++ joined sep (escape_string g :: map escape_string fs)).
    rewrite <- !app_assoc. cbn [app]. rewrite field_sep by exact SE. now rewrite IH.
Qed.
Definition row_line (sep : N) (row : list (list N)) : list N := joined sep (map escape_string row).
Lemma rows_read sep rows rest : separator sep -> Forall (fun r => r <> []) rows ->
  reads_rows sep (flat_map (row_line sep) rows ++ rest) rows rest.
Proof.
  intros SE F. induction F as [|r rows F0 F IH]; [constructor|]. cbn [flat_map]. rewrite <- app_assoc.
  destruct r as [|f fs]; [congruence|]. econstructor; [now apply row_read|exact IH].
Qed.

(** ** Values *)
Lemma value_iter_from k fuel : forall i, (List.length (kn_values k) < fuel + N.to_nat i)%nat ->
  value_iter fuel k i = skipn (N.to_nat i) (kn_values k).
Proof.
  induction fuel as [|fuel IH]; intros i L.
  { cbn [value_iter]. symmetry. apply skipn_all2. lia. }
  cbn [value_iter]. unfold next_value, get_at.
  destruct (N.ltb_spec i (len (kn_values k))) as [H|H]; unfold len in H.
  2:{ symmetry. apply skipn_all2. lia. }
  destruct (nth_error (kn_values k) (N.to_nat i)) as [v|] eqn:E.
  - rewrite IH by lia. replace (N.to_nat (i + 1)) with (S (N.to_nat i)) by lia.
    clear - E. revert E. generalize (N.to_nat i) as j, (kn_values k) as l. intros j. induction j as [|j IH]; intros [|x l] E; try discriminate.
    + now injection E as ->.
    + cbn [skipn]. now apply IH.
  - apply nth_error_None in E. lia.
Qed.
Lemma values_of_all k : values_of k = kn_values k.
Proof. unfold values_of. rewrite value_iter_from; [reflexivity|cbn; lia]. Qed.

(** ** The common format *)
Definition common_fields (r : renderer) (i : item) : list (list N) :=
  match i with
  | KeyItem k =>
      [text "key"; alloc_char (kn_state k); decimal (kn_offset k);
       (if unused (kn_state k) then kn_name k else tl (kn_path k)); []; []; []; rd_date r (kn_date k)]
  | ValueItem k v =>
      [text "value"; alloc_char (kv_state v); decimal (kv_offset v);
       (if unused (kv_state v) then [] else kn_name k); kv_pretty_name v; decimal (kv_type v);
       to_hex_string (data_bytes v); []]
  end.
Definition nonempty_path (i : item) : Prop :=
  match i with KeyItem k => unused (kn_state k) = false -> kn_path k <> [] | _ => True end.
Definition add_item (i : item) (t : totals) : totals :=
  match i with KeyItem k => add_key (kn_state k) t | ValueItem _ v => add_value (kv_state v) t end.
(** [f] writes the rows of [is]. *)
Definition writes (r : renderer) (f : totals -> res (list N * totals)) (is : list item) : Prop :=
  forall t b t', f t = Ok (b, t') ->
    b = flat_map (row_line 44) (map (common_fields r) is) /\ t' = fold_left (fun t i => add_item i t) is t
    /\ Forall nonempty_path is.
Lemma writes_each r {A} (f : A -> totals -> res (list N * totals)) (g : A -> list item) l :
  (forall x, In x l -> writes r (f x) (g x)) -> writes r (each f l) (flat_map g l).
Proof.
  induction l as [|x l IH]; intros H t b t' E; cbn [each] in E.
  { injection E as <- <-. repeat split. constructor. }
  destruct (f x t) as [[a t1]| | |] eqn:X; try discriminate. cbv beta iota in E.
  destruct (each f l t1) as [[b1 t2]| | |] eqn:L; try discriminate. cbv beta iota in E. injection E as <- <-.
  apply H in X as (-> & -> & NX); [|now left]. apply IH in L as (-> & -> & NL); [|intros y Y; apply H; now right].
  cbn [flat_map]. rewrite map_app, flat_map_app, fold_left_app. split; [reflexivity|]. split; [reflexivity|]. now apply Forall_app.
Qed.
Lemma letter_plain s : plain (alloc_char s).
Proof. destruct s; repeat constructor; cbn; lia. Qed.
Lemma text_plain_key : plain (text "key"). Proof. repeat constructor; cbn; lia. Qed.
Lemma text_plain_value : plain (text "value"). Proof. repeat constructor; cbn; lia. Qed.
Lemma writes_key r k : (forall z, plain (rd_date r z)) -> writes r (common_key r k) [KeyItem k].
Proof.
  intros P t b t' E. unfold common_key in E.
  assert (G : forall path, Ok (text "key," ++ alloc_char (kn_state k) ++ text "," ++ decimal (kn_offset k) ++ text ","
      ++ escape_string path ++ text ",,,," ++ rd_date r (kn_date k) ++ [10], add_key (kn_state k) t) = Ok (b, t') ->
      path = (if unused (kn_state k) then kn_name k else tl (kn_path k)) ->
      b = flat_map (row_line 44) (map (common_fields r) [KeyItem k]) /\ t' = add_key (kn_state k) t).
  { intros path [= <- <-] ->. split; [|reflexivity]. cbn [map flat_map common_fields]. rewrite app_nil_r. unfold row_line.
    cbn [map]. rewrite (plain_escape _ text_plain_key), (plain_escape _ (letter_plain _)), (plain_escape _ (decimal_plain _)), (plain_escape _ (P _)).
    cbn [joined]. unfold text. cbn [list_ascii_of_string map String.list_ascii_of_string]. cbn [app].
    change (escape_string []) with (@nil N). cbn [app]. repeat rewrite <- app_assoc. reflexivity. }
  assert (SF : forall path, str_from (kn_path k) 1 = Ok path -> path = tl (kn_path k) /\ kn_path k <> []).
  { intros path S. unfold str_from, get_from in S. destruct (kn_path k) as [|c p]; [discriminate|].
    rewrite len_cons in S. destruct (N.leb_spec 1 (len p + 1)); [|lia]. change (N.to_nat 1) with 1%nat in S. cbn [skipn] in S. cbn [tl].
    split; [|discriminate]. destruct p as [|d p]; [now injection S as <-|]. destruct (_ && _); [discriminate|]. now injection S as <-. }
  cbn [fold_left add_item].
  assert (E' : exists path, path = (if unused (kn_state k) then kn_name k else tl (kn_path k))
    /\ nonempty_path (KeyItem k)
    /\ Ok (text "key," ++ alloc_char (kn_state k) ++ text "," ++ decimal (kn_offset k) ++ text ","
      ++ escape_string path ++ text ",,,," ++ rd_date r (kn_date k) ++ [10], add_key (kn_state k) t) = Ok (b, t')).
  { unfold nonempty_path. destruct (kn_state k); cbn [unused]; cbv beta iota in E;
      try (destruct (str_from (kn_path k) 1) as [path| | |] eqn:S; [|discriminate E..]; destruct (SF path eq_refl) as [S' NE]; cbv beta iota in E);
      eexists; (split; [first [eassumption|reflexivity]|]); (split; [first [intros X; discriminate X|intros _; assumption]|]); exact E. }
  destruct E' as (path & PE & NE & E'). destruct (G path E' PE) as [-> ->]. split; [reflexivity|]. split; [reflexivity|]. now constructor.
Qed.
Lemma writes_value r k v : writes r (common_value k v) [ValueItem k v].
Proof.
  intros t b t' [= <- <-]. split; [|split; [reflexivity|repeat constructor]]. cbn [map flat_map common_fields]. rewrite app_nil_r. unfold row_line.
  cbn [map]. rewrite (plain_escape _ text_plain_value), (plain_escape _ (letter_plain _)), !(plain_escape _ (decimal_plain _)), (plain_escape _ (hex_plain _)).
  cbn [joined]. unfold text. cbn [list_ascii_of_string map String.list_ascii_of_string app]. repeat rewrite <- app_assoc. cbn [app].
  unfold data_bytes. destruct (kv_state v); cbn [unused]; reflexivity.
Qed.
Lemma flat_map_single {A B} (f : A -> B) l : flat_map (fun x => [f x]) l = map f l.
Proof. induction l; cbn; congruence. Qed.
Lemma writes_item r k : (forall z, plain (rd_date r z)) -> writes r (common_item r k) (common_items k).
Proof.
  intros P t b t' E. unfold common_item in E.
  destruct (common_key r k t) as [[a t1]| | |] eqn:A; try discriminate. cbv beta iota in E. apply (writes_key r k P) in A as (-> & -> & N1).
  destruct (each (common_key r) (kn_versions k) _) as [[b1 t2]| | |] eqn:B; try discriminate. cbv beta iota in E.
  apply (writes_each r (common_key r) (fun k => [KeyItem k])) in B as (-> & -> & N2); [|intros; now apply writes_key].
  match type of E with match ?x with _ => _ end = _ => destruct x as [[c t3]| | |] eqn:C; try discriminate end. cbv beta iota in E.
  rewrite values_of_all in C.
  apply (writes_each r _ (fun v => ValueItem k v :: map (ValueItem k) (kv_versions v))) in C as (-> & -> & N3).
  2:{ intros v _ t0 b0 t0' X. destruct (common_value k v t0) as [[x t4]| | |] eqn:V; try discriminate. cbv beta iota in X.
      apply (writes_value r) in V as (-> & -> & M1).
      destruct (each (common_value k) (kv_versions v) _) as [[y t5]| | |] eqn:W; try discriminate. cbv beta iota in X.
      apply (writes_each r (common_value k) (fun v => [ValueItem k v])) in W as (-> & -> & M2); [|intros; apply writes_value].
      injection X as <- <-. rewrite flat_map_single in *.
      change (ValueItem k v :: map (ValueItem k) (kv_versions v)) with ([ValueItem k v] ++ map (ValueItem k) (kv_versions v)).
      rewrite (map_app (common_fields r)), flat_map_app, fold_left_app. split; [reflexivity|]. split; [reflexivity|]. now apply Forall_app. }
  injection E as <- <-. rewrite flat_map_single in *. fold (value_items k) in *.
  unfold common_items. change (KeyItem k :: map KeyItem (kn_versions k) ++ value_items k) with ([KeyItem k] ++ map KeyItem (kn_versions k) ++ value_items k).
  rewrite !(map_app (common_fields r)), !flat_map_app, !fold_left_app. split; [reflexivity|]. split; [reflexivity|].
  apply Forall_app. split; [exact N1|]. now apply Forall_app.
Qed.

Lemma total_of r (proj : totals -> N) kind l :
  (forall i t, proj (add_item i t) = if row_is kind l (common_fields r i) then w32 (proj t + 1) else proj t) ->
  forall is t, proj t < 2 ^ 32 ->
  proj (fold_left (fun t i => add_item i t) is t) = (proj t + row_count kind l (map (common_fields r) is)) mod 2 ^ 32.
Proof.
  intros H. change (2 ^ 32) with 4294967296. unfold row_count. induction is as [|i is IH]; intros t L; cbn [fold_left map List.filter].
  { cbn [len List.length]. rewrite N.add_0_r. symmetry. now apply N.mod_small. }
  rewrite IH; rewrite H; destruct (row_is kind l (common_fields r i)); rewrite ?len_cons; unfold w32 in *; change (2 ^ 32) with 4294967296 in *;
    try change 0x100000000 with 4294967296 in *; lia.
Qed.
Ltac tally := intros [?|? ?] [? ? ? ? ? ? ? ?]; cbn [add_item common_fields];
  match goal with |- context [alloc_char ?s] => destruct s end; reflexivity.
Lemma totals_read r is : Forall2 (total_right (map (common_fields r) is)) totals_shown
  (total_lines (fold_left (fun t i => add_item i t) is no_totals)).
Proof.
  unfold totals_shown, total_lines, total_line.
  repeat (apply Forall2_cons; [unfold total_right; cbn [fst snd]; eexists; split; [reflexivity|];
    match goal with |- numeral (decimal (?p (fold_left _ _ _))) (row_count ?k ?l _ mod _) =>
      rewrite (total_of r p k l); [cbn [no_totals t_keys t_values t_unused_keys t_unused_values t_deleted_keys t_deleted_values t_modified_keys t_modified_values]; rewrite N.add_0_l; apply decimal_numeral
        |tally|reflexivity] end|]). constructor.
Qed.

Lemma no_newline_plain s : plain s -> ~ In 10 s.
Proof. intros P I. unfold plain in P. rewrite Forall_forall in P. apply (P 10 I). cbn. tauto. Qed.
Lemma comments_read sep cs s ls : Forall (fun c => exists t, c = hashes ++ t /\ ~ In 10 t) cs ->
  reads_as sep s ls -> reads_as sep (lines cs ++ s) (map Comment cs ++ ls).
Proof.
  intros F R. induction F as [|c cs (t & -> & N0) F IH]; [exact R|]. unfold lines in *. cbn [flat_map map app].
  replace ((((hashes ++ t) ++ [10]) ++ flat_map (fun x => x ++ [10]) cs) ++ s) with (hashes ++ t ++ 10 :: (flat_map (fun x => x ++ [10]) cs ++ s)).
  2:{ rewrite <- !app_assoc. reflexivity. }
  now apply (as_comment sep t).
Qed.
Lemma header_comments : Forall (fun c => exists t, c = hashes ++ t /\ ~ In 10 t) common_header.
Proof.
  assert (D : forall c, forallb (fun x => negb (x =? 10)) c = true -> ~ In 10 c).
  { intros c H I. rewrite forallb_forall in H. apply H in I. discriminate. }
  assert (H : forallb (fun c => beq (firstn 2 c) hashes && forallb (fun x => negb (x =? 10)) (skipn 2 c)) common_header = true)
    by (vm_compute; reflexivity).
  revert H. induction common_header as [|c cs IH]; cbn [forallb]; intros H; [constructor|].
  apply andb_prop in H as [H0 H]. constructor; [|now apply IH]. apply andb_prop in H0 as [H0 H1]. apply beq_eq in H0.
  exists (skipn 2 c). split; [rewrite <- H0; symmetry; apply firstn_skipn|now apply D].
Qed.
Lemma total_comments t : Forall (fun c => exists t, c = hashes ++ t /\ ~ In 10 t) (total_lines t).
Proof.
  assert (D : forall c, forallb (fun x => negb (x =? 10)) c = true -> ~ In 10 c).
  { intros c H I. rewrite forallb_forall in H. apply H in I. discriminate. }
  unfold total_lines.
  assert (L : forall s n, forallb (fun x => negb (x =? 10)) (text s) = true -> exists u, total_line s n = hashes ++ u /\ ~ In 10 u).
  { intros s n H. exists (32 :: text s ++ text ": " ++ decimal n). split; [reflexivity|]. intros [X|X]; [discriminate|].
    rewrite !in_app_iff in X. destruct X as [X|[X|X]]; [now apply D in X|cbn in X; lia|].
    apply no_newline_plain in X; [exact X|apply decimal_plain]. }
  repeat (apply Forall_cons; [apply L; reflexivity|]). constructor.
Qed.
Lemma common_rows_read r is s ls : reads_as 44 s ls ->
  reads_as 44 (flat_map (row_line 44) (map (common_fields r) is) ++ s) (map Row (map (common_fields r) is) ++ ls).
Proof.
  intros R. induction is as [|i is IH]; [exact R|]. cbn [map flat_map app]. rewrite <- app_assoc.
  assert (NE : exists f fs, common_fields r i = f :: fs /\ (f = text "key" \/ f = text "value")) by (destruct i; cbn; eauto).
  destruct NE as (f & fs & E & F). rewrite E. econstructor; [|apply row_read; now right|exact IH].
  assert (X : exists z, row_line 44 (f :: fs) ++ flat_map (row_line 44) (map (common_fields r) is) ++ s
     = f ++ z). { assert (P : escape_string f = f) by (destruct F as [-> | ->]; reflexivity). unfold row_line at 1. cbn [map]. rewrite P.
     destruct fs; cbn [map joined]; eexists; rewrite <- app_assoc; reflexivity. }
  destruct X as [z ->]. destruct F as [-> | ->]; cbn; discriminate.
Qed.
Lemma field_shows r i : nonempty_path i -> common_row (fun k => rd_date r (kn_date k)) i (common_fields r i).
Proof.
  intros NE. destruct i as [k|k v].
  - exists (decimal (kn_offset k)). split; [apply decimal_numeral|].
    exists (if unused (kn_state k) then kn_name k else tl (kn_path k)). split.
    + cbn in NE. destruct (unused (kn_state k)); [reflexivity|]. destruct (kn_path k) as [|c p]; [now destruct NE|now exists c].
    + reflexivity.
  - exists (decimal (kv_offset v)). split; [apply decimal_numeral|]. exists (decimal (kv_type v)), (to_hex_string (data_bytes v)).
    split; [apply decimal_numeral|]. split; [apply hex_round_trip|]. cbn [common_fields].
    replace (kv_pretty_name v) with (value_name v); [reflexivity|]. unfold value_name, kv_pretty_name, get_pretty_name. now destruct (vd_name (kv_detail v)).
Qed.
Lemma ok_inj {A} (x y : A) : Ok x = Ok y -> x = y.
Proof. now intros [=]. Qed.
Lemma common_export_read r ks out : (forall z, plain (rd_date r z)) -> common_export r ks = Ok out ->
  exists rows totals, reads_as 44 out (map Comment common_header ++ map Row rows ++ map Comment totals)
  /\ Forall2 (common_row (fun k => rd_date r (kn_date k))) (flat_map common_items ks) rows
  /\ Forall2 (total_right rows) totals_shown totals.
Proof.
  intros P E. unfold common_export in E. destruct (each (common_item r) ks no_totals) as [[b t]| | |] eqn:L; try discriminate.
  cbv beta iota in E. apply ok_inj in E. subst out. apply (writes_each r (common_item r) common_items) in L as (-> & -> & NE); [|intros; now apply writes_item].
  exists (map (common_fields r) (flat_map common_items ks)), (total_lines (fold_left (fun t i => add_item i t) (flat_map common_items ks) no_totals)).
  split; [|split; [|apply totals_read]].
  - apply comments_read; [apply header_comments|]. apply common_rows_read. rewrite <- (app_nil_r (map Comment _)), <- (app_nil_r (lines _)).
    apply comments_read; [apply total_comments|constructor].
  - induction NE as [|i is N0 NE IH]; constructor; [now apply field_shows|exact IH].
Qed.
(** The text is read in one way only. *)
Lemma newline_split (a b c d : list N) : ~ In 10 a -> ~ In 10 b -> a ++ 10 :: c = b ++ 10 :: d -> a = b /\ c = d.
Proof.
  revert b. induction a as [|x a IH]; intros [|y b] A B E; cbn [app] in E.
  - now injection E.
  - injection E as E0 _. destruct B. now left.
  - injection E as E0 _. destruct A. now left.
  - injection E as <- E. destruct (IH b) as [-> ->]; [intros X; apply A; now right|intros X; apply B; now right|exact E|now split].
Qed.
Lemma reads_as_unique sep s l : reads_as sep s l -> forall l', reads_as sep s l' -> l = l'.
Proof.
  induction 1 as [|t s ls N0 R IH|s r s' ls H F R IH]; intros l' R'.
  - inversion R' as [| |? ? ? ? ? F]; [reflexivity|]. unfold hashes in *. subst. discriminate F.
  - inversion R' as [|t' s0 ls' N1 R1 E|? ? ? ? H F]; subst.
    + apply newline_split in E as [-> ->]; [|assumption..]. f_equal. now apply IH.
    + destruct (H eq_refl).
  - inversion R' as [E|t' s0 ls' N1 R1 E|? ? ? ? H' F']; subst.
    + discriminate F.
    + destruct (H eq_refl).
    + rewrite F in F'. injection F' as <- <-. f_equal. now apply IH.
Qed.

(** ** TSV *)
Definition tsv_fields (r : renderer) (n : N) (i : item) : list (list N) :=
  match i with
  | KeyItem k =>
      [decimal n; kn_path k; decimal (len (kn_sub_offsets k)); []; []; rd_date r (kn_date k); state_name (kn_state k);
       seq_text (kn_seq k); seq_text (kn_updated_by k); rd_flags r (kd_flags (kn_detail k));
       rd_access r (kd_access (kn_detail k)); []; rd_key_logs r k]
  | ValueItem k v =>
      [decimal n; kn_path k; []; kv_pretty_name v; rd_content r v; []; state_name (kv_state v);
       seq_text (kv_seq v); seq_text (kv_updated_by v); []; []; rd_type r v; rd_value_logs r v]
  end.
Fixpoint numbered (r : renderer) (n : N) (is : list item) : list (list (list N)) :=
  match is with [] => [] | i :: is => tsv_fields r (n + 1) i :: numbered r (n + 1) is end.
Lemma numbered_app r a b : forall n, numbered r n (a ++ b) = numbered r n a ++ numbered r (n + len a) b.
Proof.
  induction a as [|i a IH]; intros n; cbn [app numbered]; [f_equal; unfold len; cbn; lia|].
  rewrite IH, len_cons. cbn [app]. do 2 f_equal. f_equal. lia.
Qed.
Definition emits (r : renderer) (f : N -> list N * N) (is : list item) : Prop :=
  forall n, f n = (flat_map (row_line 9) (numbered r n is), n + len is).
Lemma emits_each r {A} (f : A -> N -> list N * N) (g : A -> list item) l :
  (forall x, In x l -> emits r (f x) (g x)) -> emits r (count_each f l) (flat_map g l).
Proof.
  induction l as [|x l IH]; intros H n; cbn [count_each flat_map].
  { unfold len. cbn. f_equal. lia. }
  rewrite (H x (or_introl eq_refl)). rewrite IH by (intros y Y; apply H; now right).
  rewrite numbered_app, flat_map_app, len_app. f_equal. lia.
Qed.
Lemma state_plain s : plain (state_name s).
Proof. destruct s; repeat constructor; cbn; lia. Qed.
Lemma key_kept o k : negb o || kn_has_or_is_recovered k = kept o (KeyItem k).
Proof. destruct o; [|reflexivity]. cbn [negb orb kept]. unfold kn_has_or_is_recovered, recovered_item. cbn [item_state]. now destruct (kn_state k). Qed.
Lemma value_kept o k v : negb o || kv_has_or_is_recovered v = kept o (ValueItem k v).
Proof. destruct o; [|reflexivity]. cbn [negb orb kept]. unfold kv_has_or_is_recovered, recovered_item. cbn [item_state]. now destruct (kv_state v). Qed.
Lemma emits_value r o k v : plain_renderer r -> emits r (tsv_value r o k v) (List.filter (kept o) [ValueItem k v]).
Proof.
  intros (P1 & P2 & P3 & P4) n. unfold tsv_value. rewrite (value_kept o k v). cbn [List.filter].
  destruct (kept o (ValueItem k v)); [|cbn [numbered flat_map]; change (len (@nil item)) with 0; now rewrite N.add_0_r].
  cbn [numbered flat_map tsv_fields]. rewrite app_nil_r. unfold row_line. cbn [map].
  rewrite (plain_escape _ (decimal_plain _)), (plain_escape _ (state_plain _)), !(plain_escape _ (seq_plain _)), (plain_escape _ (P4 _)).
  change (escape_string []) with (@nil N). cbn [joined]. repeat rewrite <- app_assoc. reflexivity.
Qed.
Lemma filter_flat {A B} (p : B -> bool) (g : A -> list B) l : List.filter p (flat_map g l) = flat_map (fun x => List.filter p (g x)) l.
Proof. induction l as [|x l IH]; cbn [flat_map]; [reflexivity|]. now rewrite filter_app, IH. Qed.
Lemma emits_values r o k : plain_renderer r ->
  emits r (count_each (fun v i =>
        let (x, i) := tsv_value r o k v i in
        let (y, i) := count_each (tsv_value r o k) (kv_versions v) i in
        (x ++ y, i)) (values_of k)) (List.filter (kept o) (value_items k)).
Proof.
  intros P. rewrite values_of_all. unfold value_items. rewrite filter_flat. apply emits_each. intros v _ n.
  rewrite (emits_value r o k v P).
  rewrite (emits_each r (tsv_value r o k) (fun v => List.filter (kept o) [ValueItem k v])) by (intros; now apply emits_value).
  rewrite <- (flat_map_app (row_line 9)), <- numbered_app.
  replace (flat_map (fun v0 => List.filter (kept o) [ValueItem k v0]) (kv_versions v)) with (List.filter (kept o) (map (ValueItem k) (kv_versions v))).
  2:{ rewrite <- flat_map_single, filter_flat. reflexivity. }
  rewrite <- N.add_assoc, <- len_app, <- filter_app. reflexivity.
Qed.
Lemma tsv_key_unfold r o k m n : plain_renderer r -> tsv_key r o k m n =
  let (a, index) :=
    if negb o || kn_has_or_is_recovered k then
      let (b, index) := count_each (fun v i => tsv_key r o v true i) (kn_versions k) (n + 1) in
      (row_line 9 (tsv_fields r (n + 1) (KeyItem k)) ++ b, index)
    else ([], n) in
  let (b, index) :=
    if m then ([], index)
    else
      count_each (fun v i =>
        let (x, i) := tsv_value r o k v i in
        let (y, i) := count_each (tsv_value r o k) (kv_versions v) i in
        (x ++ y, i)) (values_of k) index in
  (a ++ b, index).
Proof.
  intros (P1 & P2 & P3 & P4). unfold row_line, tsv_fields. cbn [map].
  rewrite (plain_escape _ (state_plain _)), !(plain_escape _ (decimal_plain _)), !(plain_escape _ (seq_plain _)),
    (plain_escape _ (P1 _)), (plain_escape _ (P2 _)), (plain_escape _ (P3 _)). cbn [joined]. change (escape_string []) with (@nil N).
  repeat rewrite <- app_assoc. destruct k. reflexivity.
Qed.
Lemma versions_ind (P : key_node -> Prop) : (forall k, Forall P (kn_versions k) -> P k) -> forall k, P k.
Proof.
  intros H. fix IH 1. intros k. apply H. destruct k as [a b c d e f g h i j l vs]. cbn [kn_versions].
  exact ((fix all (vs : list key_node) : Forall P vs :=
    match vs with [] => Forall_nil P | v :: vs => Forall_cons v (IH v) (all vs) end) vs).
Qed.
Lemma emits_versions r o : plain_renderer r -> forall k, emits r (tsv_key r o k true) (List.filter (kept o) (version_items k)).
Proof.
  intros P. apply (versions_ind (fun k => emits r (tsv_key r o k true) (List.filter (kept o) (version_items k)))).
  intros k IH n. rewrite (tsv_key_unfold r o k true n P), key_kept. rewrite Forall_forall in IH.
  assert (V : emits r (count_each (fun v i => tsv_key r o v true i) (kn_versions k)) (flat_map (fun v => List.filter (kept o) (version_items v)) (kn_versions k))).
  { apply emits_each. intros v I. exact (IH v I). }
  assert (U : version_items k = KeyItem k :: flat_map version_items (kn_versions k)) by now destruct k.
  rewrite U. cbn [List.filter]. rewrite filter_flat. destruct (kept o (KeyItem k)) eqn:K.
  - rewrite V. cbn [numbered flat_map]. rewrite len_cons, app_nil_r. f_equal. lia.
  - destruct o; [|discriminate K]. cbn [kept] in K. unfold recovered_item in K. apply orb_false_iff in K as [_ K].
    destruct (kn_versions k); [|discriminate K]. cbn [flat_map numbered]. change (len (@nil item)) with 0. now rewrite N.add_0_r.
Qed.
Lemma emits_key r o k : plain_renderer r -> emits r (tsv_key r o k false) (List.filter (kept o) (tsv_items k)).
Proof.
  intros P n. pose proof (emits_versions r o P k n) as V. rewrite (tsv_key_unfold r o k true n P) in V. rewrite (tsv_key_unfold r o k false n P).
  unfold tsv_items. rewrite filter_app, numbered_app, flat_map_app, len_app.
  destruct (if negb o || kn_has_or_is_recovered k then _ else ([], n)) as [a i]. rewrite app_nil_r in V. injection V as -> ->.
  rewrite (emits_values r o k P). f_equal. lia.
Qed.
Lemma header_row : tsv_header = row_line 9 tsv_columns.
Proof. vm_compute. reflexivity. Qed.
Lemma numbered_rows r is : forall n, tsv_rows (shown_by r) (n + 1) is (numbered r n is).
Proof.
  induction is as [|i is IH]; intros n; cbn [numbered]; constructor; [|apply IH].
  exists (decimal (n + 1)). split; [apply decimal_numeral|]. destruct i as [k|k v].
  - exists (seq_text (kn_seq k)), (seq_text (kn_updated_by k)). split; [apply seq_numeral|]. split; [apply seq_numeral|].
    exists (decimal (len (kn_sub_offsets k))). split; [apply decimal_numeral|]. reflexivity.
  - exists (seq_text (kv_seq v)), (seq_text (kv_updated_by v)). split; [apply seq_numeral|]. split; [apply seq_numeral|].
    cbn [tsv_fields shown_by sh_content sh_type sh_logs].
    replace (kv_pretty_name v) with (value_name v); [reflexivity|]. unfold value_name, kv_pretty_name, get_pretty_name. now destruct (vd_name (kv_detail v)).
Qed.
Lemma log_tailed log : [10] ++ text "Logs" ++ [10] ++ text "-----------" ++ [10] ++ logs_write log = log_tail log.
Proof. unfold log_tail. now rewrite written_lines. Qed.
Lemma tsv_export_read r o ks log : plain_renderer r -> exists rows,
  reads_rows 9 (tsv_export r o ks log) (tsv_columns :: rows)
    (log_tail log)
  /\ tsv_rows (shown_by r) 1 (List.filter (kept o) (flat_map tsv_items ks)) rows.
Proof.
  intros P. unfold tsv_export. rewrite log_tailed.
  rewrite (emits_each r (fun k i => tsv_key r o k false i) (fun k => List.filter (kept o) (tsv_items k)) ks) by (intros; now apply emits_key).
  cbn [fst]. rewrite <- filter_flat. exists (numbered r 0 (List.filter (kept o) (flat_map tsv_items ks))). split; [|apply (numbered_rows r _ 0)].
  rewrite header_row. econstructor; [apply row_read; now left|]. apply rows_read; [now left|].
  generalize (List.filter (kept o) (flat_map tsv_items ks)) as is, 0. induction is as [|i is IH]; intros n; constructor; [|apply IH].
  destruct i; discriminate.
Qed.

(** ** When there is an export *)
Lemma str_from_92 rest c : read_utf8 rest = Some c -> str_from (92 :: rest) 1 = Ok rest.
Proof.
  intros R. unfold str_from, get_from. rewrite len_cons. replace (1 <=? len rest + 1) with true by (symmetry; apply N.leb_le; lia).
  change (skipn (N.to_nat 1) (92 :: rest)) with rest. destruct rest as [|b r]; [reflexivity|].
  replace (is_cont b) with false; [reflexivity|]. unfold is_cont. cbn [read_utf8] in R.
  destruct (N.ltb_spec b 0x80); [now destruct (N.leb_spec 0x80 b); [lia|]|].
  destruct (N.ltb_spec b 0xC2); [discriminate R|]. destruct (N.ltb_spec b 0xC0); [lia|]. now rewrite andb_false_r.
Qed.
Lemma each_ok {A} (f : A -> totals -> res (list N * totals)) l :
  (forall x t, In x l -> exists o, f x t = Ok o) -> forall t, exists o, each f l t = Ok o.
Proof.
  induction l as [|x l IH]; intros H t; cbn [each]; [eauto|].
  destruct (H x t (or_introl eq_refl)) as ((a & t1) & ->). cbv beta iota.
  destruct (IH (fun y t I => H y t (or_intror I)) t1) as ((b & t2) & ->). cbv beta iota. eauto.
Qed.
Lemma common_key_ok r k t : path_shown k -> exists o, common_key r k t = Ok o.
Proof.
  intros P. unfold common_key, path_shown in *.
  destruct P as [U|(rest & c & E & R)].
  - destruct (kn_state k); try discriminate U; eauto.
  - rewrite E, (str_from_92 _ _ R). destruct (kn_state k); cbv beta iota; eauto.
Qed.
Lemma common_export_ok r ks : (forall k, In (KeyItem k) (flat_map common_items ks) -> path_shown k) -> exists out, common_export r ks = Ok out.
Proof.
  intros H. unfold common_export.
  destruct (each_ok (common_item r) ks) with (t := no_totals) as ((b & t) & ->); [|cbv beta iota; eauto].
  intros k t I.
  assert (G : forall v, In (KeyItem v) (common_items k) -> path_shown v) by (intros v J; apply H, in_flat_map; eauto).
  unfold common_item. destruct (common_key_ok r k t) as ((a & t1) & ->); [apply G; now left|]. cbv beta iota.
  destruct (each_ok (common_key r) (kn_versions k)) with (t := t1) as ((b & t2) & ->).
  { intros v u J. apply common_key_ok, G. right. apply in_or_app. left. now apply in_map. }
  cbv beta iota. match goal with |- context [each ?f ?l t2] => destruct (each_ok f l) with (t := t2) as ((c & t3) & ->); [|cbv beta iota; eauto] end.
  intros v u _. unfold common_value at 1. cbv beta iota.
  match goal with |- context [each ?f ?l ?u1] => destruct (each_ok f l) with (t := u1) as ((d & t4) & ->); [|cbv beta iota; eauto] end.
  intros w u' _. unfold common_value. eauto.
Qed.

(** ** Whole hives *)
Lemma clean_items k : clean k -> common_items k = KeyItem k :: map (ValueItem k) (kn_values k).
Proof.
  intros (_ & _ & V & F). unfold common_items, value_items. rewrite V. cbn [map app]. f_equal.
  induction F as [|v l C F IH]; [reflexivity|]. cbn [flat_map map]. destruct C as (_ & ->). cbn [map app]. now rewrite IH.
Qed.

Lemma path_tail k names t : key_shown k names t -> names <> [] -> exists rest, kn_path k = 92 :: rest /\ read_utf8 rest = Some (tl (spelled names)).
Proof.
  intros (_ & _ & P & _) N0. destruct names as [|n names]; [congruence|]. apply read_utf8_exact in P as (F & ->).
  change (spelled (n :: names)) with (92 :: n ++ spelled names) in *. inversion F; subst.
  exists (utf8 (n ++ spelled names)). split; [reflexivity|]. now apply read_utf8_utf8.
Qed.
Lemma preorder_names t : forall above x, In x (preorder above t) -> fst x <> [].
Proof.
  induction t as [p n vs subs IH] using tree_ind'. intros above x I. cbn [preorder] in I. destruct I as [<-|I].
  - cbn [fst]. now destruct above.
  - apply in_flat_map in I as (s & I & J). rewrite Forall_forall in IH. exact (IH s I _ _ J).
Qed.
Definition item_shown (i : item) (x : list (list N) * key_tree * option value) : Prop :=
  match i, snd x with
  | KeyItem k, None => key_shown k (fst (fst x)) (snd (fst x)) /\ fst (fst x) <> []
  | ValueItem k v, Some y => key_shown k (fst (fst x)) (snd (fst x)) /\ value_shown v y
  | _, _ => False
  end.
Lemma items_shown ks l : Forall clean ks -> shown ks l -> Forall (fun x => fst x <> []) l ->
  Forall2 item_shown (flat_map common_items ks) (flat_map (fun x => (x, None) :: map (fun v => (x, Some v)) (t_vals (snd x))) l).
Proof.
  intros C S0. induction S0 as [|k x ks l K S0 IH]; intros F; [constructor|]. inversion C; subst. inversion F; subst.
  cbn [flat_map]. apply Forall2_app; [|now apply IH]. rewrite clean_items by assumption. constructor; [now split|].
  assert (V : Forall2 value_shown (kn_values k) (t_vals (snd x))) by apply K.
  induction V as [|v y vs ys V0 V IHV]; constructor; [now split|exact IHV].
Qed.
Lemma item_row d i x row : item_shown i x -> common_row d i row -> tree_row x row.
Proof.
  destruct x as [[names t] o]. unfold item_shown. cbn [fst snd]. intros H (off & R).
  destruct i as [k|k v], o as [y|]; try contradiction; cbn [tree_row].
  - destruct H as (K & N0). destruct R as (Q & name & P & ->). destruct (path_tail _ _ _ K N0) as (rest & E & U).
    destruct K as (KO & _ & _ & _ & KS). rewrite KS in *. cbn [unused letter] in *. destruct P as (c & P). rewrite P in E. injection E as _ ->.
    exists off, rest, (d k). rewrite <- KO. auto.
  - destruct H as (K & V). destruct R as (Q & ty & data & T & B & ->). destruct V as (VN & VT & VB & VS & VK).
    unfold data_bytes in B. rewrite VB in B. rewrite VS. cbn [unused letter].
    exists off, (kn_name k), (value_name v), ty, data. split; [reflexivity|]. split; [apply K|]. split; [|split; [now rewrite <- VK|exact B]].
    unfold value_name. destruct (vd_name (kv_detail v)) as [|c n] eqn:E.
    + injection VN as <-. vm_compute. reflexivity.
    + rewrite VN. destruct (v_name y) as [|c' n']; [|reflexivity]. apply read_utf8_exact in VN as (_ & VN). discriminate VN.
Qed.
Lemma shown_paths ks l : Forall clean ks -> shown ks l -> Forall (fun x => fst x <> []) l ->
  forall k, In (KeyItem k) (flat_map common_items ks) -> path_shown k.
Proof.
  intros C S0. induction S0 as [|k x ks l K S0 IH]; intros F y I; [contradiction|]. inversion C; subst. inversion F; subst.
  cbn [flat_map] in I. apply in_app_or in I as [I|I]; [|now apply IH]. rewrite clean_items in I by assumption.
  destruct I as [I|I]; [injection I as <-|apply in_map_iff in I as (v & I & _); discriminate I].
  right. destruct (path_tail _ _ _ K) as (rest & E & R); [assumption|]. eauto.
Qed.
Lemma common_shown r ks l : Forall clean ks -> shown ks l -> Forall (fun x => fst x <> []) l -> (forall z, plain (rd_date r z)) -> exists out rows totals,
  common_export r ks = Ok out
  /\ reads_as 44 out (map Comment common_header ++ map Row rows ++ map Comment totals)
  /\ Forall2 tree_row (flat_map (fun x => (x, None) :: map (fun v => (x, Some v)) (t_vals (snd x))) l) rows /\ Forall2 (total_right rows) totals_shown totals.
Proof.
  intros C SH F P. destruct (common_export_ok r ks) as (out & X); [now apply (shown_paths ks l)|].
  destruct (common_export_read r ks out P X) as (rows & totals & R1 & R2 & R3). exists out, rows, totals.
  split; [exact X|]. split; [exact R1|]. split; [|exact R3].
  pose proof (items_shown _ _ C SH F) as I.
  clear - R2 I. revert R2. generalize rows. induction I as [|i x is xs I0 I IH]; intros rw R; inversion R; subst; constructor.
  - eapply item_row; eassumption.
  - now apply IH.
Qed.
Lemma hive_export buffer files t p ok p' n r : opens buffer files t p -> used ok p p' -> (2 * length (positions t) < n)%nat ->
  (forall z, plain (rd_date r z)) -> exists out rows totals,
  write_common n r p' None = Ok out
  /\ reads_as 44 out (map Comment common_header ++ map Row rows ++ map Comment totals)
  /\ Forall2 tree_row (tree_items t) rows /\ Forall2 (total_right rows) totals_shown totals.
Proof.
  intros O U L P. pose proof O as (KF & _ & order & fuel & hash & full & B).
  destruct (session_preorder _ _ _ _ _ _ false true n O (used_not ok p) L) as (ks & E & SH).
  pose proof (iterate_clean _ _ _ _ _ _ _ _ _ _ _ _ _ KF B E) as C.
  assert (F : Forall (fun x => fst x <> []) (preorder [] t)) by (apply Forall_forall; intros x; apply preorder_names).
  unfold write_common. rewrite (moved_iterate p p' _ _ _ _ (used_moved _ _ _ U)), E. cbv beta iota.
  exact (common_shown r ks _ C SH F P).
Qed.
