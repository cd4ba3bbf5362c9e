(** Decoders, one after another. *)
From Verif Require Import Base BaseFacts Util UtilSpec UtilText UtilLz LayoutSpec LayoutFacts Types Value CellSpec CellRead Python DecodeSpec.

Lemma multi_ended : forall l pre junk fuel acc cnt, Forall (fun s => Forall bmp s /\ ~ Forall white_space s) l -> (length l < fuel)%nat ->
  len (pre ++ flat_map (fun s => utf16le s ++ [0; 0]) l ++ [0; 0]) <= cnt ->
  utf16_strings_loop fuel (pre ++ flat_map (fun s => utf16le s ++ [0; 0]) l ++ 0 :: 0 :: junk) cnt (len pre) acc 0 = Ok (rev acc ++ map utf8 l, 0).
Proof.
  induction l as [|s l IH]; intros pre junk fuel acc cnt F L C; (destruct fuel as [|fuel]; [cbn in L; lia|]); cbn [utf16_strings_loop flat_map app map] in *.
  - rewrite app_nil_r. rewrite !len_app, !len_cons, len_nil in C. destruct (N.ltb_spec (len pre) cnt); [|lia].
    rewrite get_from_app by reflexivity. cbn [or_panic]. change (0 :: 0 :: junk) with (utf16le [] ++ 0 :: 0 :: junk).
    rewrite single_text; [reflexivity|constructor|easy|]. right. split; [eauto|]. change (len (utf16le [])) with 0. lia.
  - inversion F as [|? ? [Hs Hw] Hl]; subst. rewrite <- !app_assoc in *. set (rest := flat_map (fun s0 => utf16le s0 ++ [0; 0]) l ++ 0 :: 0 :: junk).
    pose proof (len_utf16le_bmp s Hs) as LU. rewrite !len_app, !len_cons, len_nil in C.
    destruct (N.ltb_spec (len pre) cnt); [|lia]. rewrite get_from_app by reflexivity. cbn [or_panic].
    rewrite single_text; [|now apply bmp_scalar|now apply bmp_no0|]. 2:{ right. split; [eexists; reflexivity|lia]. }
    destruct (N.leb_spec (cnt - len pre) (len (utf16le s) + 1)); [lia|]. rewrite not_all_white by assumption.
    replace (pre ++ utf16le s ++ [0; 0] ++ rest) with ((pre ++ utf16le s ++ [0; 0]) ++ rest) by now rewrite <- !app_assoc.
    replace (len pre + len s * 2 + 2) with (len (pre ++ utf16le s ++ [0;0])) by (rewrite !len_app, !len_cons, len_nil; lia).
    replace (0 + 0) with 0 by lia. subst rest. rewrite IH; [|assumption|cbn in L; lia|].
    { cbn [rev]. now rewrite <- app_assoc. }
    rewrite !len_app, !len_cons, len_nil. lia.
Qed.
Lemma turned_rot c : rot13_char c = turned c.
Proof.
  unfold rot13_char, turned. destruct (N.leb_spec 65 c), (N.leb_spec c 77), (N.leb_spec 97 c), (N.leb_spec c 109), (N.leb_spec 78 c), (N.leb_spec c 90), (N.leb_spec 110 c), (N.leb_spec c 122);
    cbn [andb orb]; try lia; try reflexivity.
Qed.
Lemma turned_utf8 t : Forall scalar t -> decode_rot13 (utf8 t) = utf8 (map turned t).
Proof.
  unfold decode_rot13, utf8. induction 1 as [|c t C F IH]; [reflexivity|]. cbn [flat_map map]. rewrite map_app, IH. f_equal.
  rewrite <- turned_rot. unfold scalar in C.
  assert (X : forall b, 128 <= b -> rot13_char b = b) by (intros b B; apply rot13_other; lia).
  unfold utf8_char at 1. destruct (N.ltb_spec c 128) as [L|L].
  - cbn [map]. unfold utf8_char. destruct (N.ltb_spec (rot13_char c) 128) as [L2|L2]; [reflexivity|].
    exfalso. rewrite turned_rot in L2. unfold turned in L2. destruct (_ && _) eqn:A in L2; [apply andb_true_iff in A as (A & B); lia|].
    destruct (_ && _) eqn:D in L2; [apply andb_true_iff in D as (D & E)|]; lia.
  - rewrite (X c) by lia. unfold utf8_char. destruct (N.ltb_spec c 128) as [L2|L2]; [lia|]. clear L2.
    destruct (c <? 2048); [|destruct (c <? 65536)]; cbn [map]; rewrite !X by lia; reflexivity.
Qed.
Lemma step_decodes f off a b : decoded f off a b -> decode f a off = Ok (b, []).
Proof.
  destruct 1 as [pre text tail S Z T|pre l tail F T|pre cs tail F T|off text S|off l S].
  - cbn [decode decode_bytes]. rewrite get_from_app by reflexivity.
    replace (len (pre ++ utf16le text ++ tail) - len pre) with (len (utf16le text ++ tail)) by (rewrite !len_app; lia).
    unfold from_utf16_le_string. rewrite N.leb_refl. rewrite single_text; [reflexivity|assumption|assumption|]. rewrite len_app.
    destruct T as [T|(j & ->)]; [left; lia|right]. rewrite !len_cons. split; [eauto|lia].
  - cbn [decode decode_bytes]. rewrite get_from_app by reflexivity. unfold from_utf16_le_strings.
    destruct T as [(-> & T)|(j & ->)].
    + cbn [app]. pose proof (multi_loop l [] tail (S (length (flat_map (fun s => utf16le s ++ [0; 0]) l ++ tail))) [] (len (flat_map (fun s => utf16le s ++ [0; 0]) l ++ tail)) F) as M.
      cbn [app rev] in M. change (@len N []) with 0 in M. rewrite M; [reflexivity| |reflexivity|now left]. rewrite app_length. pose proof (len_flat_ge l). lia.
    + pose proof (multi_ended l [] j (S (length (flat_map (fun s => utf16le s ++ [0; 0]) l ++ 0 :: 0 :: j))) [] (len (pre ++ flat_map (fun s => utf16le s ++ [0; 0]) l ++ 0 :: 0 :: j)) F) as M.
      cbn [app rev] in M. change (@len N []) with 0 in M. rewrite M; [reflexivity| |].
      * rewrite app_length. pose proof (len_flat_ge l). lia.
      * unfold len. rewrite !app_length. cbn [length]. lia.
  - cbn [decode decode_bytes]. rewrite lznt1_decodes; [reflexivity|exact F|].
    rewrite !len_app. destruct T as [-> |(j & ->)]; [left; rewrite len_nil; lia|right]. rewrite !len_cons. split; [lia|eauto].
  - cbn [decode decode_string]. now rewrite turned_utf8.
  - cbn [decode decode_string]. do 3 f_equal. rewrite !map_map. apply map_ext_in. intros t J. rewrite Forall_forall in S. now rewrite turned_utf8 by now apply S.
Qed.
Lemma chain_decodes steps a b : decoded_by steps a b -> decode_on a steps = Ok b.
Proof.
  induction 1 as [c|f off steps a b c D C IH]; [reflexivity|]. cbn [decode_on]. unfold py_content_decode. rewrite (step_decodes _ _ _ _ D). exact IH.
Qed.
Lemma turned_scalar c : scalar c -> scalar (turned c).
Proof.
  unfold scalar, turned. intros S. destruct ((65 <=? c) && (c <=? 90)) eqn:A; [apply andb_true_iff in A as (A & B); lia|].
  destruct ((97 <=? c) && (c <=? 122)) eqn:D; [apply andb_true_iff in D as (D & E); lia|exact S].
Qed.
(** What a decoder gives is text, texts or bytes. *)
Definition of_text (c : cell_value) : Prop :=
  match c with
  | CString s => exists t, Forall scalar t /\ s = utf8 t
  | CMultiString l => exists ts, Forall (Forall scalar) ts /\ l = map utf8 ts
  | _ => True
  end.
Lemma step_text f off a b : decoded f off a b -> of_text b.
Proof.
  destruct 1 as [pre text tail S Z T|pre l tail F T|pre cs tail F T|off text S|off l S]; cbn [of_text].
  - eauto.
  - exists l. split; [|reflexivity]. eapply Forall_impl; [|exact F]. intros s (A & _). now apply bmp_scalar.
  - exact I.
  - exists (map turned text). split; [|reflexivity]. apply Forall_map. eapply Forall_impl; [|exact S]. apply turned_scalar.
  - exists (map (map turned) l). split; [|reflexivity]. apply Forall_map. eapply Forall_impl; [|exact S]. intros t T. apply Forall_map. eapply Forall_impl; [|exact T]. apply turned_scalar.
Qed.
Lemma chain_text steps a b : decoded_by steps a b -> steps <> [] -> of_text b.
Proof.
  induction 1 as [c|f off steps a b c D C IH]; intros NE; [now elim NE|]. destruct steps as [|s steps]; [|now apply IH].
  inversion C; subst. now apply step_text in D.
Qed.
Lemma value_decodes v c l f off steps d : get_content v = Ok (c, l) -> decoded_by ((f, off) :: steps) c d ->
  decode_value v f off steps = Ok (prepare_content d).
Proof.
  intros G D. inversion D as [|? ? ? ? b ? D1 D2]; subst. 
  unfold decode_value, py_decode, decode_content. rewrite G. cbv beta iota. rewrite (step_decodes _ _ _ _ D1). cbv beta iota. now rewrite (chain_decodes _ _ _ D2).
Qed.
