(** Sub-key lists whose items point beyond the first four gigabytes. *)
From Verif Require Import Base BaseFacts LayoutSpec LayoutFacts Util Types Value Node CellSpec CellFacts CellData CellList.

Section Wide.
  Context (fi : file_info) (off : N) (size : Z) (items : list (N * list N)).
  Hypotheses (I : i32 size) (U : u16 (len items)) (H : fi_hbin fi < 2 ^ 32)
    (F : Forall (fun x => fst x < 2 ^ 32 /\ len (snd x) = 4) items).
  Local Lemma wide : Forall (fun x => fst x + fi_hbin (mkFI 0 []) < 2 ^ 32 /\ len (snd x) = 4) items.
  Proof. eapply Forall_impl; [|exact F]. cbn beta. intros x (A & B). split; [|exact B]. cbn [fi_hbin]. now rewrite N.add_0_r. Qed.
  Lemma lh_wide : stored (fi_buffer fi) (fi_hbin fi + off)
      (enc_i32 size ++ [108; 104] ++ enc 2 (len items) ++ flat_map (fun x => enc 4 (fst x) ++ snd x) items) ->
    parse_sub_key_list (list_fuel fi) fi off = Ok (List.filter (fun p => p <? 2 ^ 32) (map (fun x => fi_hbin fi + fst x) items)).
  Proof.
    intros S. enough (E : parse_sub_key_list 1 fi off = Ok (List.filter (fun p => p <? 2 ^ 32) (map (fun x => fi_hbin fi + fst x) items)))
      by (rewrite (list_fuel_enough fi off 1) by (now rewrite E); exact E).
    rewrite psl_step. unfold list_at.
    rewrite N.add_comm. destruct (stored_from _ _ _ S) as (post & ->). rewrite <- !app_assoc.
    unfold ri_from_bytes. change [108; 104] with LH. rewrite header_other by easy.
    unfold lf_offsets. rewrite header_other by easy.
    unfold lh_offsets. rewrite header_ok by easy. rewrite (count_pairs (mkFI 0 []) items wide lh_item) by apply lh_item_ok.
    f_equal. revert H. change (2 ^ 32) with 4294967296. intros H'. assert (W : w32 (fi_hbin fi) = fi_hbin fi) by (apply N.mod_small; exact H').
    rewrite W. clear. induction items as [|x l IH]; [reflexivity|]. cbn [map flat_map List.filter]. rewrite IH, (N.add_comm (fst x)).
    now destruct (_ <? _).
  Qed.
  Lemma lf_wide : stored (fi_buffer fi) (fi_hbin fi + off)
      (enc_i32 size ++ [108; 102] ++ enc 2 (len items) ++ flat_map (fun x => enc 4 (fst x) ++ snd x) items) ->
    parse_sub_key_list (list_fuel fi) fi off = Ok (map (fun x => (fi_hbin fi + fst x) mod 2 ^ 32) items).
  Proof.
    intros S. enough (E : parse_sub_key_list 1 fi off = Ok (map (fun x => (fi_hbin fi + fst x) mod 2 ^ 32) items))
      by (rewrite (list_fuel_enough fi off 1) by (now rewrite E); exact E).
    rewrite psl_step. unfold list_at.
    rewrite N.add_comm. destruct (stored_from _ _ _ S) as (post & ->). rewrite <- !app_assoc.
    unfold ri_from_bytes. change [108; 102] with LF. rewrite header_other by easy.
    unfold lf_offsets. rewrite header_ok by easy. rewrite (count_pairs (mkFI 0 []) items wide lf_item) by apply lf_item_ok.
    f_equal. rewrite map_map. apply map_ext. intros x. assert (W : w32 (fi_hbin fi) = fi_hbin fi) by (apply N.mod_small; exact H).
    rewrite W, (N.add_comm (fst x)). reflexivity.
  Qed.
End Wide.
