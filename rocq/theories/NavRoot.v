(** The parent of the root of a well-formed hive. *)
From Verif Require Import Base BaseFacts Util UtilSpec UtilText UtilLz LayoutSpec LayoutFacts BaseBlock Types Value Node Recover
  Parser TxLog TxSpec NodeFrame CellSpec CellFacts CellData CellList CellRead TreeSpec TreeRead TreeIter TreeOpen TreeFilter TreeLook TreeUse
  Pure TreeCount TreeSession NavSpec NavFacts.

Lemma nav_root_parent buffer files t p0 p k : navigating buffer files t p0 p k -> forall s, stands_at t k [t_name t] s ->
  forall x', In x' (preorder [] t) -> num_at (ps_buffer p0) (t_pos t + 20) 4 < 0x80000000 -> num_at (ps_buffer p0) (t_pos t + 20) 4 + 4096 = t_pos (snd x') ->
  exists k', get_parent_key p k = Ok (Some k', p) /\ key_shown k' [t_name (snd x')] (snd x').
Proof.
  intros NV s AT x' I' P1 P2. pose proof NV as (OP & CN & RT & PS & OB & U).
  destruct (nav_at _ _ _ _ _ _ NV _ _ AT) as (O & F & _). destruct (nav_in _ _ _ _ _ _ NV _ _ AT) as (B & H & WK & GN & NR & CT & T & HK).
  pose proof HK as (I & KS & _).
  assert (SR : s = t).
  { destruct t as [pos name vals subs]. cbn [t_name] in I. rewrite preorder_eq in I. cbn [t_name t_subs app] in I. destruct I as [I|I]; [congruence|].
    exfalso. apply in_flat_map in I as (c & IC & I). pose proof (preorder_names c [name]) as EN. rewrite Forall_forall in EN. destruct (EN _ I) as (more & E). cbn [fst app] in E. discriminate E. }
  subst s. destruct GN as (SN & CL). apply Forall_cons_iff in SN as (S1 & _). apply Forall_cons_iff in CL as (C1 & _).
  unfold get_parent_key.
  assert (PK : kn_path k = utf8 (spelled ([] ++ [t_name t]))).
  { destruct KS as (_ & _ & P & _). now apply read_utf8_exact in P as (_ & ->). }
  rewrite PK, truncate_path by assumption. change (truncate_last_bs (utf8 (spelled []))) with (utf8 (spelled [])).
  unfold ps_buffer in P1, P2. rewrite <- F in P1, P2.
  assert (OFF : w64 (i32_as_usize (kd_parent (kn_detail k)) + ps_hbin p) = t_pos (snd x')).
  { rewrite (held_parent _ _ _ _ HK), (od_hbin _ _ O), i32_at_rest. destruct KS as (-> & _). unfold i32_at. cbn [snd].
    set (u := num_at (fi_buffer (ps_file p)) (t_pos t + 20) 4) in *. change (2 ^ 31)%Z with 2147483648%Z.
    destruct (Z.ltb_spec (Z.of_N u) 2147483648); [|lia]. unfold i32_as_usize, w64. rewrite Z.mod_small by lia. rewrite N2Z.id, N.mod_small by lia. exact P2. }
  rewrite OFF. destruct (preorder_stored (ps_file p) t true [] x' T I') as (rr & R & _).
  destruct (key_load (ps_file p) (ps_state p) rr (snd x') (utf8 (spelled [])) true true B H R) as (k' & K & L); [right; apply (od_quiet _ _ O)|].
  rewrite K. cbv beta iota. exists k'. split; [f_equal; f_equal; now destruct p|]. apply (loaded_shown (ps_file p) [] (snd x') rr); [constructor|].
  rewrite set_filter_same; [exact L|]. destruct L as (? & ? & ? & L & _). apply L.
Qed.
