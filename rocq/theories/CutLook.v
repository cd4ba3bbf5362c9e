(** What look-ups find in a hive that was cut off. *)
From Verif Require Import Base BaseFacts Util UtilSpec LayoutSpec LayoutFacts HeaderFacts BaseBlock Types Value Node Recover Parser TxLog TxSpec NodeFrame
  CellSpec TreeSpec TreeRead UtilText TreeIter AnyFile TreeOpen NoAbort CutSpec CutFacts.

Section Look.
Context (fi : file_info) (rest : list N) (T : key_tree).
Local Notation whole := (with_more fi rest).
Context (B : bytes_ok (fi_buffer whole)) (HB : fi_hbin fi < 2 ^ 32).
Local Notation part := (partial fi rest T False).
Lemma look_part (f : filter) : forall fuel st k o st', quiet st -> part k ->
  get_sub_key_internal fuel fi st k f None = Ok (o, st') -> quiet st' /\ forall k', o = Some k' -> part k'.
Proof.
  induction fuel as [|fuel IH]; intros st k o st' M G; [discriminate|]. cbn [get_sub_key_internal].
  destruct (read_sub_keys_internal fi st k f None false) as [[[[k1 cs] found] st1]| | |] eqn:R; try discriminate. cbv beta iota.
  pose proof (quiet_root_only' _ _ (read_sub_keys_state _ _ _ _ _ _ _ _ _ _ R) M) as M1.
  apply (sub_keys_partial fi rest T B HB False ltac:(contradiction)) in R as (_ & F); [|exact M|contradiction|exact G].
  destruct found.
  - intros [= <- <-]. split; [exact M1|]. intros k' E. destruct cs; [discriminate|]. injection E as ->. now inversion F.
  - clear k1 M G k st. revert st1 M1. induction F as [|c r P F IHF]; intros st1 M1; [intros [= <- <-]; split; [exact M1|discriminate]|].
    destruct (get_sub_key_internal fuel fi st1 c f None) as [[o1 st2]| | |] eqn:E; try discriminate. cbv beta iota.
    apply (IH _ _ _ _ M1 P) in E as (M2 & Q). destruct o1 as [k'|]; [intros [= <- <-]; split; [exact M2|exact Q]|]. now apply IHF.
Qed.
End Look.

Lemma cut_found order fuel hash full buffer files rest t p n path has_root k p' : known_file_type buffer ->
  build order fuel hash false full buffer files = Ok p -> hive (ps_buffer p ++ rest) t -> num_at (ps_buffer p) 36 4 = 32 ->
  get_key n p path has_root = Ok (Some k, p') -> exists x, In x (preorder [] t) /\ key_partly k (fst x) (snd x).
Proof.
  intros K BU HV R32 GK. destruct HV as (B & _ & TP & TS & _). apply (build_plain order fuel hash full) in BU as (P & (H & _ & name & BB) & _); [|exact K].
  assert (FI : with_more (ps_file p) rest = mkFI 4096 (ps_buffer p ++ rest)).
  { unfold with_more, ps_buffer, ps_hbin in *. now rewrite H. }
  assert (HB : fi_hbin (ps_file p) < 2 ^ 32) by (unfold ps_hbin in H; rewrite H; reflexivity).
  rewrite <- FI in TS. change (bytes_ok (fi_buffer (with_more (ps_file p) rest))) in B.
  assert (X : partial (ps_file p) rest t False k).
  { revert GK. unfold get_key, get_root_key. rewrite BB, H, (root_offset_32 _ _ R32), <- TP.
    destruct (kn_read (ps_file p) (ps_state p) _) as [[[r|] st]| | |] eqn:E; try discriminate. cbv beta iota zeta.
    pose proof (quiet_root_only' _ _ (kn_read_state _ _ _ _ _ E) (plain_quiet _ _ _ P)) as M.
    apply (read_part (ps_file p) rest t B HB False ltac:(contradiction) (ps_state p) true [] t None true true r st (plain_quiet _ _ _ P) TS) in E;
      [|rewrite preorder_eq; now left|constructor|auto].
    change (ps_file (ps_set_state st p)) with (ps_file p). change (ps_state (ps_set_state st p)) with st.
    unfold get_sub_key_by_path. set (kp := if has_root then _ else _). clearbody kp. destruct kp as [|c kp]; [now intros [= <- _]|].
    destruct (get_sub_key_internal _ _ _ _ _ _) as [[o st']| | |] eqn:L; try discriminate. intros [= -> _].
    apply (look_part (ps_file p) rest t B HB _ _ _ _ _ _ M E) in L as (_ & L). now apply L. }
  destruct X as (_ & above & u & d & IN & _ & _ & SC & O & NM & PA & A & _ & _ & seen & missing & V1 & V2 & _).
  exists (above ++ [t_name u], u). split; [exact IN|]. cbn [fst snd]. split; [exact O|].
  split; [rewrite NM; apply read_utf8_utf8; apply Forall_app in SC as (_ & SC); now inversion SC|].
  split; [rewrite PA; apply read_utf8_utf8; now apply spelled_scalar|]. split; [exact A|eauto].
Qed.
