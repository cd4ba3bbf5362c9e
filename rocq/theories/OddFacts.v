(** Files whose header names a type that is not known. *)
From Verif Require Import Base BaseFacts Util LayoutSpec HeaderFacts BaseBlock Types Value Node Recover Parser TxLog TxSpec NodeFrame CellSpec AnyFile
  TreeSpec TreeRead TreeIter TreeLook TreeOpen TreeUse TxBuild NoAbort AnyOpen DumpFacts OddSpec.

Lemma default_blank : blank default_key.
Proof. repeat split. Qed.
Lemma odd_open order n hash recover full buffer files p : ~ known_file_type buffer -> build order n hash recover full buffer files = Ok p ->
  headed p /\ ps_buffer p = buffer /\ set_info [] (ps_state p) = mkState 0 full [] hash [] [] [] [] /\ ps_root p = None.
Proof.
  intros K E. pose proof (odd_root _ _ _ _ _ _ _ _ K E) as R. revert E. unfold build. destruct (TxLog.parse_logs files) as [[logs w]| | |]; try discriminate. cbv beta iota zeta. unfold ps_init.
  destruct (init_base_block _) as [[[s bad] q]| | |] eqn:I; try discriminate.
  apply init_base_ok in I as (H & B & _ & S & T). cbv beta iota. destruct s; [elim K; now apply T|]. cbv beta iota. intros [= <-].
  split; [exact H|]. split; [exact B|]. split; [exact S|exact R].
Qed.
Lemma odd_listing p n f anc m post : ps_root p = None -> (2 < n)%nat ->
  iterate n p f anc m post = Ok (if f_is_valid f && negb anc && negb post then [] else [default_key]).
Proof.
  intros R L. destruct (f_is_valid f) eqn:V; [destruct anc|]; try (cbn [negb andb]; apply no_root_iterate; auto).
  unfold iterate, from_parser. rewrite R. destruct n as [|[|[|n]]]; try lia. cbn [collect]. destruct post.
  - reflexivity.
  - cbn [next_key_preorder cx_stack negb andb].
    change (visit (ps_file p) (cx_set_stack [] (mkCx (ps_state p) f [default_key] [kn_offset default_key] [] m false)) default_key)
      with (Ok (default_key, mkCx (ps_state p) f [] [kn_offset default_key] [] m false)). cbv beta iota. cbn [cx_ancestors cx_filter orb].
    rewrite V. reflexivity.
Qed.
(** Look-ups do not use the root that was read when the file was opened. *)
Lemma get_key_root r n p path h : get_key n (ps_set_root r p) path h = (let* (o, q) := get_key n p path h in Ok (o, ps_set_root r q)).
Proof.
  unfold get_key, get_root_key. cbn [ps_base_block ps_set_root]. destruct (ps_base_block p) as [bb|]; [|reflexivity].
  change (ps_file (ps_set_root r p)) with (ps_file p). change (ps_state (ps_set_root r p)) with (ps_state p). change (ps_hbin (ps_set_root r p)) with (ps_hbin p).
  destruct (kn_read _ _ _) as [[[k|] st]| | |]; cbv beta iota; try reflexivity.
  change (ps_file (ps_set_state st (ps_set_root r p))) with (ps_file (ps_set_state st p)).
  change (ps_state (ps_set_state st (ps_set_root r p))) with (ps_state (ps_set_state st p)).
  destruct (get_sub_key_by_path _ _ _ _ _) as [[o s]| | |]; reflexivity.
Qed.
Lemma odd_get_key order n hash recover full buffer files p t a segs b (has_root : bool) fuel :
  ~ known_file_type buffer -> build order n hash recover full buffer files = Ok p -> hive buffer t -> num_at buffer 36 4 = 32 -> clean_names t ->
  path_names segs -> (has_root = true -> (length segs <= 1)%nat -> (b <= 1)%nat) -> (length segs <= fuel)%nat ->
  exists o p', get_key fuel p (utf8 (repeat 92 a ++ joined segs ++ repeat 92 b)) has_root = Ok (o, p')
  /\ match hd_error (reached [] (if has_root then tl segs else segs) t) with
     | None => o = None
     | Some (names, s) => exists k, o = Some k /\ key_shown k names s
     end.
Proof.
  intros K E HV RO C PN HB LF. destruct (odd_open _ _ _ _ _ _ _ _ K E) as ((H & L & name & BB) & PB & S & R).
  assert (FI : ps_file p = mkFI 4096 buffer).
  { unfold ps_buffer, ps_hbin in *. destruct (ps_file p). cbn in *. now subst. }
  assert (Q : quiet (ps_state p)) by (apply (quiet_info (mkState 0 full [] hash [] [] [] [])); [now symmetry|repeat split]).
  pose proof HV as (B & HBIN & TP & TS & ND).
  destruct (key_load (ps_file p) (ps_state p) true t [] true true) as (k & KR & LD).
  { rewrite FI. exact B. } { rewrite FI. reflexivity. } { rewrite FI. exact TS. } { now right. }
  assert (O : opened t (ps_set_root (Some k) p)).
  { split.
    - change (hive (ps_buffer p) t). now rewrite PB.
    - exact H.
    - exact Q.
    - left. assert (X : st_root_offset (set_info [] (ps_state p)) = 0) by now rewrite S. exact X.
    - exists k. split; [reflexivity|]. split; [exact LD|constructor].
    - exists name. exact BB. }
  assert (R0 : num_at (ps_buffer (ps_set_root (Some k) p)) 36 4 = 32) by (change (num_at (ps_buffer p) 36 4 = 32); now rewrite PB).
  destruct (opened_get_key t _ O R0 C a segs b has_root fuel PN HB LF) as (o & p' & G & _ & _ & GV).
  rewrite get_key_root in G. destruct (get_key fuel p _ has_root) as [[o1 q]| | |]; try discriminate. injection G as -> _.
  exists o, q. split; [reflexivity|]. unfold gives in GV. destruct (hd_error _) as [[names s]|]; exact GV.
Qed.
Lemma odd_opens order n hash recover full buffer files : ~ known_file_type buffer -> 4096 <= len buffer -> bytes_at buffer 0 4 = [114; 101; 103; 102] ->
  (files = [] \/ exists order' n' hash' recover' full' other q, build order' n' hash' recover' full' other files = Ok q) ->
  exists p, build order n hash recover full buffer files = Ok p.
Proof.
  intros K L T F. assert (PL : exists x, TxLog.parse_logs files = Ok x).
  { destruct F as [->|(order' & n' & hash' & recover' & full' & other & q & E)]; [now eexists|]. unfold build in E. destruct (TxLog.parse_logs files) as [x| | |]; try discriminate. now exists x. }
  destruct PL as ([logs w] & PL). unfold build. rewrite PL. cbv beta iota zeta. unfold ps_init.
  destruct (init_base_block_spec (start hash recover full buffer) L T) as (nm & bad & p1 & _ & E & _). fold (start hash recover full buffer). rewrite E.
  pose proof E as E0. apply init_base_ok in E0 as (_ & _ & _ & _ & TT). match type of E with _ = Ok (?s, _, _) => destruct s eqn:X end; [elim K; now apply TT|]. eexists. reflexivity.
Qed.
