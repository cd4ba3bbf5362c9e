(** Filtered iteration in post-order over a well-formed hive. *)
From Verif Require Import Base BaseFacts Util UtilSpec UtilText UtilLz LayoutSpec LayoutFacts BaseBlock Types Value Node Recover
  Parser NodeFrame CellSpec CellFacts CellData CellList CellRead TreeSpec TreeRead TreeIter TreeOpen TreeFilter TreeLook TreeUse.

Lemma postorder_names t : forall above, Forall (fun x => exists more, fst x = (above ++ [t_name t]) ++ more) (postorder above t).
Proof.
  induction t as [pos name vals subs IH] using tree_ind'; intros above. rewrite postorder_eq. cbn [t_name t_subs].
  apply Forall_app. split; [|constructor; [exists []; cbn [fst]; now rewrite app_nil_r|constructor]].
  apply Forall_forall. intros x I. apply in_flat_map in I as (s & S & I).
  rewrite Forall_forall in IH. specialize (IH s S (above ++ [name])). rewrite Forall_forall in IH. destruct (IH x I) as (more & ->).
  exists ([t_name s] ++ more). now rewrite <- !app_assoc.
Qed.

(** ** The keys a filter keeps, level by level *)
Definition fpost (q : reg_query) (x : fpend) := filtered q true (postorder (p_above (fst x)) (p_tree (fst x))).
Definition listed (q : reg_query) (x : fpend) := as_listed q (names_of (fst x), p_tree (fst x)).
(** Whether the key is selected is told by its state. *)
Lemma selected_hit q anc root x : consistent q root x -> selected q anc (names_of (fst x)) = anc || hit (snd x).
Proof.
  intros ((r & NE & RR) & CL & CT & ST). set (names := names_of (fst x)) in *.
  rewrite NE in *. destruct (snd x) as [ms|] eqn:SX.
  + assert (RN : r <> []) by (intros E; apply RR in E; discriminate). destruct r as [|n r]; [contradiction|]. cbn [selected].
    destruct ms; destruct ST as (A & ST); rewrite A; cbn [andb hit]; rewrite ?orb_false_r, ?orb_true_r.
    * destruct ST as [ST _]. destruct (N.eqb_spec (len (segments q (root :: n :: r))) (len (rq_path q))); [lia|].
      destruct (N.ltb_spec (len (segments q (root :: n :: r))) (len (rq_path q))); [reflexivity|lia].
    * destruct ST as [ST RC]. destruct (N.eqb_spec (len (segments q (root :: n :: r))) (len (rq_path q))); [lia|].
      destruct (N.ltb_spec (len (segments q (root :: n :: r))) (len (rq_path q))); [lia|now rewrite RC].
    * rewrite ST, N.eqb_refl. reflexivity.
  + rewrite (proj1 RR eq_refl). cbn [selected hit]. now rewrite orb_false_r.
Qed.
Lemma fpost_step q root x : consistent q root x -> fpost q x = flat_map (fpost q) (kids_of_q q x) ++ [listed q x].
Proof.
  intros C. pose proof (selected_hit q true root x C) as SEL. cbn [orb] in SEL.
  destruct C as ((r & NE & RR) & CL & CT & ST). unfold fpost at 1. rewrite postorder_eq. fold (names_of (fst x)).
  set (names := names_of (fst x)) in *. rewrite filtered_app. f_equal.
  2:{ unfold filtered. cbn [List.filter fst]. rewrite SEL. reflexivity. }
  rewrite filtered_flat.
  assert (NS : forall s, names ++ [t_name s] = root :: r ++ [t_name s]) by (intros s; now rewrite NE).
  assert (SF : forall s, (agrees q (root :: r ++ [t_name s]) = false
      \/ (len (rq_path q) < len (segments q (root :: r ++ [t_name s])) /\ rq_children q = false)) ->
      filtered q true (postorder names s) = []).
  { intros s C. apply filtered_nil. eapply Forall_impl; [|apply postorder_names]. cbv beta. intros y (more & ->).
    rewrite NS. apply not_selected; [now destruct r|exact C]. }
  unfold kids_of_q. fold names. destruct (hit (snd x)) eqn:HT.
  + assert (AL : agrees q names = true /\ len (rq_path q) <= len (segments q names)).
    { destruct (snd x) as [[ | | ]|]; try discriminate; split; try apply ST; destruct ST as (_ & ST); lia. }
    destruct (rq_children q) eqn:RC.
    * rewrite (flat_map_concat_map (fpost q)), map_map, <- flat_map_concat_map. reflexivity.
    * apply flat_map_nil. intros s _. apply SF. right. change (root :: r ++ [t_name s]) with ((root :: r) ++ [t_name s]).
      rewrite segments_app, <- NE, len_app. change (len [t_name s]) with 1. split; [lia|reflexivity].
  + assert (LT : len (segments q names) < len (rq_path q)).
    { destruct (snd x) as [[ | | ]|]; try discriminate; apply ST. }
    rewrite (flat_map_concat_map (fpost q)), map_map. unfold kids_seen. rewrite map_map, <- flat_map_concat_map.
    apply flat_filter.
    * intros s _ K. apply SF. left. unfold kid_flag, flag_of in K. rewrite NS in K.
      destruct (agrees q (root :: r ++ [t_name s])); [|reflexivity]. exfalso.
      change (root :: r ++ [t_name s]) with ((root :: r) ++ [t_name s]) in K. rewrite segments_app, <- NE, len_app in K.
      change (len [t_name s]) with 1 in K.
      destruct (N.ltb_spec (len (segments q names) + 1) (len (rq_path q))); [discriminate|].
      destruct (N.eqb_spec (len (segments q names) + 1) (len (rq_path q))); [discriminate|lia].
    * intros s _ K. unfold fpost, kid_seen. cbn [fst snd p_above p_tree]. destruct (kid_flag q names s) eqn:KF; try discriminate; [|reflexivity].
      cbn [fst snd]. change (p_above (names, false, without_values s)) with names.
      change (p_tree (names, false, without_values s)) with (without_values s). rewrite !postorder_eq, strip_name, strip_subs.
      rewrite !filtered_app. f_equal.
      unfold filtered. cbn [List.filter fst]. destruct (selected q true (names ++ [t_name s])); [|reflexivity]. cbn [map]. f_equal.
      unfold as_listed. cbn [fst snd]. rewrite NS. unfold kid_flag, flag_of in KF. rewrite NS in KF.
      destruct (agrees q (root :: r ++ [t_name s])); [|discriminate].
      destruct (len (segments q (root :: r ++ [t_name s])) <? len (rq_path q)); [|destruct (_ =? _); discriminate].
      destruct r as [|n r]; cbn [app]; destruct s; reflexivity.
Qed.

(** ** The return stack *)
(** A key on the return stack with the sub keys still to be visited. *)
Definition fframe := (fpend * list fpend)%type.
Definition fframe_ok (fi : file_info) q (root : list N) (fr : fframe) (k : key_node) : Prop :=
  stands fi (fst fr) (kn_set_to_return 0 (kn_set_track 0 k)) /\ consistent q root (fst fr)
  /\ kn_track k + len (snd fr) = kn_to_return k
  /\ Forall (fun y => hit (snd (fst fr)) = true -> hit (snd y) = true) (snd fr).
(** Above a key that is not selected no key is. *)
Fixpoint chained (frs : list fframe) : Prop :=
  match frs with
  | [] => True
  | fr :: r => (hit (snd (fst fr)) = false -> Forall (fun f : fframe => hit (snd (fst f)) = false) r) /\ chained r
  end.
Definition fpending (frs : list fframe) (base : list fpend) := flat_map snd frs ++ base.
Definition fframe_out q (fr : fframe) := flat_map (fpost q) (snd fr) ++ [listed q (fst fr)].
Definition fouts q (frs : list fframe) (base : list fpend) := flat_map (fframe_out q) frs ++ flat_map (fpost q) base.
Record fpinv fi q root anc (frs : list fframe) (base : list fpend) (cx : context) : Prop := {
  fp_inv : finv fi q root anc (fpending frs base) cx;
  fp_return : Forall2 (fframe_ok fi q root) frs (cx_return cx);
  fp_chain : chained frs }.
Lemma kids_hit q x : Forall (fun y => hit (snd x) = true -> hit (snd y) = true) (kids_of_q q x).
Proof.
  unfold kids_of_q. destruct (hit (snd x)).
  - destruct (rq_children q); [|constructor]. apply Forall_map, Forall_forall. reflexivity.
  - apply Forall_map, Forall_forall. discriminate.
Qed.
Lemma finv_return fi q root anc ps cx r : finv fi q root anc ps cx -> finv fi q root anc ps (cx_set_return r cx).
Proof. intros [? ? ? ? ? ? ? ?]. now split. Qed.
Lemma stands_track fi x k : stands fi x k -> kn_track k = 0.
Proof. intros (W & _). apply waits_fields in W as (W & _). exact W. Qed.
Lemma frame_listed fi q root fr k : fframe_ok fi q root fr k -> key_shown k (fst (listed q (fst fr))) (snd (listed q (fst fr))).
Proof.
  intros (ST & C & _). apply (stands_shown fi q root _ _ C) in ST. unfold listed. rewrite as_listed_names. exact ST.
Qed.
Lemma set_track_0 k : kn_track k = 0 -> kn_set_track 0 k = k. Proof. destruct k. cbn. now intros ->. Qed.

(** Taking the next key from the stack. *)
Lemma fpush fi q root anc frs base cx x k stack : bytes_ok (fi_buffer fi) -> fi_hbin fi < 2 ^ 32 ->
  finv fi q root anc (x :: fpending frs base) cx -> cx_stack cx = k :: stack ->
  Forall2 (fframe_ok fi q root) frs (match cx_return cx with [] => [] | last :: r => kn_set_track (kn_track last + 1) last :: r end) ->
  chained ((x, kids_of_q q x) :: frs) ->
  exists k' cx1, visit fi (cx_set_stack stack cx) k = Ok (k', cx1) /\ cx_return cx1 = cx_return cx
  /\ fpinv fi q root anc ((x, kids_of_q q x) :: frs) base
       (cx_set_return (k' :: match cx_return cx1 with [] => [] | last :: r => kn_set_track (kn_track last + 1) last :: r end) cx1).
Proof.
  intros B H FI S FR CH. destruct (fvisit fi q root anc x (fpending frs base) k stack cx B H FI S) as (k' & cx1 & E & FI' & RE & ST & TR).
  exists k', cx1. split; [exact E|]. split; [exact RE|]. pose proof (fi_cons _ _ _ _ _ _ FI) as C. apply Forall_cons_iff in C as [C0 _].
  pose proof (stands_track _ _ _ ST) as TK. change (kn_track (kn_set_to_return 0 k')) with (kn_track k') in TK.
  split; [|rewrite RE|exact CH].
  - apply finv_return. unfold fpending in *. cbn [flat_map snd]. rewrite <- app_assoc. exact FI'.
  - cbn [cx_return cx_set_return]. constructor; [|exact FR]. split; [|split; [|split]]; cbn [fst snd].
    + rewrite set_track_0 by exact TK. exact ST.
    + exact C0.
    + rewrite TK, TR. reflexivity.
    + apply kids_hit.
Qed.
Lemma fouts_push q root x frs base : consistent q root x ->
  fouts q ((x, kids_of_q q x) :: frs) base = fpost q x ++ fouts q frs base.
Proof. intros C. unfold fouts. cbn [flat_map]. unfold fframe_out at 1. cbn [fst snd]. now rewrite (fpost_step q root x C), <- app_assoc. Qed.
Lemma fpost_some q root x l : consistent q root x -> fpost q x ++ l <> [].
Proof. intros C. rewrite (fpost_step q root x C), <- app_assoc. intros E. apply app_eq_nil in E as [_ E]. discriminate. Qed.

(** The keys that are left out when the last selected key has been returned. *)
Definition unselected q (l : list (list (list N) * key_tree)) : Prop := Forall (fun x => selected q false (fst x) = false) l.
Lemma fpnext fi q root anc : bytes_ok (fi_buffer fi) -> fi_hbin fi < 2 ^ 32 -> forall fuel frs base cx,
  fpinv fi q root anc frs base cx -> (length (fpos (fpending frs base)) < fuel)%nat ->
  match fouts q frs base with
  | [] => exists cx', next_key_postorder fuel fi cx = Ok (None, cx')
  | (names, t) :: rest =>
      (exists k frs' base' cx', next_key_postorder fuel fi cx = Ok (Some k, cx')
      /\ key_shown k names t /\ fpinv fi q root anc frs' base' cx' /\ fouts q frs' base' = rest
      /\ (length (fpos (fpending frs' base')) <= length (fpos (fpending frs base)))%nat)
      \/ (anc = false /\ unselected q (fouts q frs base) /\ exists cx', next_key_postorder fuel fi cx = Ok (None, cx'))
  end.
Proof.
  intros B H. induction fuel as [|fuel IH]; intros frs base cx [FI R CH] L; [lia|]. cbn [next_key_postorder].
  assert (POP : forall fr frs0 k r, frs = fr :: frs0 -> snd fr = [] -> cx_return cx = k :: r ->
     exists k' frs' base' cx', Ok (Some k, cx_set_return r cx) = Ok (Some k', cx')
      /\ key_shown k' (fst (listed q (fst fr))) (snd (listed q (fst fr))) /\ fpinv fi q root anc frs' base' cx'
      /\ fouts q frs' base' = fouts q frs0 base
      /\ (length (fpos (fpending frs' base')) <= length (fpos (fpending frs base)))%nat).
  { intros fr frs0 k r -> NIL CR. exists k, frs0, base, (cx_set_return r cx). rewrite CR in R.
    inversion R as [|? ? ? ? F FS]; subst. unfold fpending in *. cbn [flat_map] in FI, L |- *. rewrite NIL in *. cbn [app] in *.
    split; [reflexivity|]. split; [eapply frame_listed; eassumption|]. split; [|split; [reflexivity|lia]].
    split; [now apply finv_return|exact FS|]. apply CH. }
  assert (DONE : forall fr frs0, frs = fr :: frs0 -> snd fr = [] -> fouts q frs base = (fst (listed q (fst fr)), snd (listed q (fst fr))) :: fouts q frs0 base).
  { intros fr frs0 -> NIL. unfold fouts. cbn [flat_map]. unfold fframe_out at 1. rewrite NIL. cbn [flat_map app].
    f_equal. apply surjective_pairing. }
  destruct (cx_stack cx) as [|k stack] eqn:S.
  - (* the stack is empty *)
    assert (PE : fpending frs base = []).
    { pose proof (fi_stack _ _ _ _ _ _ FI) as W. rewrite S in W. now inversion W. }
    destruct frs as [|fr frs0].
    + unfold fpending in PE. cbn [flat_map app] in PE. subst base. inversion R as [E|]. cbn. now exists cx.
    + destruct (cx_return cx) as [|top r] eqn:CR; [inversion R|].
      assert (NIL : snd fr = []).
      { unfold fpending in PE. cbn [flat_map] in PE. rewrite <- app_assoc in PE. now apply app_eq_nil in PE as [PE _]. }
      rewrite (DONE fr frs0 eq_refl NIL).
      change (cx_ancestors (cx_set_return r cx)) with (cx_ancestors cx). rewrite (fi_anc _ _ _ _ _ _ FI).
      destruct (anc || negb (match kn_filter top with Some MNone => true | _ => false end)) eqn:KEEP.
      * left. exact (POP fr frs0 top r eq_refl NIL eq_refl).
      * right. apply orb_false_iff in KEEP as [KA KF]. split; [exact KA|]. split; [|now eexists].
        inversion R as [|? ? ? ? F FS]; subst. pose proof F as ((_ & FK) & _ & _).
        change (kn_filter (kn_set_to_return 0 (kn_set_track 0 top))) with (kn_filter top) in FK.
        assert (HF : hit (snd (fst fr)) = false) by (rewrite <- FK; now destruct (kn_filter top) as [[ | | ]|]).
        destruct CH as (CH & _). specialize (CH HF).
        assert (BE : base = []) by (unfold fpending in PE; now apply app_eq_nil in PE as [_ PE]). subst base.
        assert (KE : flat_map snd frs0 = []).
        { unfold fpending in PE. cbn [flat_map] in PE. rewrite NIL, app_nil_r in PE. exact PE. }
        constructor; [|].
        { cbn [fst]. unfold listed. rewrite as_listed_names. cbn [fst]. destruct F as (_ & C & _). now rewrite (selected_hit q false root _ C), HF. }
        unfold fouts. cbn [flat_map]. rewrite app_nil_r. clear -FS CH KE.
        induction FS as [|f k frs ks F FS IH]; [constructor|]. apply Forall_cons_iff in CH as [C0 CH].
        cbn [flat_map] in KE |- *. apply app_eq_nil in KE as [K0 KE]. unfold fframe_out at 1. rewrite K0. cbn [flat_map app].
        constructor; [|now apply IH]. unfold listed. rewrite as_listed_names. destruct F as (_ & C & _). cbn [fst]. now rewrite (selected_hit q false root _ C), C0.
  - (* the next key *)
    assert (GO : forall x frs1 base1, fpending frs base = x :: fpending frs1 base1 -> fouts q frs base = fpost q x ++ fouts q frs1 base1 ->
       Forall2 (fframe_ok fi q root) frs1 (match cx_return cx with [] => [] | last :: r => kn_set_track (kn_track last + 1) last :: r end) ->
       chained ((x, kids_of_q q x) :: frs1) ->
       match fouts q frs base with
       | [] => exists cx', (let* (node, cx) := visit fi (cx_set_stack stack cx) k in
            let ret := match cx_return cx with [] => [] | last :: r => kn_set_track (kn_track last + 1) last :: r end in
            next_key_postorder fuel fi (cx_set_return (node :: ret) cx)) = Ok (None, cx')
       | (names, t) :: rest =>
         (exists k0 frs' base' cx', (let* (node, cx) := visit fi (cx_set_stack stack cx) k in
            let ret := match cx_return cx with [] => [] | last :: r => kn_set_track (kn_track last + 1) last :: r end in
            next_key_postorder fuel fi (cx_set_return (node :: ret) cx)) = Ok (Some k0, cx')
         /\ key_shown k0 names t /\ fpinv fi q root anc frs' base' cx' /\ fouts q frs' base' = rest
         /\ (length (fpos (fpending frs' base')) <= length (fpos (fpending frs base)))%nat)
         \/ (anc = false /\ unselected q (fouts q frs base) /\ exists cx', (let* (node, cx) := visit fi (cx_set_stack stack cx) k in
            let ret := match cx_return cx with [] => [] | last :: r => kn_set_track (kn_track last + 1) last :: r end in
            next_key_postorder fuel fi (cx_set_return (node :: ret) cx)) = Ok (None, cx'))
       end).
    { intros x frs1 base1 PE OE FR CH1. rewrite PE in FI.
      pose proof (fi_cons _ _ _ _ _ _ FI) as C. apply Forall_cons_iff in C as [C0 _].
      destruct (fpush fi q root anc frs1 base1 cx x k stack B H FI S FR CH1) as (k' & cx1 & E & RE & PI).
      rewrite E. cbv beta iota zeta. specialize (IH _ _ _ PI).
      assert (LT : (length (fpos (fpending ((x, kids_of_q q x) :: frs1) base1)) < length (fpos (fpending frs base)))%nat).
      { rewrite PE. unfold fpending at 1. cbn [flat_map snd]. rewrite <- app_assoc.
        eapply fstep; [exact (fi_nodup _ _ _ _ _ _ FI)|exact (fi_below _ _ _ _ _ _ FI)]. }
      specialize (IH ltac:(lia)). rewrite (fouts_push q root x frs1 base1 C0), <- OE in IH.
      destruct (fouts q frs base) as [|[names t] rest]; [exact IH|].
      destruct IH as [(k2 & frs' & base' & cx' & N & SH & PI' & OO & LE)|(X1 & X2 & X3)]; [left|right; auto].
      exists k2, frs', base', cx'. split; [exact N|]. split; [exact SH|]. split; [exact PI'|]. split; [exact OO|]. lia. }
    destruct frs as [|fr frs0].
    + destruct (cx_return cx) eqn:CR; [|inversion R]. destruct base as [|x base].
      { pose proof (fi_stack _ _ _ _ _ _ FI) as W. rewrite S in W. inversion W. }
      apply (GO x [] base); [reflexivity|reflexivity|constructor|]. now split.
    + destruct (cx_return cx) as [|top r] eqn:CR; [inversion R|]. inversion R as [|? ? ? ? F FS]; subst.
      destruct (N.eqb_spec (kn_track top) (kn_to_return top)) as [TE|TN].
      * assert (NIL : snd fr = []) by (destruct F as (_ & _ & F & _); apply len_0; lia).
        rewrite (DONE fr frs0 eq_refl NIL). left. exact (POP fr frs0 top r eq_refl NIL eq_refl).
      * destruct fr as [x0 [|x rem]].
        { exfalso. destruct F as (_ & _ & F & _). cbn [snd] in F. change (len (@nil fpend)) with 0 in F. lia. }
        destruct F as (F0 & F1 & F2 & F3). cbn [fst snd] in *. apply Forall_cons_iff in F3 as [F3 F4]. cbv beta in F3.
        apply (GO x ((x0, rem) :: frs0) base).
        { reflexivity. }
        { unfold fouts. cbn [flat_map]. unfold fframe_out at 1 3. cbn [fst snd flat_map]. now rewrite <- !app_assoc. }
        { constructor; [|exact FS]. split; [exact F0|]. split; [exact F1|]. split; [|exact F4].
          cbn [snd fst]. rewrite len_cons in F2. cbn. lia. }
        { destruct CH as (CH1 & CH2). cbn [fst snd] in *. split; [|split; [exact CH1|exact CH2]]. cbn [fst snd]. intros HX.
          assert (H0 : hit (snd x0) = false) by (destruct (hit (snd x0)); [now rewrite F3 in HX|reflexivity]).
          constructor; [exact H0|now apply CH1]. }
Qed.
Lemma fpcollect fi q root anc : bytes_ok (fi_buffer fi) -> fi_hbin fi < 2 ^ 32 -> forall fuel frs base cx,
  fpinv fi q root anc frs base cx -> (length (fpos (fpending frs base)) + length (fouts q frs base) < fuel)%nat ->
  exists ks l rest, collect true fuel fi cx = Ok ks /\ shown ks l /\ fouts q frs base = l ++ rest
  /\ unselected q rest /\ (anc = true -> rest = []).
Proof.
  intros B H. induction fuel as [|fuel IH]; intros frs base cx PI L; [lia|]. cbn [collect].
  pose proof (fpnext fi q root anc B H (S fuel) frs base cx PI ltac:(lia)) as X.
  destruct (fouts q frs base) as [|[names t] rest] eqn:OE.
  - destruct X as (cx' & X). rewrite X. exists [], [], []. now repeat split; try constructor.
  - destruct X as [(k & frs' & base' & cx' & E & SH & FI' & OO & LE)|(AF & U & cx' & E)]; rewrite E; cbv beta iota.
    + destruct (IH frs' base' cx' FI') as (ks & l & rs & C & KS & AP & U & AN); [rewrite OO; cbn [length] in L; lia|].
      rewrite C. exists (k :: ks), ((names, t) :: l), rs. split; [reflexivity|]. split; [constructor; [exact SH|exact KS]|].
      split; [cbn [app]; now rewrite <- AP, OO|]. now split.
    + exists [], [], ((names, t) :: rest). split; [reflexivity|]. split; [constructor|]. split; [reflexivity|]. split; [exact U|].
      intros AT. congruence.
Qed.

Lemma postorder_length t : forall above, length (postorder above t) = length (positions t).
Proof.
  induction t as [pos name vals subs IH] using tree_ind'; intros above. rewrite postorder_eq, positions_eq. cbn [t_pos t_name t_subs].
  rewrite app_length. cbn [length]. unfold below. cbn [t_subs]. rewrite Nat.add_1_r. f_equal.
  induction IH as [|s l E F IH']; [reflexivity|]. cbn [flat_map]. rewrite !app_length, E, IH'. reflexivity.
Qed.
Lemma opened_filter_post t p q anc m n : opened t p -> clean_names t -> below_root q -> (2 * length (positions t) < n)%nat ->
  exists ks l rest, iterate n p (Some q) anc m true = Ok ks /\ shown ks l
  /\ filtered q true (postorder [] t) = l ++ rest /\ unselected q rest /\ (anc = true -> rest = []).
Proof.
  intros O CN BR LN. destruct (od_root _ _ O) as (k & R & W). destruct (opened_facts _ _ O) as (B & HB & _).
  assert (Q := od_quiet _ _ O). destruct (od_hive _ _ O) as (_ & _ & _ & _ & ND).
  assert (OK : kn_offset k = t_pos t) by (destruct W as ((? & ? & ? & BA & _) & _); apply BA).
  destruct (root_on_way _ _ _ O CN W) as (ST & _ & _ & CL & _).
  unfold iterate, from_parser. rewrite R.
  assert (FO : fouts q [] [(([], true, t), None)] = filtered q true (postorder [] t)).
  { unfold fouts. cbn [flat_map app]. rewrite app_nil_r. reflexivity. }
  rewrite <- FO.
  eapply (fpcollect (ps_file p) q (t_name t) anc B HB n [] [(([], true, t), None)]).
  - split; [split|constructor|exact I].
    + now right.
    + reflexivity.
    + reflexivity.
    + exact (od_cached _ _ O).
    + constructor; [exact ST|constructor].
    + constructor; [|constructor]. split; [exists []; split; [reflexivity|]; now split|]. split; [exact CL|]. split; [exact CN|].
      now apply below_root_len.
    + unfold fpending, fpos, all_pos. cbn [app map fst flat_map]. rewrite app_nil_r. exact ND.
    + unfold fpending, fbelow, all_below. cbn [app map fst flat_map cx_offsets]. rewrite app_nil_r, OK. intros x I [J|[]]. subst x.
      rewrite positions_eq in ND. apply NoDup_cons_iff in ND as [ND _]. contradiction.
  - rewrite FO. unfold fpending, fpos, all_pos. cbn [app map fst flat_map]. rewrite app_nil_r.
    unfold filtered. rewrite map_length. pose proof (filter_length_le (fun x => selected q true (fst x)) (postorder [] t)) as X.
    rewrite postorder_length in X. cbn [p_tree snd]. lia.
Qed.

(** ** A filter that does not reach below the root *)
Lemma flag_above q root n : ~ below_root q -> flag_of q [root; n] = NoMatch.
Proof.
  intros BR. unfold flag_of, segments. unfold below_root in BR.
  assert (L : len (rq_path q) < len (if rq_has_root q then [[]; root; n] else tl [root; n])).
  { destruct (rq_has_root q); cbn [tl]; rewrite ?len_cons; change (len (@nil (list N))) with 0; lia. }
  destruct (agrees q [root; n]); [|reflexivity].
  destruct (N.ltb_spec (len (if rq_has_root q then [[]; root; n] else tl [root; n])) (len (rq_path q))); [lia|].
  destruct (N.eqb_spec (len (if rq_has_root q then [[]; root; n] else tl [root; n])) (len (rq_path q))); [lia|reflexivity].
Qed.
Lemma visit_top fi cx q t k : bytes_ok (fi_buffer fi) -> fi_hbin fi < 2 ^ 32 -> ~ below_root q ->
  cx_modified cx = false \/ quiet (cx_state cx) -> cx_filter cx = Some q -> cached (t_name t) (cx_state cx) ->
  waits fi ([], true, t) k -> Forall (fun n => ~ In 92 n) [t_name t] -> clean_names t ->
  exists k' st', waits fi ([], true, t) k' /\ visit fi cx k = Ok (k', cx_set_state st' cx).
Proof.
  intros B H BR M CF CA W CL CT. pose proof W as (L & SA). pose proof L as (full & d & raw & BK & V & SC & U & A & R).
  destruct (waits_fields _ _ _ W) as (_ & _ & FK).
  destruct (bare_nsub _ _ _ _ _ _ BK) as (N1 & N2 & _). unfold visit. rewrite N1.
  pose proof BK as (B1 & B2 & B3 & B4 & B5 & _ & B7 & B8 & B9 & B10 & B11). cbn [p_tree p_above snd fst] in *.
  assert (GN : good [t_name t]).
  { split; [|exact CL]. now constructor. }
  destruct (t_subs t) as [|s0 r0] eqn:SU.
  - destruct U as (U & _). rewrite U. change (0 <? len []) with false. cbv beta iota zeta. exists k, (cx_state cx).
    rewrite B7. cbn [map fold_left].
    assert (KE : kn_set_deleted [] k = k) by (destruct k; cbn in B7; now subst). rewrite KE. split; [exact W|]. f_equal. f_equal. now destruct cx.
  - rewrite <- SU in *. assert (NN : t_subs t <> []) by (rewrite SU; discriminate). clear SU.
    destruct (list_total fi _ _ U NN) as (LE & P). destruct (N.ltb_spec 0 (kd_nsub d)); [|lia].
    unfold read_sub_keys_internal. rewrite B5, N1, N2, P, CF. cbn [is_allocated f_return_sub_keys].
    destruct (N.ltb_spec 1048576 (kd_nsub d)); [lia|]. destruct (N.ltb_spec 0 (kd_nsub d)); [|lia].
    assert (SM : is_match_or_desc k = false) by (unfold is_match_or_desc; now rewrite FK). rewrite SM. cbn [andb].
    assert (PK : kn_path k = utf8 (spelled [t_name t])).
    { change [t_name t] with ([] ++ [t_name t]). rewrite spelled_path. apply loaded_path in L. exact L. }
    rewrite PK.
    assert (CS : Forall (fun s => ~ In 92 (t_name s)) (t_subs t)).
    { apply Forall_forall. intros s I. now apply (clean_sub t). }
    destruct (children_none fi q [t_name t] (t_name t) [] (cx_modified cx) false (t_subs t) B H eq_refl GN A CS) with (st := cx_state cx) as (st' & E & RO & CC).
    { apply Forall_forall. intros s I. now apply flag_above. }
    { exact M. } { exact CA. }
    match goal with |- context [read_children ?a ?b ?c ?d' ?e ?f ?g ?h ?i] =>
      assert (E' : read_children a b c d' e f g h i = Ok ([], false, [], st')) by exact E; rewrite E'; clear E' end.
    cbv beta iota zeta. rewrite app_nil_r.
    set (k1 := kn_set_to_return _ _). assert (D1 : kn_deleted k1 = []) by exact B7. rewrite D1. cbn [map fold_left rev].
    exists (kn_set_deleted [] k1), st'. split; [|reflexivity].
    split; [|exact SA]. apply (loaded_set fi _ _ _ k); [exact L|..]; try reflexivity. { now rewrite B7. } { now rewrite B9. }
Qed.
Lemma opened_filter_top t p q anc m n : opened t p -> clean_names t -> ~ below_root q -> (2 <= n)%nat ->
  (exists ks, iterate n p (Some q) anc m false = Ok ks /\ shown ks (if anc then [([t_name t], t)] else []))
  /\ (exists ks, iterate n p (Some q) anc m true = Ok ks /\ shown ks [([t_name t], t)]).
Proof.
  intros O CN BR LN. destruct (od_root _ _ O) as (k & R & W). destruct (opened_facts _ _ O) as (B & HB & _).
  assert (Q := od_quiet _ _ O). destruct (root_on_way _ _ _ O CN W) as (ST & _ & _ & CL & _).
  unfold iterate, from_parser. rewrite R. cbv beta zeta iota. set (cx := mkCx _ _ _ _ _ _ _).
  destruct n as [|[|n]]; [lia|lia|].
  destruct (visit_top (ps_file p) (cx_set_stack [] cx) q t k B HB BR) as (k' & st' & W' & E); try assumption.
  { now right. } { reflexivity. } { exact (od_cached _ _ O). }
  destruct (waits_fields _ _ _ W') as (TK & TR & FK). apply waits_shown in W'.
  split.
  - cbn [collect next_key_preorder]. change (cx_stack cx) with [k]. cbv beta iota. rewrite E. cbv beta iota.
    change (cx_ancestors (cx_set_state st' (cx_set_stack [] cx))) with anc.
    change (cx_filter (cx_set_state st' (cx_set_stack [] cx))) with (Some q). cbn [f_is_valid negb]. rewrite orb_false_r.
    assert (HK : is_match_or_desc k' = false) by (unfold is_match_or_desc; now rewrite FK). rewrite HK, orb_false_r.
    destruct anc; cbn.
    + exists [k']. split; [reflexivity|]. constructor; [exact W'|constructor].
    + exists []. split; [reflexivity|constructor].
  - cbn [collect next_key_postorder]. change (cx_stack cx) with [k]. change (cx_return cx) with (@nil key_node). cbv beta iota zeta. rewrite E. cbv beta iota zeta.
    cbn. rewrite FK. cbn [negb]. rewrite orb_true_r. cbn. exists [k']. split; [reflexivity|]. constructor; [exact W'|constructor].
Qed.
