(** Proofs about the comparison of two hives. *)
From Coq Require Import String Permutation.
From Verif Require Import Base BaseFacts Util UtilSpec UtilText Types Value Node Parser TxLog TxSpec CellSpec TreeSpec TreeRead
  StoreFacts AnalysisFacts Log Export ExportSpec ExportFacts Compare CompareSpec CompareRead.
Open Scope list_scope.

(** ** The loops as one loop over items *)
Definition item_of (i : item) : item_key :=
  match i with KeyItem k => (kn_path k, None) | ValueItem k v => (kn_path k, Some (vd_name (kv_detail v))) end.
Definition hash_of (i : item) : option N := match i with KeyItem k => kn_hash k | ValueItem _ v => kv_hash v end.
Definition content_of (i : item) : content := match i with KeyItem k => key_content k | ValueItem _ v => value_content v end.
Definition items_of (ks : list key_node) : list item := flat_map (fun k => KeyItem k :: map (ValueItem k) (kn_values k)) ks.

Definition cstep (fuel : nat) (i : item) (s : hash_map * parser * changes) : res (hash_map * parser * changes) :=
  let '(m, p, c) := s in
  match aget item_key_eqb (item_of i) m with
  | Some h =>
      let m := adel item_key_eqb (item_of i) m in
      if hash_eqb h (hash_of i) then Ok (m, p, c)
      else match i with
           | KeyItem k => let* (o, p) := original_key fuel p (kn_path k) in Ok (m, p, add_key_modified o k c)
           | ValueItem k v =>
               let* (o, p) := original_key fuel p (kn_path k) in
               let* o := or_panic (get_value o (vd_name (kv_detail v))) in
               Ok (m, p, add_value_modified (kn_path k) o v c)
           end
  | None => match i with KeyItem k => Ok (m, p, add_key_added k c) | ValueItem k v => Ok (m, p, add_value_added (kn_path k) v c) end
  end.
Fixpoint csteps (fuel : nat) (is : list item) (s : hash_map * parser * changes) : res (hash_map * parser * changes) :=
  match is with [] => Ok s | i :: is => let* s := cstep fuel i s in csteps fuel is s end.
Lemma csteps_app fuel a b s : csteps fuel (a ++ b) s = let* s := csteps fuel a s in csteps fuel b s.
Proof. revert s. induction a as [|i a IH]; intros s; [reflexivity|]. cbn [app csteps]. destruct (cstep fuel i s); [apply IH|reflexivity..]. Qed.
Lemma compare_values_steps fuel k vs : forall m p c, compare_values fuel (kn_path k) vs m p c = csteps fuel (map (ValueItem k) vs) (m, p, c).
Proof.
  induction vs as [|v vs IH]; intros m p c; [reflexivity|]. cbn [compare_values map csteps cstep item_of hash_of].
  destruct (aget _ _ _) as [h|]; [|apply IH]. destruct (hash_eqb h (kv_hash v)); [apply IH|].
  destruct (original_key fuel p (kn_path k)) as [[o p1]| | |]; [|reflexivity..]. cbv beta iota.
  destruct (get_value o _); [|reflexivity]. cbn [or_panic]. apply IH.
Qed.
Lemma compare_keys_steps fuel ks : forall m p c, compare_keys fuel ks m p c = csteps fuel (items_of ks) (m, p, c).
Proof.
  induction ks as [|k ks IH]; intros m p c; [reflexivity|].
  change (items_of (k :: ks)) with (KeyItem k :: (map (ValueItem k) (kn_values k) ++ items_of ks)).
  cbn [compare_keys csteps cstep item_of hash_of].
  assert (G : forall m p c, (let* (m, p, c) := compare_values fuel (kn_path k) (values_of k) m p c in compare_keys fuel ks m p c)
    = csteps fuel (map (ValueItem k) (kn_values k) ++ items_of ks) (m, p, c)).
  { intros m1 p1 c1. rewrite csteps_app, compare_values_steps, values_of_all.
    destruct (csteps _ _ _) as [[[m2 p2] c2]| | |]; [cbv beta iota; apply IH|reflexivity..]. }
  destruct (aget _ _ _) as [h|]; [|apply G]. destruct (hash_eqb h (kn_hash k)); [apply G|].
  destruct (original_key fuel p (kn_path k)) as [[o p1]| | |]; [|reflexivity..]. cbv beta iota. apply G.
Qed.

(** ** One pass *)
Definition keys_sel (f : item -> bool) (is : list item) : list key_node :=
  flat_map (fun i => match i with KeyItem k => if f i then [k] else [] | _ => [] end) is.
Definition vals_sel (f : item -> bool) (is : list item) : list (list N * key_value) :=
  flat_map (fun i => match i with ValueItem k v => if f i then [(kn_path k, v)] else [] | _ => [] end) is.
Definition fresh (m : hash_map) (i : item) : bool := match aget keq (item_of i) m with None => true | Some _ => false end.
Definition differs (m : hash_map) (i : item) : bool :=
  match aget keq (item_of i) m with None => false | Some h => negb (hash_eqb h (hash_of i)) end.
Lemma sel_ext f g is : (forall i, In i is -> f i = g i) -> keys_sel f is = keys_sel g is /\ vals_sel f is = vals_sel g is.
Proof.
  induction is as [|i is IH]; intros H; [now split|]. destruct IH as (A & B); [intros; apply H; now right|].
  unfold keys_sel, vals_sel in *. cbn [flat_map]. rewrite A, B, (H i (or_introl eq_refl)). now split.
Qed.
Lemma other_item i is (m : hash_map) : ~ In (item_of i) (map item_of is) -> NoDup (map fst m) -> forall j, In j is ->
  aget keq (item_of j) (adel keq (item_of i) m) = aget keq (item_of j) m.
Proof.
  intros NI ND j J. rewrite (aget_adel keq item_key_iff) by exact ND. destruct (keq (item_of j) (item_of i)) eqn:E; [|reflexivity].
  apply item_key_iff in E. elim NI. rewrite <- E. now apply in_map.
Qed.

Section Pass.
Context (fuel : nat) (Inv : parser -> Prop) (known : item_key -> Prop)
  (OK : list N -> key_node -> Prop) (OV : list N -> list N -> key_value -> Prop).
Context (look_key : forall p path, Inv p -> known (path, None) ->
  exists k p', original_key fuel p path = Ok (k, p') /\ Inv p' /\ OK path k).
Context (look_value : forall p path name, Inv p -> known (path, Some name) ->
  exists k p' v, original_key fuel p path = Ok (k, p') /\ Inv p' /\ kn_path k = path /\ get_value k name = Some v /\ OV path name v).

Lemma csteps_spec is : forall m p c, NoDup (map item_of is) -> NoDup (map fst m) -> (forall w, In w (map fst m) -> known w) -> Inv p ->
  exists m' p' c', csteps fuel is (m, p, c) = Ok (m', p', c') /\ Inv p' /\ NoDup (map fst m')
  /\ (forall w, aget keq w m' = if existsb (keq w) (map item_of is) then None else aget keq w m)
  /\ cg_keys_added c' = cg_keys_added c ++ keys_sel (fresh m) is
  /\ cg_values_added c' = cg_values_added c ++ vals_sel (fresh m) is
  /\ cg_keys_deleted c' = cg_keys_deleted c /\ cg_values_deleted c' = cg_values_deleted c
  /\ (exists km, cg_keys_modified c' = cg_keys_modified c ++ km /\ map snd km = keys_sel (differs m) is
      /\ Forall (fun x => OK (kn_path (snd x)) (fst x)) km)
  /\ (exists vm, cg_values_modified c' = cg_values_modified c ++ vm /\ map (fun x => (fst (fst x), snd x)) vm = vals_sel (differs m) is
      /\ Forall (fun x => OV (fst (fst x)) (vd_name (kv_detail (snd x))) (snd (fst x))) vm).
Proof.
  induction is as [|i is IH]; intros m p c ND NM KN IP.
  { exists m, p, c. cbn. rewrite !app_nil_r. repeat (split; [solve [auto]|]). split; exists []; rewrite app_nil_r; repeat split; constructor. }
  inversion ND as [|? ? NI ND']; subst. cbn [csteps cstep].
  assert (FR : forall (m1 : hash_map), (forall j, In j is -> aget keq (item_of j) m1 = aget keq (item_of j) m) ->
    keys_sel (fresh m1) is = keys_sel (fresh m) is /\ vals_sel (fresh m1) is = vals_sel (fresh m) is
    /\ keys_sel (differs m1) is = keys_sel (differs m) is /\ vals_sel (differs m1) is = vals_sel (differs m) is).
  { intros m1 E. destruct (sel_ext (fresh m1) (fresh m) is) as (A & B); [intros j J; unfold fresh; now rewrite E|].
    destruct (sel_ext (differs m1) (differs m) is) as (C & D); [intros j J; unfold differs; now rewrite E|]. now repeat split. }
  destruct (aget keq (item_of i) m) as [h|] eqn:E.
  - set (m1 := adel keq (item_of i) m).
    assert (NM1 : NoDup (map fst m1)) by now apply adel_nodup.
    assert (KN1 : forall w, In w (map fst m1) -> known w) by (intros w J; apply KN; now apply adel_keys in J).
    destruct (FR m1 (other_item i is m NI NM)) as (F1 & F2 & F3 & F4).
    assert (KI : known (item_of i)) by (apply KN; apply (aget_in keq item_key_iff) in E; now apply (in_map fst) in E).
    assert (AG : forall (m' : hash_map), (forall w, aget keq w m' = if existsb (keq w) (map item_of is) then None else aget keq w m1) ->
      forall w, aget keq w m' = if existsb (keq w) (map item_of (i :: is)) then None else aget keq w m).
    { intros m' H w. rewrite H. unfold m1. rewrite (aget_adel keq item_key_iff) by exact NM. cbn [map existsb].
      destruct (keq w (item_of i)), (existsb (keq w) (map item_of is)); reflexivity. }
    destruct (hash_eqb h (hash_of i)) eqn:HE.
    + cbv beta iota. destruct (IH m1 p c ND' NM1 KN1 IP) as (m' & p' & c' & R & IP' & NM' & A & KA & VA & KD & VD & (km & KM1 & KM2 & KM3) & (vm & VM1 & VM2 & VM3)).
      exists m', p', c'. split; [exact R|]. split; [exact IP'|]. split; [exact NM'|]. split; [now apply AG|].
      assert (S0 : fresh m i = false /\ differs m i = false) by (unfold fresh, differs; rewrite E, HE; now split). destruct S0 as (S1 & S2).
      rewrite KA, VA, F1, F2. unfold keys_sel at 2, vals_sel at 2. cbn [flat_map]. fold (keys_sel (fresh m) is) (vals_sel (fresh m) is).
      split; [destruct i; rewrite ?S1; reflexivity|]. split; [destruct i; rewrite ?S1; reflexivity|]. split; [exact KD|]. split; [exact VD|].
      split; [exists km|exists vm]; (split; [assumption|]); (split; [|assumption]).
      * rewrite KM2, F3. unfold keys_sel at 2. cbn [flat_map]. destruct i; rewrite ?S2; reflexivity.
      * rewrite VM2, F4. unfold vals_sel at 2. cbn [flat_map]. destruct i; rewrite ?S2; reflexivity.
    + assert (S0 : fresh m i = false /\ differs m i = true) by (unfold fresh, differs; rewrite E, HE; now split). destruct S0 as (S1 & S2).
      destruct i as [k|k v].
      * destruct (look_key p (kn_path k) IP KI) as (o & p1 & LO & IP1 & GO). rewrite LO. cbv beta iota.
        destruct (IH m1 p1 (add_key_modified o k c) ND' NM1 KN1 IP1) as (m' & p' & c' & R & IP' & NM' & A & KA & VA & KD & VD & (km & KM1 & KM2 & KM3) & (vm & VM1 & VM2 & VM3)).
        exists m', p', c'. split; [exact R|]. split; [exact IP'|]. split; [exact NM'|]. split; [now apply AG|].
        rewrite F1 in KA. rewrite F2 in VA. rewrite F3 in KM2. rewrite F4 in VM2. destruct c as [c1 c2 c3 c4 c5 c6]. cbn [add_key_modified cg_keys_added cg_values_added cg_keys_deleted cg_values_deleted cg_keys_modified cg_values_modified] in *.
        unfold keys_sel, vals_sel in *. cbn [flat_map]. rewrite S1, S2. cbn [app].
        repeat (split; [assumption|]). split; [|exists vm; now repeat split].
        exists ((o, k) :: km). rewrite KM1, <- app_assoc. split; [reflexivity|]. split; [cbn [map snd]; now rewrite KM2|]. now constructor.
      * destruct (look_value p (kn_path k) _ IP KI) as (o & p1 & ov & LO & IP1 & _ & GV & GO). rewrite LO. cbv beta iota. rewrite GV. cbn [or_panic]. cbv beta iota.
        destruct (IH m1 p1 (add_value_modified (kn_path k) ov v c) ND' NM1 KN1 IP1) as (m' & p' & c' & R & IP' & NM' & A & KA & VA & KD & VD & (km & KM1 & KM2 & KM3) & (vm & VM1 & VM2 & VM3)).
        exists m', p', c'. split; [exact R|]. split; [exact IP'|]. split; [exact NM'|]. split; [now apply AG|].
        rewrite F1 in KA. rewrite F2 in VA. rewrite F3 in KM2. rewrite F4 in VM2. destruct c as [c1 c2 c3 c4 c5 c6]. cbn [add_value_modified cg_keys_added cg_values_added cg_keys_deleted cg_values_deleted cg_keys_modified cg_values_modified] in *.
        unfold keys_sel, vals_sel in *. cbn [flat_map]. rewrite S1, S2. cbn [app].
        repeat (split; [assumption|]). split; [exists km; now repeat split|].
        exists ((kn_path k, ov, v) :: vm). rewrite VM1, <- app_assoc. split; [reflexivity|]. split; [cbn [map fst snd]; now rewrite VM2|]. now constructor.
  - destruct (FR m (fun _ _ => eq_refl)) as (F1 & F2 & F3 & F4).
    assert (S0 : fresh m i = true /\ differs m i = false) by (unfold fresh, differs; rewrite E; now split). destruct S0 as (S1 & S2).
    assert (AG : forall (m' : hash_map), (forall w, aget keq w m' = if existsb (keq w) (map item_of is) then None else aget keq w m) ->
      forall w, aget keq w m' = if existsb (keq w) (map item_of (i :: is)) then None else aget keq w m).
    { intros m' H w. rewrite H. cbn [map existsb]. destruct (keq w (item_of i)) eqn:W; [|reflexivity].
      apply item_key_iff in W as ->. rewrite E. now destruct (existsb _ _). }
    destruct i as [k|k v]; cbv beta iota.
    * destruct (IH m p (add_key_added k c) ND' NM KN IP) as (m' & p' & c' & R & IP' & NM' & A & KA & VA & KD & VD & (km & KM1 & KM2 & KM3) & (vm & VM1 & VM2 & VM3)).
      exists m', p', c'. split; [exact R|]. split; [exact IP'|]. split; [exact NM'|]. split; [now apply AG|].
      destruct c as [c1 c2 c3 c4 c5 c6]. cbn [add_key_added cg_keys_added cg_values_added cg_keys_deleted cg_values_deleted cg_keys_modified cg_values_modified] in *.
      unfold keys_sel, vals_sel in *. cbn [flat_map]. rewrite S1, S2. cbn [app]. rewrite <- app_assoc in KA. cbn [app] in KA.
      repeat (split; [assumption|]). split; [exists km; now repeat split|exists vm; now repeat split].
    * destruct (IH m p (add_value_added (kn_path k) v c) ND' NM KN IP) as (m' & p' & c' & R & IP' & NM' & A & KA & VA & KD & VD & (km & KM1 & KM2 & KM3) & (vm & VM1 & VM2 & VM3)).
      exists m', p', c'. split; [exact R|]. split; [exact IP'|]. split; [exact NM'|]. split; [now apply AG|].
      destruct c as [c1 c2 c3 c4 c5 c6]. cbn [add_value_added cg_keys_added cg_values_added cg_keys_deleted cg_values_deleted cg_keys_modified cg_values_modified] in *.
      unfold keys_sel, vals_sel in *. cbn [flat_map]. rewrite S1, S2. cbn [app]. rewrite <- app_assoc in VA. cbn [app] in VA.
      repeat (split; [assumption|]). split; [exists km; now repeat split|exists vm; now repeat split].
Qed.

(** ** What is left *)
Definition left_keys (rest : list (item_key * option N)) : list (list N) :=
  flat_map (fun e => match snd (fst e) with None => [fst (fst e)] | Some _ => [] end) rest.
Definition left_values (rest : list (item_key * option N)) : list item_key :=
  flat_map (fun e => match snd (fst e) with None => [] | Some _ => [fst e] end) rest.
Context (ok_path : forall path k, OK path k -> kn_path k = path) (ov_name : forall path name v, OV path name v -> vd_name (kv_detail v) = name).
Lemma compare_rest_spec rest : forall p c, (forall w, In w (map fst rest) -> known w) -> Inv p ->
  exists c', compare_rest fuel rest p c = Ok c'
  /\ cg_keys_added c' = cg_keys_added c /\ cg_values_added c' = cg_values_added c
  /\ cg_keys_modified c' = cg_keys_modified c /\ cg_values_modified c' = cg_values_modified c
  /\ (exists kd, cg_keys_deleted c' = cg_keys_deleted c ++ kd /\ map kn_path kd = left_keys rest /\ Forall (fun k => OK (kn_path k) k) kd)
  /\ (exists vd, cg_values_deleted c' = cg_values_deleted c ++ vd /\ map value_key vd = left_values rest
      /\ Forall (fun x => OV (fst x) (vd_name (kv_detail (snd x))) (snd x)) vd).
Proof.
  induction rest as [|[[path [name|]] h] rest IH]; intros p c KN IP.
  - exists c. cbn. repeat (split; [reflexivity|]). split; exists []; rewrite app_nil_r; repeat split; constructor.
  - cbn [compare_rest]. destruct (look_value p path name IP) as (k & p1 & v & LO & IP1 & KP & GV & GO); [apply KN; now left|].
    rewrite LO. cbv beta iota. rewrite GV. cbn [or_panic]. cbv beta iota. rewrite KP.
    destruct (IH p1 (add_value_deleted path v c)) as (c' & R & A & B & C & D & (kd & KD1 & KD2 & KD3) & (vd & VD1 & VD2 & VD3)); [intros; apply KN; now right|exact IP1|].
    exists c'. split; [exact R|]. destruct c as [c1 c2 c3 c4 c5 c6]. cbn [add_value_deleted cg_keys_added cg_values_added cg_keys_deleted cg_values_deleted cg_keys_modified cg_values_modified] in *.
    repeat (split; [assumption|]). split; [exists kd; now repeat split|]. exists ((path, v) :: vd). rewrite VD1, <- app_assoc. split; [reflexivity|].
    pose proof (ov_name _ _ _ GO) as N0. unfold left_values in *. cbn [map flat_map fst snd app]. rewrite VD2. unfold value_key at 1. cbn [fst snd]. rewrite N0. split; [reflexivity|].
    constructor; [|exact VD3]. cbn [fst snd]. now rewrite N0.
  - cbn [compare_rest]. destruct (look_key p path IP) as (k & p1 & LO & IP1 & GO); [apply KN; now left|].
    rewrite LO. cbv beta iota.
    destruct (IH p1 (add_key_deleted k c)) as (c' & R & A & B & C & D & (kd & KD1 & KD2 & KD3) & (vd & VD1 & VD2 & VD3)); [intros; apply KN; now right|exact IP1|].
    exists c'. split; [exact R|]. destruct c as [c1 c2 c3 c4 c5 c6]. cbn [add_key_deleted cg_keys_added cg_values_added cg_keys_deleted cg_values_deleted cg_keys_modified cg_values_modified] in *.
    repeat (split; [assumption|]). split; [|exists vd; now repeat split]. exists (k :: kd). rewrite KD1, <- app_assoc. split; [reflexivity|].
    pose proof (ok_path _ _ GO) as N0. unfold left_keys in *. cbn [map flat_map fst snd app]. rewrite KD2, N0. split; [reflexivity|].
    constructor; [|exact KD3]. now rewrite N0.
Qed.
End Pass.

(** ** The whole comparison *)
Lemma contents_items ks : contents ks = map (fun i => (item_of i, content_of i)) (items_of ks).
Proof.
  induction ks as [|k ks IH]; [reflexivity|]. unfold contents, items_of in *. cbn [flat_map]. rewrite map_app, IH. f_equal.
  cbn [map]. f_equal. now rewrite map_map.
Qed.
Lemma contents_keys ks : map fst (contents ks) = map item_of (items_of ks).
Proof. rewrite contents_items, map_map. reflexivity. Qed.
Lemma aset_new {A} w (x : A) m : ~ In w (map fst m) -> aset keq w x m = m ++ [(w, x)].
Proof.
  induction m as [|[w' y] m IH]; intros N; [reflexivity|]. cbn [aset]. destruct (keq w w') eqn:E.
  - apply item_key_iff in E as ->. elim N. now left.
  - cbn [app]. f_equal. apply IH. intros J. apply N. now right.
Qed.
Definition put (m : hash_map) (i : item) : hash_map := aset keq (item_of i) (hash_of i) m.
Lemma original_map_items ks : original_map ks = fold_left put (items_of ks) [].
Proof.
  unfold original_map. generalize (@nil (item_key * option N)). induction ks as [|k ks IH]; intros m; [reflexivity|].
  cbn [fold_left items_of flat_map]. rewrite fold_left_app, IH. unfold items_of. f_equal. cbn [fold_left]. unfold put at 2. cbn [item_of hash_of].
  rewrite values_of_all. generalize (aset keq (kn_path k, None) (kn_hash k) m). induction (kn_values k) as [|v vs IHv]; intros m'; [reflexivity|].
  cbn [fold_left map]. rewrite IHv. reflexivity.
Qed.
Lemma puts is : forall m, NoDup (map fst m ++ map item_of is) -> fold_left put is m = m ++ map (fun i => (item_of i, hash_of i)) is.
Proof.
  induction is as [|i is IH]; intros m ND; cbn [fold_left map]; [now rewrite app_nil_r|]. cbn [map] in ND.
  unfold put at 2. rewrite aset_new by (apply NoDup_remove_2 in ND; intros J; apply ND, in_or_app; now left).
  rewrite IH; [now rewrite <- app_assoc|]. rewrite map_app. cbn [map fst]. now rewrite <- app_assoc.
Qed.
Lemma original_map_all ks : NoDup (map fst (contents ks)) -> original_map ks = map (fun i => (item_of i, hash_of i)) (items_of ks).
Proof. intros ND. rewrite contents_keys in ND. rewrite original_map_items. now apply puts. Qed.

Lemma enc_inj k a b x y : a < 256 ^ N.of_nat k -> b < 256 ^ N.of_nat k -> enc k a ++ x = enc k b ++ y -> a = b /\ x = y.
Proof.
  intros A B E. apply (f_equal (firstn k)) in E as E1. rewrite !firstn_app, !enc_length, Nat.sub_diag in E1. cbn [firstn] in E1.
  rewrite !app_nil_r in E1. rewrite !firstn_all2 in E1 by (rewrite enc_length; lia).
  assert (E2 : a = b) by (rewrite <- (le_enc k a A), <- (le_enc k b B); now rewrite E1). split; [exact E2|].
  rewrite E1 in E. now apply app_inv_head in E.
Qed.
Lemma digest_key a b : content_ok (key_content a) -> content_ok (key_content b) ->
  digest_input (key_content a) = digest_input (key_content b) -> key_content a = key_content b.
Proof.
  unfold key_content. cbn [content_ok digest_input]. intros (A1 & A2 & A3) (B1 & B2 & B3) E.
  apply (enc_inj 2) in E as (-> & E); [|exact A1|exact B1]. apply (enc_inj 8) in E as (-> & E); [|exact A2|exact B2].
  rewrite <- (app_nil_r (enc 4 _)), <- (app_nil_r (enc 4 (kd_access (kn_detail b)))) in E. apply (enc_inj 4) in E as (-> & _); [|exact A3|exact B3]. reflexivity.
Qed.
Lemma digest_value a b : content_ok (value_content a) -> content_ok (value_content b) ->
  digest_input (value_content a) = digest_input (value_content b) -> value_content a = value_content b.
Proof.
  unfold value_content. cbn [content_ok digest_input]. intros (A1 & A2) (B1 & B2) E.
  apply (enc_inj 4) in E as (-> & E); [|exact A1|exact B1]. apply (enc_inj 2) in E as (-> & ->); [|exact A2|exact B2]. reflexivity.
Qed.
Lemma hash_eqb_iff a b : hash_eqb a b = true <-> a = b.
Proof. destruct a, b; cbn [hash_eqb]; rewrite ?N.eqb_eq; split; congruence. Qed.
Lemma in_items ks i : In i (items_of ks) <-> match i with KeyItem k => In k ks | ValueItem k v => In k ks /\ In v (kn_values k) end.
Proof.
  unfold items_of. rewrite in_flat_map. split.
  - intros (k & K & [<-|J]); [exact K|]. apply in_map_iff in J as (v & <- & J). now split.
  - destruct i as [k|k v]; [intros K; exists k; split; [exact K|now left]|intros (K & V); exists k; split; [exact K|right; now apply in_map]].
Qed.
Lemma hash_content h ks1 ks2 i j : no_collision h ks1 ks2 -> Forall (sealed h) ks1 -> Forall (sealed h) ks2 ->
  In i (items_of ks1) -> In j (items_of ks2) -> item_of i = item_of j -> (hash_of i = hash_of j <-> content_of i = content_of j).
Proof.
  intros INJ S1 S2 I J E. rewrite Forall_forall in S1, S2.
  assert (NC : h (digest_input (content_of i)) = h (digest_input (content_of j)) -> digest_input (content_of i) = digest_input (content_of j)).
  { apply (INJ (item_of i)); rewrite contents_items; [now apply (in_map (fun i => (item_of i, content_of i)))|]. rewrite E.
    now apply (in_map (fun i => (item_of i, content_of i))). }
  apply in_items in I, J.
  destruct i as [k|k v], j as [k'|k' v']; cbn [item_of] in E; try discriminate E; cbn [hash_of content_of] in *.
  - destruct (S1 _ I) as (_ & H1 & O1 & _), (S2 _ J) as (_ & H2 & O2 & _). rewrite H1, H2. split; [|now intros ->].
    intros [= H]. apply NC in H. now apply digest_key.
  - destruct I as (I & IV), J as (J & JV). destruct (S1 _ I) as (_ & _ & _ & F1), (S2 _ J) as (_ & _ & _ & F2).
    rewrite Forall_forall in F1, F2. destruct (F1 _ IV) as (H1 & O1), (F2 _ JV) as (H2 & O2). rewrite H1, H2. split; [|now intros ->].
    intros [= H]. apply NC in H. now apply digest_value.
Qed.

Lemma picks_keys (P : key_node -> Prop) f ks is : (forall k, In k ks -> (f (KeyItem k) = true <-> P k)) ->
  is = items_of ks -> picks P ks (keys_sel f is).
Proof.
  intros H ->. induction ks as [|k ks IH]; [constructor|]. unfold items_of, keys_sel in *. cbn [flat_map]. rewrite flat_map_app. cbn [flat_map].
  assert (V : forall vs, flat_map (fun i => match i with KeyItem k => if f i then [k] else [] | _ => [] end) (map (ValueItem k) vs) = [])
    by (induction vs; [reflexivity|assumption]).
  rewrite V, app_nil_r. specialize (IH (fun k J => H k (or_intror J))). pose proof (H k (or_introl eq_refl)) as Hk.
  destruct (f (KeyItem k)); cbn [app]; [apply picks_keep|apply picks_drop]; auto; intuition congruence.
Qed.
Lemma picks_app {A} (P : A -> Prop) a b a' b' : picks P a a' -> picks P b b' -> picks P (a ++ b) (a' ++ b').
Proof. induction 1; intros B; cbn [app]; [exact B|apply picks_keep; auto|apply picks_drop; auto]. Qed.
Lemma picks_values (P : list N * key_value -> Prop) f ks is : (forall k v, In k ks -> In v (kn_values k) -> (f (ValueItem k v) = true <-> P (kn_path k, v))) ->
  is = items_of ks -> picks P (values_in ks) (vals_sel f is).
Proof.
  intros H ->. induction ks as [|k ks IH]; [constructor|]. unfold values_in, items_of, vals_sel in *. cbn [flat_map]. rewrite flat_map_app. cbn [flat_map app].
  apply picks_app; [|apply IH; intros; apply H; [now right|assumption]].
  assert (V : forall v, In v (kn_values k) -> (f (ValueItem k v) = true <-> P (kn_path k, v))) by (intros; apply H; [now left|assumption]).
  clear H IH. induction (kn_values k) as [|v vs IH]; [constructor|]. cbn [map flat_map]. specialize (IH (fun v J => V v (or_intror J))).
  pose proof (V v (or_introl eq_refl)) as Hv.
  destruct (f (ValueItem k v)); cbn [app]; [apply picks_keep|apply picks_drop]; auto; intuition congruence.
Qed.

Lemma left_perm a b : Permutation a b -> Permutation (left_keys a) (left_keys b) /\ Permutation (left_values a) (left_values b).
Proof. intros P. split; now apply Permutation_flat_map. Qed.
Definition left_of (f : item_key -> bool) (is : list item) : list (item_key * option N) :=
  List.filter (fun e => f (fst e)) (map (fun i => (item_of i, hash_of i)) is).
Lemma left_of_keys f is : left_keys (left_of f is) = map kn_path (keys_sel (fun i => f (item_of i)) is).
Proof.
  induction is as [|i is IH]; [reflexivity|]. unfold left_of, left_keys, keys_sel in *. cbn [map List.filter fst flat_map].
  rewrite map_app, <- IH. destruct (f (item_of i)) eqn:E, i; cbn [item_of] in *; rewrite ?E; reflexivity.
Qed.
Lemma left_of_values f is : left_values (left_of f is) = map value_key (vals_sel (fun i => f (item_of i)) is).
Proof.
  induction is as [|i is IH]; [reflexivity|]. unfold left_of, left_values, vals_sel in *. cbn [map List.filter fst flat_map].
  rewrite map_app, <- IH. destruct (f (item_of i)) eqn:E, i; cbn [item_of] in *; rewrite ?E; reflexivity.
Qed.
Lemma nodup_filter_fst {A B} (f : A * B -> bool) (l : list (A * B)) : NoDup (map fst l) -> NoDup (map fst (List.filter f l)).
Proof.
  induction l as [|x l IH]; intros ND; [constructor|]. inversion ND; subst. cbn [List.filter]. destruct (f x); [|auto].
  cbn [map]. constructor; [|auto]. intros J. apply in_map_iff in J as (y & E & J). apply filter_In in J as (J & _).
  match goal with H : ~ In _ _ |- _ => apply H end. rewrite <- E. now apply in_map.
Qed.
Lemma fst_nodup {A B} (l : list (A * B)) : NoDup (map fst l) -> NoDup l.
Proof. apply NoDup_map_inv. Qed.
Lemma rest_perm (m m0 : hash_map) (f : item_key -> bool) : NoDup (map fst m) -> NoDup (map fst m0) ->
  (forall w, aget keq w m = if f w then None else aget keq w m0) -> Permutation m (List.filter (fun e => negb (f (fst e))) m0).
Proof.
  intros N1 N0 H. apply NoDup_Permutation; [now apply fst_nodup|apply fst_nodup; now apply nodup_filter_fst|].
  intros [w x]. rewrite filter_In. cbn [fst]. split.
  - intros J. apply (in_aget keq item_key_iff) in J; [|exact N1]. rewrite H in J. destruct (f w); [discriminate|]. split; [|reflexivity].
    now apply (aget_in keq item_key_iff).
  - intros (J & F). apply (in_aget keq item_key_iff) in J; [|exact N0]. apply (aget_in keq item_key_iff). rewrite H.
    destruct (f w); [discriminate|]. exact J.
Qed.
Lemma absent_iff ks w : existsb (keq w) (map item_of (items_of ks)) = false <-> absent w ks.
Proof.
  unfold absent. rewrite contents_keys. destruct (existsb _ _) eqn:E.
  - apply existsb_exists in E as (w' & J & E). apply item_key_iff in E as <-. split; [discriminate|intros N; now elim N].
  - split; [|auto]. intros _ J. assert (X : existsb (keq w) (map item_of (items_of ks)) = true) by (apply existsb_exists; exists w; split; [exact J|now apply item_key_iff]).
    congruence.
Qed.

Section Whole.
Context (fuel : nat) (order : hash_map -> hash_map) (h : list N -> N) (Inv : parser -> Prop)
  (OK : list N -> key_node -> Prop) (OV : list N -> list N -> key_value -> Prop) (ks1 ks2 : list key_node).
Context (PO : forall m, Permutation (order m) m)
  (S1 : Forall (sealed h) ks1) (S2 : Forall (sealed h) ks2)
  (N1 : NoDup (map fst (contents ks1))) (N2 : NoDup (map fst (contents ks2))).
Let known (w : item_key) : Prop := In w (map fst (contents ks1)).
Context (look_key : forall p path, Inv p -> known (path, None) ->
  exists k p', original_key fuel p path = Ok (k, p') /\ Inv p' /\ OK path k).
Context (look_value : forall p path name, Inv p -> known (path, Some name) ->
  exists k p' v, original_key fuel p path = Ok (k, p') /\ Inv p' /\ kn_path k = path /\ get_value k name = Some v /\ OV path name v).
Context (ok_path : forall path k, OK path k -> kn_path k = path) (ov_name : forall path name v, OV path name v -> vd_name (kv_detail v) = name).

Lemma fresh_iff w : (match aget keq w (original_map ks1) with None => true | Some _ => false end) = true <-> absent w ks1.
Proof.
  rewrite (original_map_all _ N1). unfold absent. rewrite contents_keys.
  assert (X : map fst (map (fun i => (item_of i, hash_of i)) (items_of ks1)) = map item_of (items_of ks1)) by now rewrite map_map.
  rewrite <- X, <- (aget_none keq item_key_iff). destruct (aget _ _ _); split; congruence.
Qed.
Lemma differs_iff i : no_collision h ks1 ks2 -> In i (items_of ks2) -> differs (original_map ks1) i = true <-> changed (item_of i) (content_of i) ks1.
Proof.
  intros INJ J. unfold differs, changed. rewrite (original_map_all _ N1), contents_items.
  assert (ND : NoDup (map fst (map (fun i => (item_of i, hash_of i)) (items_of ks1)))) by (rewrite map_map; cbn [fst]; rewrite contents_keys in N1; exact N1).
  assert (X : forall j, In j (items_of ks1) -> item_of j = item_of i ->
    aget keq (item_of i) (map (fun i => (item_of i, hash_of i)) (items_of ks1)) = Some (hash_of j)).
  { intros j Jj E. apply (in_aget keq item_key_iff); [exact ND|]. rewrite <- E. now apply (in_map (fun i => (item_of i, hash_of i))). }
  split.
  - destruct (aget _ _ _) as [x|] eqn:E; [|discriminate]. intros F. apply (aget_in keq item_key_iff) in E. apply in_map_iff in E as (j & [= E1 <-] & Jj).
    exists (content_of j). split; [rewrite <- E1; now apply (in_map (fun i => (item_of i, content_of i)))|].
    intros C. apply (hash_content h ks1 ks2 j i INJ S1 S2 Jj J E1) in C. apply hash_eqb_iff in C. rewrite C in F. discriminate.
  - intros (c' & I & NE). apply in_map_iff in I as (j & [= E1 <-] & Jj). rewrite (X j Jj E1).
    destruct (hash_eqb _ _) eqn:F; [|reflexivity]. apply hash_eqb_iff in F. elim NE. now apply (hash_content h ks1 ks2 j i INJ S1 S2 Jj J E1).
Qed.
Lemma compare_whole p1 p2 f : Inv p1 -> iterate fuel p1 f false true false = Ok ks1 -> iterate fuel p2 f false true false = Ok ks2 ->
  exists c, reg_compare order fuel p1 p2 f = Ok c /\ (no_collision h ks1 ks2 -> compared ks1 ks2 c)
  /\ Forall (fun x => OK (kn_path (snd x)) (fst x)) (cg_keys_modified c) /\ Forall (fun k => OK (kn_path k) k) (cg_keys_deleted c)
  /\ Forall (fun x => OV (fst (fst x)) (vd_name (kv_detail (snd x))) (snd (fst x))) (cg_values_modified c)
  /\ Forall (fun x => OV (fst x) (vd_name (kv_detail (snd x))) (snd x)) (cg_values_deleted c).
Proof.
  intros IP E1 E2. unfold reg_compare. rewrite E1, E2. cbv beta iota. rewrite compare_keys_steps.
  assert (OM : original_map ks1 = map (fun i => (item_of i, hash_of i)) (items_of ks1)) by now apply original_map_all.
  assert (KM : map fst (original_map ks1) = map fst (contents ks1)) by (rewrite OM, map_map, contents_keys; reflexivity).
  destruct (csteps_spec fuel Inv known OK OV look_key look_value (items_of ks2) (original_map ks1) p1 no_changes)
    as (m' & p' & c' & R & IP' & NM' & A & KA & VA & KD & VD & (km & KM1 & KM2 & KM3) & (vm & VM1 & VM2 & VM3)).
  { now rewrite <- contents_keys. } { now rewrite KM. } { intros w J. unfold known. now rewrite <- KM. } { exact IP. }
  match goal with |- context [csteps ?a ?b ?s] => replace (csteps a b s) with (Ok (m', p', c')) by (symmetry; exact R) end. cbv beta iota.
  assert (NK : NoDup (map fst (original_map ks1))) by now rewrite KM.
  pose proof (rest_perm _ _ _ NM' NK A) as RP.
  destruct (compare_rest_spec fuel Inv known OK OV look_key look_value ok_path ov_name (order m') p' c')
    as (c & R2 & KA' & VA' & KMm & VMm & (kd & KD1 & KD2 & KD3) & (vd & VD1 & VD2 & VD3)).
  { intros w J. unfold known. rewrite <- KM. apply (Permutation_in _ (Permutation_map fst (PO m'))) in J.
    apply (Permutation_in _ (Permutation_map fst RP)) in J. apply in_map_iff in J as (e & <- & J). apply filter_In in J as (J & _). now apply in_map. } { exact IP'. }
  exists c. split; [exact R2|]. cbn [no_changes cg_keys_added cg_values_added cg_keys_deleted cg_values_deleted cg_keys_modified cg_values_modified app] in *.
  split; [intros INJ|rewrite KMm, VMm, KM1, VM1, KD1, VD1, KD, VD; cbn [app]; now repeat split].
  destruct (left_perm _ _ (Permutation_trans (PO m') RP)) as (L1 & L2). rewrite OM in L1, L2.
  pose proof (left_of_keys (fun w => negb (existsb (keq w) (map item_of (items_of ks2)))) (items_of ks1)) as LK.
  pose proof (left_of_values (fun w => negb (existsb (keq w) (map item_of (items_of ks2)))) (items_of ks1)) as LV.
  unfold left_of in LK, LV. rewrite LK in L1. rewrite LV in L2.
  split.
  - rewrite KA', KA. apply picks_keys; [|reflexivity]. intros k J. unfold fresh. apply (fresh_iff (kn_path k, None)).
  - rewrite KMm, KM1. cbn [app]. rewrite KM2. apply picks_keys; [|reflexivity]. intros k J. apply (differs_iff (KeyItem k) INJ). now apply in_items.
  - rewrite KD1, KD. cbn [app]. eexists. split; [|rewrite KD2; exact L1]. apply picks_keys; [|reflexivity].
    intros k J. cbn [item_of]. rewrite negb_true_iff. apply absent_iff.
  - rewrite VA', VA. apply picks_values; [|reflexivity]. intros k v J V. unfold fresh. apply (fresh_iff (kn_path k, Some (vd_name (kv_detail v)))).
  - rewrite VMm, VM1. cbn [app]. rewrite VM2. apply picks_values; [|reflexivity]. intros k v J V. apply (differs_iff (ValueItem k v) INJ). now apply in_items.
  - rewrite VD1, VD. cbn [app]. eexists. split; [|rewrite VD2; exact L2]. apply picks_values; [|reflexivity].
    intros k v J V. cbn [item_of]. rewrite negb_true_iff. apply absent_iff.
Qed.
End Whole.

(** ** A hive compared with itself *)
Lemma csteps_same fuel p c is : NoDup (map item_of is) -> csteps fuel is (map (fun i => (item_of i, hash_of i)) is, p, c) = Ok ([], p, c).
Proof.
  induction is as [|i is IH]; intros ND; [reflexivity|]. inversion ND as [|? ? NI ND']; subst. cbn [map csteps cstep].
  cbn [aget]. assert (W : keq (item_of i) (item_of i) = true) by now apply item_key_iff. rewrite W.
  assert (D : adel keq (item_of i) ((item_of i, hash_of i) :: map (fun i => (item_of i, hash_of i)) is) = map (fun i => (item_of i, hash_of i)) is).
  { cbn [adel]. now rewrite W. }
  rewrite D. assert (HH : hash_eqb (hash_of i) (hash_of i) = true) by now apply hash_eqb_iff. rewrite HH. now apply IH.
Qed.
Lemma compare_same order fuel p1 p2 f ks : iterate fuel p1 f false true false = Ok ks -> iterate fuel p2 f false true false = Ok ks ->
  NoDup (map fst (contents ks)) -> order [] = [] -> reg_compare order fuel p1 p2 f = Ok no_changes.
Proof.
  intros E1 E2 ND O. unfold reg_compare. rewrite E1, E2. cbv beta iota. rewrite compare_keys_steps, (original_map_all _ ND).
  rewrite contents_keys in ND. pose proof (csteps_same fuel p1 no_changes _ ND) as X.
  match goal with |- context [csteps ?a ?b ?s] => replace (csteps a b s) with (Ok (([] : hash_map), p1, no_changes)) by (symmetry; exact X) end.
  cbv beta iota. now rewrite O.
Qed.

(** ** The outputs *)
Lemma diff_hunk l r a b s hs : Forall (fun x => ~ In 10 x) (a ++ b) -> hunks (snd (fst (diff_section l a r b))) (snd (diff_section l a r b)) s hs ->
  hunks l r (fst (fst (diff_section l a r b)) ++ s) (match a, b with [], [] => hs | _, _ => (a, b) :: hs end).
Proof.
  intros F. unfold diff_section. destruct ((0 <? len a) || (0 <? len b)) eqn:E; cbn [fst snd].
  - intros H. assert (NE : (a, b) <> ([], [])) by (intros [= -> ->]; discriminate E).
    replace (match a, b with [], [] => hs | _, _ => (a, b) :: hs end) with ((a, b) :: hs) by (destruct a, b; congruence).
    rewrite <- !app_assoc. pose proof (next_hunk l r (decimal l) (decimal (len a)) (decimal r) (decimal (len b)) (a, b) s hs) as NH.
    unfold hunk_lines in NH. cbn [fst snd] in NH. rewrite <- !app_assoc in NH. apply NH; auto using decimal_numeral.
  - intros H. destruct a; [|discriminate E]. destruct b; [|discriminate E]. exact H.
Qed.
Lemma some_hunk (a b : list (list N)) hs : (match a, b with [], [] => hs | _, _ => (a, b) :: hs end)
  = (if match (a, b) with ([], []) => false | _ => true end then (a, b) :: hs else hs).
Proof. destruct a, b; reflexivity. Qed.
Lemma section_split l a r b : diff_section l a r b = (fst (fst (diff_section l a r b)), snd (fst (diff_section l a r b)), snd (diff_section l a r b)).
Proof. destruct (diff_section l a r b) as [[? ?] ?]. reflexivity. Qed.
Fixpoint diff_all (l n : N) (hs : list hunk) : list N :=
  match hs with [] => [] | h :: r => let '(s, l, n) := diff_section l (fst h) n (snd h) in s ++ diff_all l n r end.
Definition is_hunk (h : hunk) : bool := match h with ([], []) => false | _ => true end.
Lemma diff_all_hunks hs : forall l n, Forall (fun h => Forall (fun x => ~ In 10 x) (fst h ++ snd h)) (List.filter is_hunk hs) ->
  hunks l n (diff_all l n hs) (List.filter is_hunk hs).
Proof.
  induction hs as [|[a b] hs IH]; intros l n F; [constructor|]. cbn [diff_all fst snd]. rewrite section_split.
  cbn [List.filter] in *. unfold is_hunk at 1 in F. unfold is_hunk at 1. rewrite <- some_hunk in *.
  apply diff_hunk; [|apply IH].
  - destruct a, b; [constructor|inversion F; assumption..].
  - destruct a, b; [exact F|inversion F; assumption..].
Qed.
(** The lines of the specification are those that are written. *)
Lemma value_line_is r x : value_line r x = format_value r (fst x) (snd x).
Proof. unfold value_line, format_value, kv_pretty_name, get_pretty_name. now destruct (vd_name (kv_detail (snd x))). Qed.
Definition written_hunks (r : renderer) (c : changes) : list hunk :=
  let key := format_key r in
  let value := fun x => format_value r (fst x) (snd x) in
  [(map key (cg_keys_deleted c), []);
   ([], map key (cg_keys_added c));
   (map (fun x => key (fst x)) (cg_keys_modified c), map (fun x => key (snd x)) (cg_keys_modified c));
   (map value (cg_values_deleted c), []);
   ([], map value (cg_values_added c));
   (map (fun x => value (fst x)) (cg_values_modified c), map (fun x => value (fst (fst x), snd x)) (cg_values_modified c))].
Lemma hunks_written r c : all_hunks r c = List.filter is_hunk (written_hunks r c).
Proof.
  unfold all_hunks, written_hunks. cbv zeta. change (key_line r) with (format_key r).
  rewrite !(map_ext (value_line r) _ (value_line_is r)).
  rewrite (map_ext (fun x => value_line r (fst x)) _ (fun x => value_line_is r (fst x))).
  rewrite (map_ext (fun x => value_line r (fst (fst x), snd x)) _ (fun x => value_line_is r (fst (fst x), snd x))). reflexivity.
Qed.
Definition written_sections (r : renderer) (c : changes) : list (string * N * list (list N)) :=
  let key := format_key r in
  let value := fun x => format_value r (fst x) (snd x) in
  [("Keys deleted", len (cg_keys_deleted c), map key (cg_keys_deleted c));
   ("Keys added", len (cg_keys_added c), map key (cg_keys_added c));
   ("Keys modified", len (cg_keys_modified c), flat_map (fun x => [key (fst x); key (snd x)]) (cg_keys_modified c));
   ("Values deleted", len (cg_values_deleted c), map value (cg_values_deleted c));
   ("Values added", len (cg_values_added c), map value (cg_values_added c));
   ("Values modified", len (cg_values_modified c), flat_map (fun x => [value (fst x); value (fst (fst x), snd x)]) (cg_values_modified c))]%string.
Lemma sections_written r c : report_sections r c = written_sections r c.
Proof.
  unfold report_sections, written_sections. cbv zeta. change (key_line r) with (format_key r).
  rewrite !(map_ext (value_line r) _ (value_line_is r)).
  rewrite (flat_map_ext _ (fun x => [format_value r (fst (fst x)) (snd (fst x)); format_value r (fst (fst x)) (snd x)])); [reflexivity|].
  intros x. now rewrite !value_line_is.
Qed.
Lemma write_diff_hunks r base comparison c : Forall (fun h => Forall (fun x => ~ In 10 x) (fst h ++ snd h)) (all_hunks r c) ->
  exists body, write_diff r base comparison c = text "--- " ++ base ++ [10] ++ text "+++ " ++ comparison ++ [10] ++ body
  /\ hunks 1 1 body (all_hunks r c).
Proof.
  rewrite hunks_written. intros F. eexists. split; [|apply diff_all_hunks; exact F]. cbn [diff_all written_hunks fst snd]. unfold write_diff.
  repeat match goal with |- context [diff_section ?l ?a ?n ?b] => match l with context [diff_section] => fail 1 | _ =>
    destruct (diff_section l a n b) as [[? ?] ?]; cbv beta iota end end.
  rewrite <- !app_assoc, app_nil_r. reflexivity.
Qed.
Lemma interleave_pairs {A B} (f g : A -> B) l : interleave (map f l) (map g l) = flat_map (fun x => [f x; g x]) l.
Proof. induction l as [|x l IH]; [reflexivity|]. cbn [map interleave flat_map app]. now rewrite IH. Qed.
Lemma interleave_left {A} (l : list A) : interleave l [] = l. Proof. now destruct l. Qed.
Lemma interleave_right {A} (l : list A) : interleave [] l = l. Proof. now destruct l. Qed.
Lemma a_section title a b n s l ls : interleave a b = ls -> sections s l -> sections (text_section title a b n ++ s) ((title, n, ls) :: l).
Proof.
  intros <- H. unfold text_section. change rule with dashes. rewrite <- !app_assoc. unfold lines. apply next_section; [apply decimal_numeral|exact H].
Qed.
Lemma write_text_sections r base comparison c : exists body total,
  write_text r base comparison c = text "Base: " ++ base ++ text " " ++ [10] ++ text "Comparison: " ++ comparison ++ [10] ++ body
    ++ [10] ++ dashes ++ [10] ++ text "Total changes: " ++ total ++ [10] ++ dashes ++ [10]
  /\ sections body (report_sections r c)
  /\ numeral total (fold_right (fun x a => snd (fst x) + a) 0 (report_sections r c)).
Proof.
  rewrite sections_written. do 2 eexists. split; [|split].
  2: { do 2 (apply a_section; [apply interleave_left|]; apply a_section; [apply interleave_right|]; apply a_section; [apply interleave_pairs|]). constructor. }
  2: apply decimal_numeral.
  unfold write_text. rewrite <- !app_assoc. cbn [app written_sections fold_right fst snd]. rewrite !N.add_0_r, !N.add_assoc. reflexivity.
Qed.
