(** Proofs about the comparison of the items before and after a log entry. *)
From Coq Require Import Permutation.
From Verif Require Import Base BaseFacts Types Value Node Recover Parser TxLog NodeFrame StoreSpec StoreFacts AnalysisSpec.

Lemma item_key_iff a b : item_key_eqb a b = true <-> a = b.
Proof.
  destruct a as [p [n|]], b as [q [m|]]; unfold item_key_eqb; cbn [fst snd]; rewrite andb_true_iff, ?beq_eq; intuition congruence.
Qed.
Notation keq := item_key_eqb.
Notation kiff := item_key_iff.

(** ** The comparison as one pass over the sightings *)
Definition hash_of (h : option N) : N := match h with Some x => x | None => 0 end.
(** Prior items left, latest items, changed items. *)
Definition step (seq : N) (s : reg_items * reg_items * list (item_key * item)) (e : item_key * (option N * N))
  : reg_items * reg_items * list (item_key * item) :=
  let '(prior, latest, ch) := s in
  let w := fst e in let h := hash_of (fst (snd e)) in
  match aget keq w prior with
  | Some it =>
      if h =? it_hash it
      then (adel keq w prior, aset keq w (mkItem h (snd (snd e)) (it_seq it)) latest, ch)
      else (adel keq w prior, aset keq w (mkItem h (snd (snd e)) seq) latest, ch ++ [(w, it)])
  | None => (prior, aset keq w (mkItem h (snd (snd e)) seq) latest, ch)
  end.
Definition need_of (x : item_key * item) : needed := mkNeeded (fst (fst x)) (it_offset (snd x)) (it_seq (snd x)).
Definition is_key (x : item_key * item) : bool := match snd (fst x) with None => true | Some _ => false end.
Definition key_needs (ch : list (item_key * item)) : list needed := map need_of (List.filter is_key ch).
Definition value_needs (ch : list (item_key * item)) : list needed := map need_of (List.filter (fun x => negb (is_key x)) ch).
Lemma needs_app f (a b : list (item_key * item)) : map need_of (List.filter f (a ++ b)) = map need_of (List.filter f a) ++ map need_of (List.filter f b).
Proof. now rewrite filter_app, map_app. Qed.
Lemma handle_values_steps seq path vs : forall prior latest ch logs r,
  handle_values seq path vs (prior, latest, value_needs ch) logs = Ok r ->
  exists prior' latest' ch' logs', r = (prior', latest', value_needs ch', logs')
  /\ key_needs ch' = key_needs ch
  /\ fold_left (step seq) (map (fun v => ((path, Some (vd_name (kv_detail v))), (kv_hash v, kv_offset v))) vs) (prior, latest, ch) = (prior', latest', ch')
  /\ Forall (fun v => kv_hash v <> None) vs.
Proof.
  induction vs as [|v vs IH]; intros prior latest ch logs r; cbn [handle_values].
  - intros [= <-]. exists prior, latest, ch, logs. repeat split. constructor.
  - destruct (kv_hash v) as [h|] eqn:HV; [|discriminate]. cbn [must_hash or_panic]. cbv beta iota.
    assert (G : forall prior' latest' ch', step seq (prior, latest, ch) ((path, Some (vd_name (kv_detail v))), (kv_hash v, kv_offset v)) = (prior', latest', ch') ->
      handle_new_item seq (path, Some (vd_name (kv_detail v))) h (kv_offset v) (prior, latest, value_needs ch) = (prior', latest', value_needs ch')
      /\ key_needs ch' = key_needs ch).
    { unfold step, handle_new_item. cbn [fst snd]. rewrite HV. cbn [hash_of]. intros prior' latest' ch'.
      destruct (aget _ _ _) as [it|]; [destruct (_ =? _)|]; intros [= <- <- <-]; (split; [|try reflexivity]); try reflexivity.
      - unfold value_needs at 2. rewrite needs_app. reflexivity.
      - unfold key_needs at 1. rewrite needs_app. apply app_nil_r. }
    destruct (step seq (prior, latest, ch) ((path, Some (vd_name (kv_detail v))), (kv_hash v, kv_offset v))) as [[p1 l1] c1] eqn:E.
    destruct (G _ _ _ eq_refl) as (-> & K). intros R. apply IH in R as (p2 & l2 & c2 & lg & -> & K2 & F & N).
    exists p2, l2, c2, lg. split; [reflexivity|]. split; [now rewrite K2|]. split.
    + cbn [map fold_left]. rewrite E. exact F.
    + constructor; [now rewrite HV|exact N].
Qed.
Definition hashed (k : key_node) : Prop := kn_hash k <> None /\ Forall (fun v => kv_hash v <> None) (kn_values k).
Lemma handle_keys_steps seq ks : forall prior latest ch logs r,
  handle_keys seq ks prior latest (key_needs ch) (value_needs ch) logs = Ok r ->
  exists prior' latest' ch' logs', r = (prior', latest', key_needs ch', value_needs ch', logs')
  /\ fold_left (step seq) (sightings ks) (prior, latest, ch) = (prior', latest', ch') /\ Forall hashed ks.
Proof.
  induction ks as [|k ks IH]; intros prior latest ch logs r; cbn [handle_keys].
  - intros [= <-]. exists prior, latest, ch, logs. repeat split. constructor.
  - destruct (kn_hash k) as [h|] eqn:HK; [|discriminate]. cbn [must_hash or_panic]. cbv beta iota.
    set (e := ((kn_path k, None), (kn_hash k, kn_offset k)) : item_key * (option N * N)).
    assert (G : forall prior' latest' ch', step seq (prior, latest, ch) e = (prior', latest', ch') ->
      handle_new_item seq (kn_path k, None) h (kn_offset k) (prior, latest, key_needs ch) = (prior', latest', key_needs ch')
      /\ value_needs ch' = value_needs ch).
    { unfold step, handle_new_item, e. cbn [fst snd]. rewrite HK. cbn [hash_of]. intros prior' latest' ch'.
      destruct (aget _ _ _) as [it|]; [destruct (_ =? _)|]; intros [= <- <- <-]; (split; [|try reflexivity]); try reflexivity.
      - unfold key_needs at 2. rewrite needs_app. reflexivity.
      - unfold value_needs at 1. rewrite needs_app. apply app_nil_r. }
    destruct (step seq (prior, latest, ch) e) as [[p1 l1] c1] eqn:E. destruct (G _ _ _ eq_refl) as (-> & V). rewrite <- V.
    destruct (handle_values _ _ _ _ _) as [r1| | |] eqn:HV; try discriminate.
    apply handle_values_steps in HV as (p2 & l2 & c2 & lg & -> & K2 & F & NV). cbv beta iota. rewrite <- K2. intros R.
    apply IH in R as (p3 & l3 & c3 & lg3 & -> & F3 & N3). exists p3, l3, c3, lg3. split; [reflexivity|]. split.
    + change (sightings (k :: ks)) with (e :: map (fun v => ((kn_path k, Some (vd_name (kv_detail v))), (kv_hash v, kv_offset v))) (kn_values k) ++ sightings ks).
      cbn [fold_left]. rewrite E, fold_left_app. etransitivity; [apply f_equal; exact F|exact F3].
    + constructor; [split; [now rewrite HK|exact NV]|exact N3].
Qed.

(** ** What the pass leaves *)
Definition seen (w : item_key) (l : list (item_key * (option N * N))) : bool := match first_seen w l with Some _ => true | None => false end.
(** The prior item whose hash differs from that of the first sighting. *)
Definition differs (w : item_key) (prior : reg_items) (l : list (item_key * (option N * N))) : option item :=
  match aget keq w prior, first_seen w l with
  | Some it, Some (h, _) => if hash_of h =? it_hash it then None else Some it
  | _, _ => None
  end.
Lemma step_prior seq prior latest ch e prior' latest' ch' : NoDup (map fst prior) -> step seq (prior, latest, ch) e = (prior', latest', ch') ->
  NoDup (map fst prior') /\ (forall w, aget keq w prior' = if keq w (fst e) then None else aget keq w prior)
  /\ ch' = ch ++ or_nothing (fun it => [(fst e, it)]) (differs (fst e) prior [e]).
Proof.
  intros D. unfold step. destruct e as [w0 [h off]]. cbn [fst snd]. unfold differs. cbn [first_seen fst snd].
  rewrite (eqb_same keq kiff). destruct (aget keq w0 prior) as [it|] eqn:G.
  - assert (X : NoDup (map fst (adel keq w0 prior)) /\ forall w, aget keq w (adel keq w0 prior) = if keq w w0 then None else aget keq w prior)
      by (split; [now apply adel_nodup|intros w; now rewrite aget_adel by (exact kiff || exact D)]).
    destruct (hash_of h =? it_hash it); intros [= <- _ <-]; (split; [apply X|]); (split; [apply X|]); cbn [or_nothing]; [symmetry; apply app_nil_r|reflexivity].
  - intros [= <- _ <-]. split; [exact D|]. cbn [or_nothing]. split; [|symmetry; apply app_nil_r]. intros w.
    destruct (keq w w0) eqn:E; [apply kiff in E as ->; exact G|reflexivity].
Qed.
Lemma steps_prior seq es : forall prior latest ch prior' latest' ch', NoDup (map fst prior) ->
  fold_left (step seq) es (prior, latest, ch) = (prior', latest', ch') ->
  NoDup (map fst prior')
  /\ (forall w, aget keq w prior' = if seen w es then None else aget keq w prior)
  /\ exists more, ch' = ch ++ more /\ NoDup (map fst more) /\ forall w it, In (w, it) more <-> differs w prior es = Some it.
Proof.
  induction es as [|e es IH]; intros prior latest ch prior' latest' ch' D; cbn [fold_left].
  - intros [= <- _ <-]. split; [exact D|]. split; [reflexivity|]. exists []. split; [symmetry; apply app_nil_r|]. split; [constructor|].
    intros w it. unfold differs. cbn. destruct (aget keq w prior); split; easy.
  - destruct (step seq (prior, latest, ch) e) as [[p1 l1] c1] eqn:E. destruct (step_prior _ _ _ _ _ _ _ _ D E) as (D1 & A1 & C1).
    intros F. destruct (IH _ _ _ _ _ _ D1 F) as (D2 & A2 & more & C2 & ND & M). split; [exact D2|]. split.
    { intros w. rewrite A2, A1. unfold seen. cbn [first_seen]. destruct (keq w (fst e)), (first_seen w es); reflexivity. }
    assert (DE : forall w it, In (w, it) more <-> keq w (fst e) = false /\ differs w prior (e :: es) = Some it).
    { intros w it. rewrite M. unfold differs. rewrite A1. cbn [first_seen]. destruct (keq w (fst e)); intuition discriminate. }
    exists (or_nothing (fun it => [(fst e, it)]) (differs (fst e) prior [e]) ++ more). split; [now rewrite C2, C1, app_assoc|].
    assert (ONE : differs (fst e) prior [e] = differs (fst e) prior (e :: es)).
    { unfold differs. cbn [first_seen]. now rewrite (eqb_same keq kiff). }
    rewrite ONE. split.
    + destruct (differs (fst e) prior (e :: es)) as [it|]; [|exact ND]. cbn [or_nothing app map fst]. constructor; [|exact ND].
      intros I. apply in_map_iff in I as ([w it'] & W & I). cbn [fst] in W. apply DE in I as (I & _). subst w. now rewrite (eqb_same keq kiff) in I.
    + intros w it. rewrite in_app_iff, DE. destruct (keq w (fst e)) eqn:W.
      * apply kiff in W as ->. destruct (differs (fst e) prior (e :: es)) as [i|] eqn:DF; cbn [or_nothing In].
        -- split; [intros [[[= ->]|[]]|[X _]]; [reflexivity|discriminate]|intros [= ->]; left; now left].
        -- split; [intros [[]|[X _]]; discriminate|discriminate].
      * split; [intros [I|[_ I]]; [|exact I]|intros I; right; now split].
        destruct (differs (fst e) prior (e :: es)) as [i|]; cbn [or_nothing In] in I; [|easy]. destruct I as [[= <- _]|[]]. now rewrite (eqb_same keq kiff) in W.
Qed.
(** The latest items: hash and offset of the last sighting. *)
Lemma step_latest seq prior latest ch e prior' latest' ch' : NoDup (map fst latest) -> step seq (prior, latest, ch) e = (prior', latest', ch') ->
  NoDup (map fst latest') /\ forall w, (aget keq w latest' = None <-> aget keq w latest = None /\ keq w (fst e) = false)
  /\ (forall it, aget keq w latest' = Some it -> keq w (fst e) = true ->
      it_hash it = hash_of (fst (snd e)) /\ it_offset it = snd (snd e)
      /\ it_seq it = match aget keq w prior with Some o => if hash_of (fst (snd e)) =? it_hash o then it_seq o else seq | None => seq end)
  /\ (keq w (fst e) = false -> aget keq w latest' = aget keq w latest).
Proof.
  intros D. unfold step. destruct e as [w0 [h off]]. cbn [fst snd].
  assert (X : forall s, NoDup (map fst (aset keq w0 (mkItem (hash_of h) off s) latest)) /\ forall w,
     (aget keq w (aset keq w0 (mkItem (hash_of h) off s) latest) = None <-> aget keq w latest = None /\ keq w w0 = false)
     /\ (forall it, aget keq w (aset keq w0 (mkItem (hash_of h) off s) latest) = Some it -> keq w w0 = true -> it = mkItem (hash_of h) off s)
     /\ (keq w w0 = false -> aget keq w (aset keq w0 (mkItem (hash_of h) off s) latest) = aget keq w latest)).
  { intros s. split; [apply aset_nodup; [exact kiff|exact D]|]. intros w. rewrite (aget_aset keq kiff). destruct (keq w w0).
    - split; [split; [discriminate|intros [_ H]; discriminate]|]. split; [now intros it [= <-]|discriminate].
    - split; [tauto|]. split; [discriminate|reflexivity]. }
  intros E. assert (Y : exists s, latest' = aset keq w0 (mkItem (hash_of h) off s) latest
    /\ s = match aget keq w0 prior with Some o => if hash_of h =? it_hash o then it_seq o else seq | None => seq end).
  { destruct (aget keq w0 prior) as [o|]; [destruct (hash_of h =? it_hash o)|]; injection E as _ <- _; eexists; split; reflexivity. }
  destruct Y as (s & -> & ->). destruct (X (match aget keq w0 prior with Some o => if hash_of h =? it_hash o then it_seq o else seq | None => seq end)) as (X1 & X2).
  split; [exact X1|]. intros w. destruct (X2 w) as (Y1 & Y2 & Y3). split; [exact Y1|]. split; [|exact Y3].
  intros it I W. rewrite (Y2 _ I W). apply kiff in W as ->. repeat split.
Qed.
Lemma steps_latest seq es : forall prior latest ch prior' latest' ch', NoDup (map fst latest) ->
  fold_left (step seq) es (prior, latest, ch) = (prior', latest', ch') ->
  NoDup (map fst latest') /\ (forall w, aget keq w latest' = None <-> aget keq w latest = None /\ seen w es = false)
  /\ (forall w, seen w es = false -> aget keq w latest' = aget keq w latest)
  /\ (forall w it, aget keq w latest' = Some it -> seen w es = true -> exists h, In (w, (h, it_offset it)) es /\ it_hash it = hash_of h).
Proof.
  induction es as [|e es IH]; intros prior latest ch prior' latest' ch' D; cbn [fold_left].
  - intros [= _ <- _]. split; [exact D|]. split; [intros w; cbn; tauto|]. split; [reflexivity|discriminate].
  - destruct (step seq (prior, latest, ch) e) as [[p1 l1] c1] eqn:E. destruct (step_latest _ _ _ _ _ _ _ _ D E) as (D1 & L1).
    intros F. destruct (IH _ _ _ _ _ _ D1 F) as (D2 & N2 & K2 & S2). split; [exact D2|].
    assert (SE : forall w, seen w (e :: es) = keq w (fst e) || seen w es).
    { intros w. unfold seen. cbn [first_seen]. now destruct (keq w (fst e)). }
    split; [|split].
    + intros w. rewrite N2, SE, orb_false_iff. destruct (L1 w) as (X & _). rewrite X. tauto.
    + intros w. rewrite SE, orb_false_iff. intros (X & Y). rewrite K2 by exact Y. now apply L1.
    + intros w it G. rewrite SE. destruct (seen w es) eqn:SW.
      * intros _. destruct (S2 w it G SW) as (h & I & H). exists h. split; [now right|exact H].
      * rewrite orb_false_r. intros W. rewrite K2 in G by exact SW. destruct (L1 w) as (_ & X & _). destruct (X it G W) as (H & O & _).
        destruct e as [w0 [h off]]. cbn [fst snd] in *. apply kiff in W as ->. exists h. split; [left; now rewrite O|exact H].
Qed.
(** With one sighting of an item: its number is kept if the hash is. *)
Lemma steps_once seq es : forall prior latest ch prior' latest' ch', NoDup (map fst latest) -> NoDup (map fst prior) -> NoDup (map fst es) ->
  fold_left (step seq) es (prior, latest, ch) = (prior', latest', ch') ->
  forall w h off, In (w, (h, off)) es -> aget keq w latest' =
    Some (mkItem (hash_of h) off (match aget keq w prior with Some o => if hash_of h =? it_hash o then it_seq o else seq | None => seq end)).
Proof.
  induction es as [|e es IH]; intros prior latest ch prior' latest' ch' D DP DE; cbn [fold_left]; [easy|].
  destruct (step seq (prior, latest, ch) e) as [[p1 l1] c1] eqn:E. destruct (step_latest _ _ _ _ _ _ _ _ D E) as (D1 & L1).
  destruct (step_prior _ _ _ _ _ _ _ _ DP E) as (DP1 & A1 & _). inversion DE; subst. intros F w h off [->|I].
  - destruct (steps_latest _ _ _ _ _ _ _ _ D1 F) as (_ & _ & K2 & _). cbn [fst] in *.
    assert (S : seen w es = false).
    { unfold seen. clear -H1. induction es as [|x es IH]; [reflexivity|]. cbn [first_seen]. cbn [map] in H1. rewrite (eqb_other keq kiff); [|intros ->; apply H1; now left].
      apply IH. intros I. apply H1. now right. }
    rewrite K2 by exact S. destruct (L1 w) as (X & Y & _). destruct (aget keq w l1) as [it|] eqn:G.
    + destruct (Y it eq_refl (eqb_same keq kiff w)) as (Y1 & Y2 & Y3). cbn [fst snd] in *. destruct it. cbn in *. now subst.
    + destruct X as (X & _). destruct (X eq_refl) as (_ & X'). cbn [fst] in X'. now rewrite (eqb_same keq kiff) in X'.
  - rewrite (IH _ _ _ _ _ _ D1 DP1 H2 F w h off I). rewrite A1. rewrite (eqb_other keq kiff); [reflexivity|].
    intros ->. apply H1. now apply (in_map fst) in I.
Qed.
