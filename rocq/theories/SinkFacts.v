(** Lemmas about outputs on a disk that may fail. *)
From Verif Require Import Base BaseFacts Types Parser TxLog Log Export Json JsonSpec JsonDoc JsonSays JsonFacts JsonTree Compare Folder Dump CompareRun Sink SinkSpec.
Open Scope N_scope.
Open Scope list_scope.

Lemma cut_at k (b : list N) : firstn (N.to_nat k) b ++ skipn (N.to_nat k) b = b. Proof. apply firstn_skipn. Qed.
Lemma all_taken dv i b : (taken dv i b =? len b) = true -> firstn (N.to_nat (taken dv i b)) b = b /\ skipn (N.to_nat (taken dv i b)) b = [].
Proof. intros H. apply N.eqb_eq in H. rewrite H. unfold len. rewrite Nnat.Nat2N.id. split; [apply firstn_all|apply skipn_all]. Qed.
Definition stream (s : sink) : list N := sn_file s ++ sn_buffer s.
Lemma flush_stream dv s : stream (snd (flush_buf dv s)) = stream s.
Proof. unfold flush_buf, stream. destruct (sn_buffer s) as [|x b] eqn:E; cbn [snd sn_file sn_buffer]; [now rewrite E|]. now rewrite <- app_assoc, cut_at. Qed.
Lemma flush_empties dv s : fst (flush_buf dv s) = true -> sn_buffer (snd (flush_buf dv s)) = [].
Proof. unfold flush_buf. destruct (sn_buffer s) as [|x b] eqn:E; cbn [fst snd sn_buffer]; [auto|]. intros H. now apply all_taken in H. Qed.
Lemma flush_shrinks dv s : len (sn_buffer (snd (flush_buf dv s))) <= len (sn_buffer s).
Proof. unfold flush_buf. destruct (sn_buffer s) as [|x b] eqn:E; cbn [snd sn_buffer]; [rewrite E; lia|]. unfold len. rewrite skipn_length. lia. Qed.
Lemma flush_grows dv s : exists r, sn_file (snd (flush_buf dv s)) = sn_file s ++ r.
Proof. unfold flush_buf. destruct (sn_buffer s) as [|x b]; cbn [snd sn_file]; [exists []; now rewrite app_nil_r|]. eexists. reflexivity. Qed.

Section Writer.
Context (capacity : N) (dv : device).
Definition fits (s : sink) : Prop := len (sn_buffer s) <= capacity.
Lemma written b s : fits s -> let (ok, s') := buf_write_all capacity dv b s in
  (exists r, sn_file s' = sn_file s ++ r) /\ fits s' /\ if ok : bool then stream s' = stream s ++ b else exists r, stream s ++ b = stream s' ++ r.
Proof.
  intros F. unfold buf_write_all. cbv zeta.
  assert (P : forall s1, stream s1 = stream s -> (exists r, sn_file s1 = sn_file s ++ r) -> len (sn_buffer s1) + len b <= capacity ->
    (exists r, sn_file s1 = sn_file s ++ r) /\ fits (mkSink (sn_file s1) (sn_buffer s1 ++ b) (sn_transfers s1) (sn_messages s1))
    /\ stream (mkSink (sn_file s1) (sn_buffer s1 ++ b) (sn_transfers s1) (sn_messages s1)) = stream s ++ b).
  { intros s1 E G L. split; [exact G|]. unfold fits, stream in *. cbn [sn_file sn_buffer]. rewrite len_app. split; [exact L|]. now rewrite app_assoc, E. }
  assert (G0 : exists r, sn_file s = sn_file s ++ r) by (exists []; now rewrite app_nil_r).
  destruct (N.ltb_spec (len b) (capacity - len (sn_buffer s))) as [L|L]; [apply (P s); [reflexivity|exact G0|unfold fits in F; lia]|].
  assert (Q : forall ok s1, (if capacity - len (sn_buffer s) <? len b then flush_buf dv s else (true, s)) = (ok, s1) ->
    stream s1 = stream s /\ (exists r, sn_file s1 = sn_file s ++ r) /\ fits s1 /\ (ok = true -> sn_buffer s1 = [] \/ len (sn_buffer s1) + len b <= capacity)).
  { intros ok s1. destruct (N.ltb_spec (capacity - len (sn_buffer s)) (len b)) as [M|M].
    - intros E. pose proof (flush_stream dv s) as A. pose proof (flush_empties dv s) as B. pose proof (flush_shrinks dv s) as C. pose proof (flush_grows dv s) as D.
      rewrite E in A, B, C, D. cbn [fst snd] in *. split; [exact A|]. split; [exact D|]. split; [unfold fits in *; lia|]. intros H. left. exact (B H).
    - intros [= <- <-]. split; [reflexivity|]. split; [exact G0|]. split; [exact F|]. intros _. right. unfold fits in F. lia. }
  destruct (if capacity - len (sn_buffer s) <? len b then flush_buf dv s else (true, s)) as [ok s1]. destruct (Q ok s1 eq_refl) as (A & G & FS & B). clear Q.
  destruct ok; [|split; [exact G|]; split; [exact FS|]; exists b; now rewrite A]. specialize (B eq_refl).
  destruct (N.leb_spec capacity (len b)) as [M|M].
  - set (k := taken dv (sn_transfers s1) b). assert (G2 : exists r, sn_file s1 ++ firstn (N.to_nat k) b = sn_file s ++ r).
    { destruct G as (r & ->). exists (r ++ firstn (N.to_nat k) b). now rewrite app_assoc. }
    split; [exact G2|]. split; [exact FS|].
    assert (Z : sn_buffer s1 = [] \/ b = []).
    { destruct B as [B|B]; [now left|]. destruct b as [|x b]; [now right|]. left. destruct (sn_buffer s1); [reflexivity|]. rewrite !len_cons in *. lia. }
    unfold stream in *. cbn [sn_file sn_buffer]. destruct (k =? len b) eqn:K.
    + apply all_taken in K as (K & _). fold k in K. rewrite K. destruct Z as [Z| ->]; [rewrite Z in *; now rewrite <- A, !app_nil_r|now rewrite <- A, !app_nil_r].
    + exists (skipn (N.to_nat k) b). destruct Z as [Z| ->].
      * rewrite Z in *. rewrite <- A, !app_nil_r, <- app_assoc, cut_at. reflexivity.
      * rewrite <- A, firstn_nil, skipn_nil, !app_nil_r. reflexivity.
  - destruct B as [B|B]; [|now apply (P s1)]. apply (P s1); [exact A|exact G|]. rewrite B. change (len []) with 0. lia.
Qed.
Lemma one_act a s : fits s -> let (ok, s') := perform_one capacity dv a s in
  (exists r, sn_file s' = sn_file s ++ r) /\ fits s' /\ if ok : bool then stream s' = stream s ++ handed [a] else exists r, stream s ++ handed [a] = stream s' ++ r.
Proof.
  intros F. destruct a as [|b]; cbn [perform_one handed flat_map app].
  - rewrite app_nil_r. split; [exists []; now rewrite app_nil_r|]. split; [exact F|]. destruct (dv_console dv (sn_messages s)); [reflexivity|]. exists []. now rewrite app_nil_r.
  - rewrite app_nil_r. exact (written b s F).
Qed.
Lemma handed_cons a acts : handed (a :: acts) = handed [a] ++ handed acts.
Proof. unfold handed. cbn [flat_map]. now rewrite app_nil_r. Qed.
Lemma performed acts : forall s, fits s -> let (ok, s') := perform capacity dv acts s in
  fits s' /\ if ok : bool then stream s' = stream s ++ handed acts else exists r, stream s ++ handed acts = stream s' ++ r.
Proof.
  induction acts as [|a acts IH]; intros s F; cbn [perform]. { split; [exact F|]. cbn [handed flat_map]. now rewrite app_nil_r. }
  pose proof (one_act a s F) as O. destruct (perform_one capacity dv a s) as [ok s1]. destruct O as (_ & F1 & O). rewrite handed_cons. destruct ok.
  - specialize (IH s1 F1). destruct (perform capacity dv acts s1) as [ok2 s2]. destruct IH as (F2 & IH). split; [exact F2|]. rewrite app_assoc, <- O. exact IH.
  - split; [exact F1|]. destruct O as (r & E). exists (r ++ handed acts). now rewrite app_assoc, E, <- app_assoc.
Qed.
Lemma start_fits : fits empty_sink. Proof. unfold fits. change (len (sn_buffer empty_sink)) with 0. lia. Qed.
Lemma outcome_of acts : let (ok, file) := write_out capacity dv acts in
  beginning file (handed acts) /\ (ok = true -> exists rest, handed acts = file ++ rest /\ len rest <= capacity).
Proof.
  unfold write_out. pose proof (performed acts empty_sink start_fits) as P. destruct (perform capacity dv acts empty_sink) as [ok s]. destruct P as (F & P).
  pose proof (flush_stream dv s) as A. pose proof (flush_shrinks dv s) as B. fold (close dv s) in A, B. unfold stream at 1 in A. change (stream empty_sink) with (@nil N) in P. cbn [app] in P. split.
  - destruct ok; [exists (sn_buffer (close dv s)); congruence|]. destruct P as (r & P). exists (sn_buffer (close dv s) ++ r). now rewrite app_assoc, A.
  - intros ->. exists (sn_buffer (close dv s)). split; [congruence|]. unfold fits in F. lia.
Qed.
Lemma at_any_time before after : beginning (sn_file (snd (perform capacity dv before empty_sink))) (handed (before ++ after)).
Proof.
  pose proof (performed before empty_sink start_fits) as P. destruct (perform capacity dv before empty_sink) as [ok s]. cbn [snd]. destruct P as (_ & P).
  change (stream empty_sink) with (@nil N) in P. cbn [app] in P. unfold handed in *. rewrite flat_map_app. unfold stream in P.
  destruct ok; [|destruct P as (r & P)]; rewrite P || rewrite <- P; unfold beginning; rewrite <- ?app_assoc; eexists; reflexivity.
Qed.
End Writer.
Lemma sound_taken dv i b : sound dv -> taken dv i b = len b.
Proof. intros (_ & H & _). unfold taken. now rewrite H. Qed.
Lemma sound_flush dv s : sound dv -> fst (flush_buf dv s) = true.
Proof. intros H. unfold flush_buf. destruct (sn_buffer s); [reflexivity|]. cbn [fst]. rewrite sound_taken by exact H. apply N.eqb_refl. Qed.
Lemma sound_one capacity dv a s : sound dv -> fst (perform_one capacity dv a s) = true.
Proof.
  intros H. destruct a as [|b]; cbn [perform_one fst]; [apply H|]. unfold buf_write_all. destruct (len b <? _); [reflexivity|].
  pose proof (sound_flush dv s H) as FL. destruct (_ <? len b); [destruct (flush_buf dv s) as [ok s1]; cbn [fst] in FL; subst ok|];
    (destruct (capacity <=? len b); [|reflexivity]); cbn [fst]; rewrite sound_taken by exact H; apply N.eqb_refl.
Qed.
Lemma sound_perform capacity dv acts : sound dv -> forall s, fst (perform capacity dv acts s) = true.
Proof.
  intros H. induction acts as [|a acts IH]; intros s; [reflexivity|]. cbn [perform]. pose proof (sound_one capacity dv a s H) as O.
  destruct (perform_one capacity dv a s) as [ok s1]. cbn [fst] in O. subst ok. apply IH.
Qed.
Lemma sound_write capacity dv acts : sound dv -> write_out capacity dv acts = (true, handed acts).
Proof.
  intros H. unfold write_out. pose proof (sound_perform capacity dv acts H empty_sink) as O. pose proof (performed capacity dv acts empty_sink (start_fits capacity)) as P.
  destruct (perform capacity dv acts empty_sink) as [ok s]. cbn [fst] in O. subst ok. destruct P as (_ & P). f_equal.
  pose proof (flush_stream dv s) as A. pose proof (flush_empties dv s (sound_flush dv s H)) as B. fold (close dv s) in A, B. unfold stream at 1 in A. rewrite B, app_nil_r in A. rewrite A, P. reflexivity.
Qed.

(** ** Whole lines *)
Lemma json_handed il ks : handed (json_acts il ks) = json_export il ks.
Proof.
  unfold json_acts, json_export. induction ks as [|k ks IH]; [reflexivity|]. cbn [flat_map]. unfold handed in *. rewrite flat_map_app, IH. cbn [flat_map]. now rewrite app_nil_r.
Qed.
Lemma cut_lines {A} (line : A -> list N) : forall (l : list A) file, (forall x, ~ In 10 (line x)) -> beginning file (flat_map (fun x => line x ++ [10]) l) ->
  exists j part, file = flat_map (fun x => line x ++ [10]) (firstn j l) ++ part /\ ~ In 10 part.
Proof.
  induction l as [|x l IH]; intros file H (r & E); cbn [flat_map] in E.
  - symmetry in E. apply app_eq_nil in E as (-> & _). exists 0%nat, []. split; [reflexivity|]. intros [].
  - set (m := List.length (line x ++ [10])) in *. destruct (Nat.le_gt_cases m (List.length file)) as [L|L].
    + assert (E1 : line x ++ [10] = firstn m file).
      { apply (f_equal (firstn m)) in E. rewrite (firstn_app m (line x ++ [10])), (firstn_app m file) in E. fold m in E. rewrite Nat.sub_diag in E.
        rewrite (firstn_all (line x ++ [10]) : firstn m _ = _) in E.
        replace (m - List.length file)%nat with 0%nat in E by lia. cbn [firstn] in E. now rewrite !app_nil_r in E. }
      rewrite <- (firstn_skipn m file) in E |- *. rewrite <- E1 in E |- *. rewrite <- (app_assoc (line x ++ [10]) (skipn m file)) in E. apply app_inv_head in E.
      destruct (IH _ H (ex_intro _ r E)) as (j & part & EP & NP). exists (S j), part. split; [|exact NP]. cbn [firstn flat_map]. now rewrite EP, app_assoc.
    + exists 0%nat, file. split; [reflexivity|]. intros I. apply (H x). unfold m in L. rewrite app_length in L. cbn [List.length] in L.
      apply (f_equal (firstn (List.length file))) in E. rewrite <- app_assoc, !firstn_app, Nat.sub_diag, firstn_all in E.
      replace (List.length file - List.length (line x))%nat with 0%nat in E by lia. cbn [firstn] in E. rewrite !app_nil_r in E. rewrite <- E in I.
      rewrite <- (firstn_skipn (List.length file) (line x)). apply in_or_app. now left.
Qed.
Lemma lines_left (il : item_logs) ks file : beginning file (json_export il ks) ->
  exists j whole part js, file = whole ++ part /\ ~ In 10 part /\ read_lines whole js /\ Forall2 (says_key (il_key il) (il_value il) (il_content il)) (firstn j ks) js.
Proof.
  intros B. destruct (cut_lines (json_key il) ks file (fun k => proj2 (key_line il k)) B) as (j & part & E & NP).
  destruct (export_said il (firstn j ks)) as (js & R & S0). exists j, (json_export il (firstn j ks)), part, js. now repeat split.
Qed.
