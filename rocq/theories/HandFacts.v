(** No call on a key in hand aborts. *)
From Verif Require Import Base BaseFacts Util UtilSpec UtilText UtilLz LayoutSpec LayoutFacts HeaderFacts BaseBlock Types Value Node Recover
  Parser TxLog TxSpec NodeFrame TxParse TxApply TxBuild CellSpec CellFacts CellData CellList CellRead TreeRead AnyFile TreeOpen ScanSpec ScanFacts ScanOpen ScanAll Recovered LiveSpec LiveView LiveOpen
  Pure StoreSpec StoreFacts AnalysisSpec AnalysisFacts AnalysisStore AnalysisAll AnalysisReach VersionFacts TreeSession LivePlain RecIter Ends FreeKept AbortSpec NoAbort HandSpec.
Open Scope N_scope.
Open Scope list_scope.

Section Down.
Variables (fi : file_info) (rp : list N).
Hypotheses (BO : bytes_ok (fi_buffer fi)) (HD : hd_error rp = Some 92).
Notation placed := (placed rp). Notation steady := (steady rp). Notation fine := (fine rp).
Definition firm (k : key_node) : Prop := Forall dead (kn_deleted k) /\ placed (kn_path k).
Lemma firm_fine k : firm k -> fine k. Proof. intros (A & B). split; [exact A|now intros]. Qed.
Lemma both_firm cs : Forall fine cs -> Forall (fun c => placed (kn_path c)) cs -> Forall firm cs.
Proof. intros A B. rewrite Forall_forall in *. intros c I. split; [apply (A c I)|apply (B c I)]. Qed.
Lemma sub_keys_self st k f seq m k' cs fd st' : read_sub_keys_internal fi st k f seq m = Ok (k', cs, fd, st') -> kn_path k' = kn_path k /\ kn_deleted k' = kn_deleted k.
Proof.
  unfold read_sub_keys_internal. destruct (is_allocated _); [|now intros [= <- _ _ _]]. destruct (_ <? _); [now intros [= <- _ _ _]|]. destruct (_ <? _); [|now intros [= <- _ _ _]].
  destruct (parse_sub_key_list _ _ _); try discriminate; [|now intros [= <- _ _ _]]. cbv zeta. destruct (read_children _ _ _ _ _ _ _ _ _) as [[[[? ?] ?] ?]| | |]; try discriminate. now intros [= <- _ _ _].
Qed.
Lemma find_firm f seq : forall fuel st k, steady st -> firm k -> forall o st', get_sub_key_internal fuel fi st k f seq = Ok (o, st') -> Forall firm (got o).
Proof.
  induction fuel as [|fuel IH]; intros st k S K o st'; cbn [get_sub_key_internal]; [discriminate|].
  destruct (sub_keys_fine fi rp BO HD st k f seq false S (firm_fine k K)) as (R1 & R2).
  destruct (read_sub_keys_internal _ _ _ _ _ _) as [[[[k2 cs] fd] st1]| | |]; try discriminate.
  destruct (R2 _ _ _ _ eq_refl) as (S1 & _ & F1 & P1). pose proof (both_firm cs F1 P1) as F. cbv beta iota. destruct fd.
  - intros [= <- _]. destruct F; constructor; [assumption|constructor].
  - clear R1 R2 F1 P1. revert st1 S1. induction F as [|c cs FC F IC]; intros st1 S1; [intros [= <- _]; constructor|].
    destruct (find_fine fi rp BO HD f seq fuel st1 c S1 (firm_fine c FC)) as (_ & I2). pose proof (IH st1 c S1 FC) as I3.
    destruct (get_sub_key_internal fuel fi st1 c f seq) as [[o2 st2]| | |]; try discriminate. specialize (I2 _ _ eq_refl). cbv beta iota.
    destruct o2 as [key|]; [|now apply IC]. intros [= <- _]. exact (I3 _ _ eq_refl).
Qed.
Lemma by_path_firm fuel st k path : steady st -> firm k -> no_abort (get_sub_key_by_path fuel fi st k path)
  /\ forall o st', get_sub_key_by_path fuel fi st k path = Ok (o, st') -> steady st' /\ Forall firm (got o).
Proof.
  intros S K. unfold get_sub_key_by_path. destruct path as [|c path].
  - split; [discriminate|]. intros o st' [= <- <-]. split; [exact S|]. constructor; [exact K|constructor].
  - cbv zeta. match goal with |- context [get_sub_key_internal fuel fi st k ?f ?s] => destruct (find_fine fi rp BO HD f s fuel st k S (firm_fine k K)) as (A & B) end.
    split; [exact A|]. intros o st' E. split; [exact (B _ _ E)|]. exact (find_firm _ _ fuel st k S K o st' E).
Qed.
(** The root is cut off any path below it. *)
Lemma offset_under path : under rp path -> get_root_path_offset path = 0 \/ get_root_path_offset path = rv rp.
Proof.
  intros (r & -> & [-> |R]).
  - rewrite app_nil_r. unfold rv. destruct rp as [|c n]; [discriminate|]. injection HD as ->. unfold get_root_path_offset. cbn [app]. change (92 =? 92) with true. cbv iota.
    assert (X : forall m, find_byte 92 m = None \/ find_byte 92 (m ++ [92]) = find_byte 92 m).
    { induction m as [|x m IH]; [now left|]. cbn [find_byte app]. destruct (x =? 92); [now right|]. destruct IH as [-> | ->]; [now left|now right]. }
    destruct (X n) as [-> | ->]; [now left|]. destruct (find_byte 92 n); [now right|now left].
  - right. destruct r as [|c r]; [discriminate|]. injection R as ->. now apply rv_child.
Qed.
Lemma cut_safe st path : steady st -> placed path -> path <> rp -> let (o, st') := st_get_root_path_offset st path in no_abort (str_from path o).
Proof.
  intros (C & _) (T & r & E & R) Z. destruct R as [-> |R]; [rewrite app_nil_r in E; contradiction|]. destruct r as [|c r]; [discriminate|]. injection R as ->.
  assert (X : forall o, o = rv rp -> no_abort (str_from path o)).
  { intros o EO. destruct (str_from_total path o T) as (x & ->); [|discriminate]. rewrite EO, <- (rv_child rp r HD), <- E. destruct (root_offset_split path) as [?|(a & s & E1 & L)]; [now left|]. right. now exists a, s. }
  unfold st_get_root_path_offset. destruct (N.eqb_spec (st_root_offset st) 0) as [Y|Y].
  - apply X. rewrite E. now apply rv_child.
  - destruct C as [C|C]; [contradiction|]. now apply X.
Qed.
Lemma offset_steady st path : steady st -> under rp path -> steady (snd (st_get_root_path_offset st path)).
Proof.
  intros (C & D) U. unfold st_get_root_path_offset. destruct (_ =? 0); [|now split]. cbn [snd]. split; [exact (offset_under path U)|].
  apply (root_only_dead st); [reflexivity|exact D].
Qed.
Lemma by_name_firm p k name : ps_file p = fi -> steady (ps_state p) -> firm k ->
  (kn_path k <> rp -> no_abort (get_sub_key p k name)) /\ forall o p', get_sub_key p k name = Ok (o, p') -> steady (ps_state p') /\ Forall firm (got o).
Proof.
  intros EF S K. unfold get_sub_key. pose proof (cut_safe (ps_state p) (kn_path k) S (proj2 K)) as CS. pose proof (offset_steady (ps_state p) (kn_path k) S (proj2 (proj2 K))) as OS.
  destruct (st_get_root_path_offset _ _) as [o st]. cbn [snd] in OS. rewrite EF.
  destruct (str_from _ o) as [s| | |]; try (split; [intros Z; try discriminate; now elim (CS Z)|discriminate]). cbv beta iota zeta.
  match goal with |- context [read_sub_keys_internal fi st k ?f ?a ?b] => destruct (sub_keys_fine fi rp BO HD st k f a b OS (firm_fine k K)) as (A & B) end.
  destruct (read_sub_keys_internal _ _ _ _ _ _) as [[[[k2 cs] fd] st1]| | |]; try (split; [intros _; try discriminate; now elim A|discriminate]).
  destruct (B _ _ _ _ eq_refl) as (S1 & _ & F1 & P1). split; [discriminate|]. intros o2 p' [= <- <-]. split; [exact S1|]. destruct (both_firm cs F1 P1); constructor; [assumption|constructor].
Qed.
Lemma all_firm st k k' cs st' : steady st -> firm k -> read_sub_keys fi st k = Ok (k', cs, st') -> firm k' /\ Forall firm cs.
Proof.
  intros S K. unfold read_sub_keys. destruct (sub_keys_fine fi rp BO HD st k None None true S (firm_fine k K)) as (_ & B).
  destruct (read_sub_keys_internal _ _ _ _ _ _) as [[[[k2 cs2] fd] st1]| | |] eqn:E; try discriminate. destruct (B _ _ _ _ eq_refl) as (_ & _ & F1 & P1).
  apply sub_keys_self in E as (E1 & E2). intros [= <- <- _]. split; [|now apply both_firm]. unfold firm. now rewrite E1, E2.
Qed.
Lemma by_index_firm st k i k' o st' : steady st -> firm k -> get_sub_key_by_index fi st k i = Ok (k', o, st') -> firm k' /\ Forall firm (got o).
Proof.
  intros S K. unfold get_sub_key_by_index. destruct (_ <? _); [|intros [= <- <- _]; split; [exact K|constructor]].
  destruct (parse_sub_key_list _ _ _); try discriminate; [|intros [= <- <- _]; split; [exact K|constructor]]. destruct (get_at _ _) as [off|]; [|intros [= <- <- _]; split; [exact K|constructor]].
  destruct (read_fine fi rp BO HD st (mkOpt off (kn_path k) None (is_match_or_desc k) None true) (proj1 (proj2 K)) (or_introl eq_refl) S) as (_ & R).
  destruct (kn_read _ _ _) as [[c st1]| | |]; try discriminate; [|intros [= <- <- _]; split; [exact K|constructor]].
  destruct (R _ _ eq_refl) as (_ & F). intros [= <- <- _]. split; [exact K|]. destruct c as [c|]; [|constructor]. destruct (F c eq_refl) as (F1 & F2 & F3).
  constructor; [|constructor]. split; [exact F1|]. rewrite F2. cbn [op_path]. apply placed_child; [apply K|exact F3].
Qed.
Lemma next_firm st k k' o st' : steady st -> firm k -> next_sub_key fi st k = Ok (k', o, st') -> firm k' /\ Forall firm (got o).
Proof.
  intros S K. unfold next_sub_key. destruct (get_sub_key_by_index _ _ _ _) as [[[k2 o2] s2]| | |] eqn:E; try discriminate.
  apply (by_index_firm _ _ _ _ _ _ S K) in E as (A & B). cbv beta iota. destruct o2; intros [= <- <- _]; now split.
Qed.
End Down.

Section Hand.
Variables (p0 : parser).
Hypotheses (O : opened_any p0) (BO : bytes_ok (ps_buffer p0)) (R32 : num_at (ps_buffer p0) 36 4 = 32).
Lemma file_bytes q : moved p0 q -> bytes_ok (fi_buffer (ps_file q)).
Proof. intros (st & -> & _). exact BO. Qed.
Lemma root_firm rp q k q' : moved p0 q -> hd_error rp = Some 92 -> cachedr rp (ps_state q) -> (forall k q, moved p0 q -> forall q', get_root_key q = Ok (Some k, q') -> rp = 92 :: kn_name k) ->
  get_root_key q = Ok (Some k, q') -> firm rp k /\ kn_path k = rp.
Proof.
  intros M HD C RP E. pose proof (RP _ _ M _ E) as ER. rewrite (root_read p0 q O R32 M) in E.
  destruct (kn_read (ps_file p0) (ps_state p0) at_root) as [[c s]| | |] eqn:RD; try discriminate. injection E as -> _.
  assert (CZ : cachedr rp (ps_state p0)) by (left; exact (oa_offset _ O)).
  destruct (read_fine (ps_file p0) rp BO HD (ps_state p0) at_root text_nil (or_introl eq_refl) (conj CZ (oa_maps _ O))) as (_ & F).
  destruct (F _ _ RD) as (_ & K). destruct (K k eq_refl) as (K1 & K2 & K3). cbn [at_root op_path app] in K2. rewrite <- ER in K2. split; [|exact K2]. split; [exact K1|]. rewrite K2.
  split; [rewrite ER; now apply AnyOpen.text_root|]. exists []. rewrite app_nil_r. split; [reflexivity|now left].
Qed.
Lemma the_root : exists rp, hd_error rp = Some 92 /\ (forall k, ps_root p0 = Some k -> rp = 92 :: kn_name k)
  /\ (forall k q, moved p0 q -> forall q', get_root_key q = Ok (Some k, q') -> rp = 92 :: kn_name k).
Proof.
  destruct (here_start p0 O R32) as (_ & rp & _ & HD & A & B). exists rp. split; [exact HD|]. split; [exact A|]. intros k q M q' E.
  rewrite (root_read p0 q O R32 M) in E. pose proof (root_read p0 p0 O R32 (moved_refl p0)) as E0.
  destruct (kn_read (ps_file p0) (ps_state p0) at_root) as [[c s]| | |]; try discriminate. injection E as -> _. exact (B _ _ E0).
Qed.
Section At.
Variables (rp : list N).
Hypotheses (HD : hd_error rp = Some 92) (RP : forall k q, moved p0 q -> forall q', get_root_key q = Ok (Some k, q') -> rp = 92 :: kn_name k).
Definition kept (q : parser) (ks : list key_node) : Prop := moved p0 q /\ steady rp (ps_state q) /\ Forall (firm rp) ks.
Lemma get_key_firm q ks fuel path hr o q' : kept q ks -> get_key fuel q path hr = Ok (o, q') -> steady rp (ps_state q') /\ Forall (firm rp) (got o).
Proof.
  intros (M & S & F). unfold get_key. destruct (get_root_key q) as [[[k|] p1]| | |] eqn:E; try discriminate.
  - pose proof (root_state _ _ _ E) as E1. subst p1. destruct (root_firm rp q k q M HD (proj1 S) RP E) as (K & _). cbv zeta.
    match goal with |- context [get_sub_key_by_path fuel (ps_file q) (ps_state q) k ?s] => destruct (by_path_firm (ps_file q) rp (file_bytes q M) HD fuel (ps_state q) k s S K) as (_ & B);
      destruct (get_sub_key_by_path fuel (ps_file q) (ps_state q) k s) as [[o2 st2]| | |]; try discriminate end.
    intros [= <- <-]. exact (B _ _ eq_refl).
  - intros [= <- <-]. apply root_state in E. subst. split; [exact S|constructor].
  - intros [= <- <-]. split; [exact S|constructor].
Qed.
Lemma hand_kept q ks : in_hand p0 q ks -> kept q ks.
Proof.
  induction 1 as [|q ks o q' H IH E|q ks fuel path hr o q' H IH E|q ks k fuel path o st H IH I E|q ks k name o q' H IH I E|q ks k k' cs st H IH I E|q ks k i k' o st H IH I E|q ks k k' o st H IH I E|q ks k o q' H IH E].
  - split; [apply moved_refl|]. split; [|constructor]. split; [left; exact (oa_offset _ O)|exact (oa_maps _ O)].
  - pose proof (root_state _ _ _ E) as E1. subst q'. destruct IH as (M & S & F). split; [exact M|]. split; [exact S|]. destruct o as [k|]; [|exact F]. constructor; [|exact F].
    exact (proj1 (root_firm rp q k q M HD (proj1 S) RP E)).
  - pose proof (get_key_firm _ _ _ _ _ _ _ IH E) as (A & B). destruct IH as (M & S & F). split; [eapply moved_trans; [exact M|now apply get_key_moved in E]|]. split; [exact A|]. apply Forall_app. now split.
  - destruct IH as (M & S & F). pose proof (proj1 (Forall_forall _ _) F k I) as K. destruct (by_path_firm (ps_file q) rp (file_bytes q M) HD fuel (ps_state q) k path S K) as (_ & B). destruct (B _ _ E) as (B1 & B2).
    split; [eapply moved_trans; [exact M|]; exists st; split; [reflexivity|now apply by_path_state in E]|]. split; [exact B1|]. apply Forall_app. now split.
  - destruct IH as (M & S & F). pose proof (proj1 (Forall_forall _ _) F k I) as K. destruct (by_name_firm (ps_file q) rp (file_bytes q M) HD q k name eq_refl S K) as (_ & B). destruct (B _ _ E) as (B1 & B2).
    split; [eapply moved_trans; [exact M|now apply get_sub_key_moved in E]|]. split; [exact B1|]. apply Forall_app. now split.
  - destruct IH as (M & S & F). pose proof (proj1 (Forall_forall _ _) F k I) as K. destruct (all_firm (ps_file q) rp (file_bytes q M) HD _ _ _ _ _ S K E) as (B1 & B2). apply sub_keys_same in E. subst. rewrite same_parser.
    split; [exact M|]. split; [exact S|]. constructor; [exact B1|]. apply Forall_app. now split.
  - destruct IH as (M & S & F). pose proof (proj1 (Forall_forall _ _) F k I) as K. destruct (by_index_firm (ps_file q) rp (file_bytes q M) HD _ _ _ _ _ _ S K E) as (B1 & B2). apply by_index_same in E. subst. rewrite same_parser.
    split; [exact M|]. split; [exact S|]. constructor; [exact B1|]. apply Forall_app. now split.
  - destruct IH as (M & S & F). pose proof (proj1 (Forall_forall _ _) F k I) as K. destruct (next_firm (ps_file q) rp (file_bytes q M) HD _ _ _ _ _ S K E) as (B1 & B2). apply next_same in E. subst. rewrite same_parser.
    split; [exact M|]. split; [exact S|]. constructor; [exact B1|]. apply Forall_app. now split.
  - apply parent_state in E. now subst.
Qed.
End At.
Lemma hand_safe q ks : in_hand p0 q ks ->
  (forall n f anc m post, no_abort (iterate n q f anc m post)) /\ (forall n path hr, no_abort (get_key n q path hr))
  /\ forall k, In k ks -> (forall n path, no_abort (get_sub_key_by_path n (ps_file q) (ps_state q) k path))
     /\ forall r q', get_root_key q = Ok (Some r, q') -> kn_path k <> kn_path r -> forall name, no_abort (get_sub_key q k name).
Proof.
  intros H. destruct the_root as (rp & HD & RA & RP). destruct (hand_kept rp HD RP q ks H) as (M & S & F). split; [|split].
  - intros. exact (safe_iterate p0 O BO rp n q f anc m post M (proj1 S) HD RA).
  - intros. apply (safe_get_key p0 O BO q n path hr M). intros k p1 G. rewrite <- (RP _ _ M _ G). apply S.
  - intros k I. pose proof (proj1 (Forall_forall _ _) F k I) as K. split.
    + intros n path. apply (by_path_firm (ps_file q) rp (file_bytes q M) HD n (ps_state q) k path S K).
    + intros r q' G NE name. destruct (root_firm rp q r q' M HD (proj1 S) RP G) as (_ & ER). apply (by_name_firm (ps_file q) rp (file_bytes q M) HD q k name eq_refl S K). now rewrite <- ER.
Qed.
End Hand.
