(** Proofs about the Python bindings. *)
From Coq Require Import String.
From Verif Require Import Base BaseFacts Util UtilSpec UtilText LayoutSpec LayoutFacts Types Value Node Parser TxSpec TxLog TxBuild CellSpec CellData TreeSpec TreeRead
  TreeIter TreeOpen TreeFilter TreeLook TreeUse CellFacts CellRead CompareTree History AnyFile Pure TreeCount TreeSession LivePlain NavSpec NavRead NavFacts Log Export ExportSpec ExportFacts Date DateSpec DateFacts DateTree Show ShowSpec ShowFacts
  JsonTree TreeSpec Python PythonSpec DecodeSpec DecodeFacts.
Open Scope list_scope.

(** ** Dates *)
Open Scope Z_scope.
Lemma micros_near n : 0 <= n < 1000000000 -> n mod 100 = 0 -> let r := nanos_to_micros_round_half_even n in
  0 <= r <= 1000000 /\ 1000 * r <= n + 500 /\ n <= 1000 * r + 500 /\ (1000 * r = n + 500 \/ n = 1000 * r + 500 -> r mod 2 = 0).
Proof.
  intros R M. unfold nanos_to_micros_round_half_even. cbv zeta.
  destruct (Z.ltb_spec 5 (n mod 1000 / 100)); [lia|]. destruct (Z.ltb_spec (n mod 1000 / 100) 5); lia.
Qed.
Lemma micros_bound n : 0 <= n < 1000000000 -> 0 <= nanos_to_micros_round_half_even n <= 1000000.
Proof.
  intros R. unfold nanos_to_micros_round_half_even. cbv zeta.
  destruct (Z.ltb_spec 5 (n mod 1000 / 100)); [lia|]. destruct (Z.ltb_spec (n mod 1000 / 100) 5); lia.
Qed.
Definition rounded_to (z : Z) : Z := z / 1000000000 * 1000000000 + 1000 * nanos_to_micros_round_half_even (z mod 1000000000).
Lemma rounded z : let t := rounded_to z in round_to_usec_half_even z = Some (t / 1000000000, t mod 1000000000).
Proof.
  unfold round_to_usec_half_even, date_splitter, rounded_to. cbv zeta. pose proof (micros_bound (z mod 1000000000) ltac:(lia)) as B.
  revert B. generalize (nanos_to_micros_round_half_even (z mod 1000000000)). intros r B.
  replace (r mod 1000000 * 1000 <? 1000000000) with true by (symmetry; apply Z.ltb_lt; lia). cbn [orb].
  do 2 f_equal; lia.
Qed.
Lemma date_made z : -9223372036854775808 <= z < 9223372036854775808 -> exists d, date_to_pyobject z = Some d
  /\ let t := rounded_to z in
     exists days, date_after_1601 days = (dt_year d, dt_month d, dt_day d) /\ (dt_hour d < 24)%N /\ (dt_minute d < 60)%N /\ (dt_second d < 60)%N /\ (dt_micros d < 1000000)%N
     /\ t / 1000 = (((Z.of_N days - 134774) * 24 + Z.of_N (dt_hour d)) * 60 + Z.of_N (dt_minute d)) * 60 * 1000000 + Z.of_N (dt_second d) * 1000000 + Z.of_N (dt_micros d).
Proof.
  intros R. unfold date_to_pyobject. rewrite rounded. cbv beta iota zeta. pose proof (micros_bound (z mod 1000000000) ltac:(lia)) as B.
  assert (E : rounded_to z = z / 1000000000 * 1000000000 + 1000 * nanos_to_micros_round_half_even (z mod 1000000000)) by reflexivity.
  set (t := rounded_to z) in *. assert (T : -9223372037 <= t / 1000000000 <= 9223372037) by lia. clear E B.
  set (n := t / 1000000000 / 86400). assert (NB : -134774 <= n <= 110000) by (subst n; lia).
  pose proof (date_after (Z.to_N (n + 134774))) as A. replace (Z.of_N (Z.to_N (n + 134774)) - 134774) with n in A by lia.
  pose proof (year_bound n NB) as Y. destruct (date_right n) as (V & _). destruct (date_of_days n) as ((y & m) & d).
  destruct (date_after_1601 (Z.to_N (n + 134774))) as ((y1 & m1) & d1) eqn:DA. cbn [in_z] in A. injection A as <- <- <-. destruct V as (M & D).
  unfold py_datetime_new.
  match goal with |- context [if ?c then _ else _] => replace c with true end.
  2:{ symmetry. change (nth (Z.to_nat (Z.of_N m1 - 1)) (month_lengths (leap_year (Z.of_N y1))) 0) with (month_length (leap_year (Z.of_N y1)) (Z.of_N m1)).
      repeat (apply andb_true_intro; split); try (apply Z.leb_le); try (apply Z.ltb_lt); lia. }
  eexists. split; [reflexivity|]. exists (Z.to_N (n + 134774)). cbn [dt_year dt_month dt_day dt_hour dt_minute dt_second dt_micros].
  split; [rewrite DA, !N2Z.id; reflexivity|]. subst n. repeat split; lia.
Qed.
Theorem date_total ft : exists d, date_to_pyobject (get_date_time_from_filetime ft) = Some d.
Proof.
  destruct (date_made (get_date_time_from_filetime ft)) as (d & E & _); [|now exists d].
  unfold get_date_time_from_filetime, as_i64. destruct (_ <? _) eqn:X; [apply Z.ltb_lt in X|apply Z.ltb_ge in X]; lia.
Qed.
Theorem date_shown ft d : fits_i64 (filetime_instant ft) -> date_to_pyobject (get_date_time_from_filetime ft) = Some d -> shows_time d ft.
Proof.
  intros F. rewrite (proj2 (filetime_exact ft) F). revert F. unfold fits_i64, filetime_instant.
  change (2 ^ 63) with 9223372036854775808. intros F. set (z := Z.of_N ft * 100 - 134774 * 86400 * 1000000000) in *.
  destruct (date_made z ltac:(lia)) as (d' & -> & DM). intros [= ->]. cbv zeta in DM. destruct DM as (days & A & B & C & D & E & G).
  eexists. split; [exists days; repeat (split; [eassumption|]); reflexivity|].
  unfold rounded_to in G. assert (M : z mod 1000000000 mod 100 = 0) by (subst z; lia).
  pose proof (micros_near (z mod 1000000000) ltac:(lia) M) as NR. cbv zeta in NR.
  set (r := nanos_to_micros_round_half_even (z mod 1000000000)) in *. set (q := z / 1000000000) in *.
  assert (Q : z = q * 1000000000 + z mod 1000000000) by (subst q; lia).
  set (m := ((((days * 24 + dt_hour d) * 60 + dt_minute d) * 60 + dt_second d) * 1000000 + dt_micros d)%N).
  assert (MM : Z.of_N m = (q + 134774 * 86400) * 1000000 + r) by (subst m; lia).
  unfold nearest_micro. subst z. split; [lia|]. split; [lia|]. intros TI. apply N.even_spec. exists (m / 2)%N.
  assert (r mod 2 = 0) by (apply NR; lia). lia.
Qed.
Lemma nearest_order a b m n : nearest_micro a m -> nearest_micro b n -> (a <= b)%N -> (m <= n)%N.
Proof.
  intros (A1 & A2 & A3) (B1 & B2 & B3) L. destruct (N.le_gt_cases m n) as [|G]; [assumption|exfalso].
  assert (E : m = (n + 1)%N) by lia. subst m. assert (10 * (n + 1) = a + 5 /\ b = 10 * n + 5)%N as (X & Y) by lia.
  specialize (A3 (or_introl X)). specialize (B3 (or_intror Y)). rewrite N.add_1_r, N.even_succ in A3. apply N.odd_spec in A3. apply N.even_spec in B3. destruct A3, B3. lia.
Qed.
Open Scope N_scope.

(** ** Contents *)
Lemma str_chars_text s u : read_utf8 s = Some u -> str_chars s = u.
Proof. intros R. apply read_utf8_exact in R as (S & ->). now apply str_chars_utf8. Qed.
Lemma in_python_content t b c : stored_content t b c -> in_python c (prepare_content c).
Proof.
  intros S. assert (P : match c with CString s => exists u, read_utf8 s = Some u | CMultiString l => exists us, map read_utf8 l = map Some us | _ => True end)
    by (destruct S; try exact I; eexists; eassumption).
  clear S. destruct c; cbn [prepare_content]; try (constructor; fail).
  - destruct P as (u & R). constructor. now rewrite (str_chars_text _ _ R).
  - destruct P as (us & R). replace (map py_str l) with (map PyStr us); [now constructor|].
    clear - R. revert us R. induction l as [|s l IH]; destruct us as [|u us]; cbn [map]; intros R; try discriminate; [reflexivity|].
    apply cons_inj in R as (R1 & R2). rewrite (IH us R2). f_equal. unfold py_str. now rewrite (str_chars_text _ _ R1).
Qed.
Lemma in_python_text d : of_text d -> in_python d (prepare_content d).
Proof.
  destruct d as [|b|s|l|n|z|n|z|]; cbn [of_text prepare_content]; try (intros _; constructor; fail).
  - intros (t & S & ->). unfold py_str. rewrite str_chars_utf8 by exact S. constructor. now apply read_utf8_utf8.
  - intros (ts & S & ->). rewrite map_map.
    replace (map (fun x => py_str (utf8 x)) ts) with (map PyStr ts).
    + constructor. rewrite map_map. apply map_ext_in. intros t J. rewrite Forall_forall in S. now apply read_utf8_utf8, S.
    + apply map_ext_in. intros t J. rewrite Forall_forall in S. unfold py_str. now rewrite str_chars_utf8 by now apply S.
Qed.
Lemma value_seen v x : value_shown v x -> sees_value v x.
Proof.
  intros (VN & VT & VB & VS & VK). unfold sees_value, py_value_name, py_value_pretty_name, py_value_raw_type, py_value_bytes, py_value_content, py_str.
  rewrite VB, VT, (str_chars_text _ _ VN). split; [reflexivity|]. split; [|split; [reflexivity|split; [reflexivity|]]].
  - f_equal. unfold kv_pretty_name, get_pretty_name. destruct (vd_name (kv_detail v)) as [|a nm] eqn:E.
    + injection VN as <-. vm_compute. reflexivity.
    + rewrite (str_chars_text _ _ VN). destruct (v_name x) as [|c' n']; [|reflexivity]. apply read_utf8_exact in VN as (_ & VN). discriminate VN.
  - intros c S. destruct (stored_content_is v _ _ _ (conj VK VB) S) as (l & GC). split.
    + rewrite GC. cbv beta iota. eexists. split; [reflexivity|]. eapply in_python_content; eassumption.
    + intros f off steps d D. exists (prepare_content d). split; [eapply value_decodes; eassumption|].
      assert (TD : of_text d) by (eapply chain_text; [exact D|discriminate]). now apply in_python_text.
Qed.
Lemma get_value_shown k vals name : Forall2 value_shown (kn_values k) vals -> Forall scalar name ->
  match find (fun x => same_name (v_name x) name) vals with
  | Some x => exists v, get_value k (utf8 name) = Some v /\ value_shown v x
  | None => get_value k (utf8 name) = None
  end.
Proof.
  intros F S. unfold get_value. induction F as [|v x vs xs V F IH]; [reflexivity|]. cbn [find].
  destruct V as (VN & V). pose proof VN as VN'. apply read_utf8_exact in VN' as (VS & ->). rewrite lower_same by assumption.
  destruct (same_name (v_name x) name); [|exact IH]. exists v. split; [reflexivity|]. now split.
Qed.
Lemma items_all {A} (l : list A) n : forall i, (List.length l - i < n)%nat -> py_items n l (N.of_nat i) = skipn i l.
Proof.
  induction n as [|n IH]; intros i L; [lia|]. cbn [py_items]. rewrite get_at_nth, Nat2N.id.
  destruct (nth_error l i) as [v|] eqn:NE.
  - replace (N.of_nat i + 1) with (N.of_nat (S i)) by lia. assert (i < List.length l)%nat by (apply nth_error_Some; congruence). rewrite IH by lia.
    clear -NE. revert i NE. induction l as [|x l I]; intros [|i] NE; try discriminate; [now injection NE as ->|]. cbn [skipn]. now apply I.
  - apply nth_error_None in NE. symmetry. now apply skipn_all2.
Qed.
Theorem versions_all v n : (List.length (kv_versions v) < n)%nat -> py_versions n v = kv_versions v.
Proof. intros L. apply (items_all (kv_versions v) n 0). lia. Qed.

(** ** Keys *)
Lemma values_of_detail fi root s : bytes_ok (fi_buffer fi) -> tree_stored fi root s -> forall full,
  kd_nvalues (nk_detail_at full (rest_at (fi_buffer fi) (t_pos s))) = len (t_vals s).
Proof.
  intros B T full. set (st := mkState 0 full [] (fun _ => 0) [] [] [] []).
  destruct (key_parse fi st root s [] B T) as (d & raw & k & rest & _ & _ & V & _ & _ & _ & _ & _ & E & BK & _).
  destruct (kn_cases st (rest_at (fi_buffer fi) (t_pos s)) (t_pos s) [] None) as [(_ & nm & w & _ & E')|(_ & E')]; [|congruence].
  rewrite E' in E. injection E as <- _. destruct BK as (_ & _ & _ & D & _). change (nk_detail_at full (rest_at (fi_buffer fi) (t_pos s)) = kd_with_full (if full then Some (nk_table d) else None) d) in D. rewrite D. apply V.
Qed.
Lemma joined_scalar l : Forall (Forall scalar) l -> Forall scalar (joined l).
Proof.
  induction l as [|n l IH]; intros F; [constructor|]. apply Forall_cons_iff in F as (F0 & F). cbn [joined]. destruct l as [|m l]; [exact F0|].
  apply Forall_app. split; [exact F0|]. constructor; [vm_compute; now left|]. now apply IH.
Qed.
Lemma pretty_path root r k : good (root :: r) -> read_utf8 (kn_path k) = Some (spelled (root :: r)) ->
  kn_pretty_path k = Ok (utf8 (match r with [] => spelled [root] | _ => joined r end)).
Proof.
  intros G P. apply read_utf8_exact in P as (S & E). unfold kn_pretty_path. rewrite E. pose proof G as (GS & GC). apply Forall_cons_iff in GC as (GC & _). apply Forall_cons_iff in GS as (GS & _).
  rewrite utf8_spelled. cbn [map]. rewrite root_offset_path by now apply utf8_no_slash.
  destruct r as [|n r].
  - cbn [map]. change (spelled [utf8 root]) with (spelled (map utf8 [root])). rewrite <- utf8_spelled. unfold str_from. reflexivity.
  - change (spelled (utf8 root :: map utf8 (n :: r))) with (spelled (map utf8 (root :: n :: r))). rewrite <- utf8_spelled. cbn [map].
    apply (after_root root (n :: r) G). discriminate.
Qed.
Lemma seen fi t x k d : bytes_ok (fi_buffer fi) -> tree_stored fi true t -> clean_names t -> held fi t x k -> date_to_pyobject (kn_date k) = Some d ->
  sees_key (fi_buffer fi) (mkPyKey k d) (fst x) (snd x).
Proof.
  intros B T CN HK DK. pose proof (held_weak fi t true x k B T HK) as (_ & _ & (dd & (SU & _) & SN & _) & _).
  pose proof HK as (I & KS & _ & full & D). destruct (preorder_stored fi t true [] x T I) as (rt & R & _).
  assert (GN : good (fst x)) by (split; [now apply (names_scalar k _ (snd x))|now apply (clean_path t x)]).
  destruct (preorder_first t x I) as (r & ER & _). destruct KS as (KO & KN & KP & KV & _).
  split; [unfold py_key_name, py_str; cbn [pk_inner]; now rewrite (str_chars_text _ _ KN)|].
  split; [unfold py_key_path, py_str; cbn [pk_inner]; now rewrite (str_chars_text _ _ KP)|].
  split.
  { unfold py_key_pretty_path. cbn [pk_inner]. rewrite ER in *. rewrite (pretty_path (t_name t) r k GN KP). cbv beta iota. unfold py_str. do 2 f_equal.
    assert (W : str_chars (utf8 (match r with [] => spelled [t_name t] | _ => joined r end)) = match r with [] => spelled [t_name t] | _ => joined r end).
    { apply str_chars_utf8. destruct r; [apply spelled_scalar; apply GN|]. apply joined_scalar. destruct GN as (G & _). now apply Forall_cons_iff in G as (_ & G). }
    rewrite W. now destruct r. }
  split; [unfold py_key_sub_keys; cbn [pk_inner]; rewrite SN, SU; f_equal; unfold len; lia|].
  split; [unfold py_key_values; cbn [pk_inner]; rewrite D, KO, (values_of_detail fi rt (snd x) B R full); f_equal; unfold len; lia|].
  assert (TT : kd_time (kn_detail k) = stored_time (fi_buffer fi) (snd x)) by (rewrite D; cbn [nk_detail_at kd_time]; rewrite !num_at_rest, KO; reflexivity).
  split; [intros F; cbn [pk_date]; apply (date_shown _ _ F); rewrite <- TT; exact DK|].
  split.
  - intros fuel L. unfold py_values. cbn [pk_inner]. pose proof (Forall2_length _ _ _ KV) as LV. rewrite (value_iter_from k fuel 0) by lia. cbn [skipn].
    clear - KV. induction KV; constructor; [now apply value_seen|assumption].
  - intros name SN'. unfold py_value. cbn [pk_inner]. pose proof (get_value_shown k _ name KV SN') as G. destruct (find _ _) as [y|]; [|exact G].
    destruct G as (v & E & V). exists v. split; [exact E|]. now apply value_seen.
Qed.

(** ** Sessions *)
Lemma made_some k : exists d, from_cell_key_node k = Some (mkPyKey k d) /\ date_to_pyobject (kn_date k) = Some d.
Proof. unfold from_cell_key_node, kn_date. destruct (date_total (kd_time (kn_detail k))) as (d & ->). now exists d. Qed.
Definition py_got (t : key_tree) (p0 : parser) (k : py_key) : Prop := obtained t p0 (pk_inner k) /\ date_to_pyobject (kn_date (pk_inner k)) = Some (pk_date k).
Lemma made_got t p0 k k' : obtained t p0 k -> from_cell_key_node k = Some k' -> py_got t p0 k'.
Proof. intros O M. destruct (made_some k) as (d & E & D). rewrite E in M. injection M as <-. now split. Qed.
Lemma made_all t p0 l : (forall k, In k l -> obtained t p0 k) -> Forall (py_got t p0) (flat_map (fun o => match o with Some c => [c] | None => [] end) (map from_cell_key_node l)).
Proof.
  intros H. apply Forall_forall. intros k I. apply in_flat_map in I as (o & O & I). apply in_map_iff in O as (c & <- & C).
  destruct (from_cell_key_node c) as [k'|] eqn:E; [|contradiction]. destruct I as [<-|[]]. apply (made_got t p0 c); [now apply H|exact E].
Qed.
Lemma items_in {A} (l : list A) n : forall i x, In x (py_items n l i) -> In x l.
Proof.
  induction n as [|n IH]; intros i x; [contradiction|]. cbn [py_items]. rewrite get_at_nth. destruct (nth_error l (N.to_nat i)) as [y|] eqn:E; [|contradiction].
  intros [<-|I]; [eapply nth_error_In; eassumption|]. eapply IH. eassumption.
Qed.
Section On.
Variables (buffer : list N) (files : list (list N)) (t : key_tree) (p0 : parser) (s : py_parser) (ks : list py_key).
Lemma session_got : opens buffer files t p0 -> clean_names t -> num_at (ps_buffer p0) 36 4 = 32 -> parents_stored (ps_buffer p0) t ->
  py_session t p0 s ks -> (forall p, s = Some p -> used (key_of t) p0 p) /\ Forall (py_got t p0) ks.
Proof.
  intros OP CN RT PS. assert (KO : forall k, obtained t p0 k -> key_of t k).
  { intros k OB. destruct (obtained_held buffer files t p0 OP CN RT PS k OB) as (x & HK). exact (held_key_of t p0 x k HK). }
  induction 1 as [|s ks fuel path k s' _ (U & G) SP E|s ks fuel path s' _ (U & G) SP E|s ks k s' _ (U & G) E|s ks c k s' _ (U & G) I NR E
    |s ks fuel k l k' s' _ (U & G) I E|s ks fuel k path c s' _ (U & G) I SP E|s ks fuel k path s' _ (U & G) I SP E|s ks fuel l s' _ (U & G) L E].
  - split; [|constructor]. intros p [= <-]. constructor.
  - unfold py_open, key_for in E. destruct s as [p|]; [|discriminate]. specialize (U p eq_refl).
    destruct (get_key fuel p (utf8 path) false) as [[[c|] p']| | |] eqn:GK; try discriminate. destruct (made_some c) as (d & M & _). rewrite M in E. injection E as <- <-.
    split; [intros q [= <-]; exact (used_key _ _ _ _ _ _ _ _ U GK)|]. constructor; [|exact G]. apply (made_got t p0 c); [exact (by_key _ _ _ _ _ _ _ _ U SP GK)|exact M].
  - unfold py_open, key_for in E. destruct s as [p|]; [|injection E as <-; split; [discriminate|exact G]]. specialize (U p eq_refl).
    destruct (get_key fuel p (utf8 path) false) as [[[c|] p']| | |] eqn:GK; try discriminate; [destruct (made_some c) as (d & M & _); rewrite M in E; discriminate|].
    injection E as <-. split; [intros q [= <-]; exact (used_key _ _ _ _ _ _ _ _ U GK)|exact G].
  - unfold py_root, key_for in E. destruct s as [p|]; [|discriminate]. specialize (U p eq_refl).
    destruct (get_root_key p) as [[[c|] p']| | |] eqn:GK; try discriminate. destruct (made_some c) as (d & M & _). rewrite M in E. injection E as <- <-.
    split; [intros q [= <-]; exact (used_root _ _ _ _ _ U GK)|]. constructor; [|exact G]. apply (made_got t p0 c); [exact (by_root _ _ _ _ _ U GK)|exact M].
  - unfold py_get_parent, key_for in E. destruct s as [p|]; [|discriminate]. specialize (U p eq_refl). rewrite Forall_forall in G. destruct (G c I) as (OB & _).
    destruct (get_parent_key p (pk_inner c)) as [[[a|] p']| | |] eqn:GK; try discriminate. destruct (made_some a) as (d & M & _). rewrite M in E. injection E as <- <-.
    split; [intros q [= <-]; exact (used_parent _ _ _ _ _ _ U (KO _ OB) GK)|]. constructor; [|apply Forall_forall; exact G].
    apply (made_got t p0 a); [exact (by_parent _ _ _ _ _ _ OB U NR GK)|exact M].
  - pose proof G as G'. rewrite Forall_forall in G. destruct (G k I) as (OB & DK). apply by_init in OB. unfold py_subkeys in E. destruct s as [p|].
    + specialize (U p eq_refl). destruct (read_sub_keys _ _ _) as [[[k1 cs] st]| | |] eqn:RS; try discriminate. cbv beta iota in E. injection E as <- <- <-.
      assert (OC : forall c, c = k1 \/ In c cs -> obtained t p0 c) by (intros c J; exact (by_sub_keys _ _ _ _ _ _ _ _ OB U RS J)).
      split; [intros q [= <-]; exact (used_sub_keys _ _ _ _ _ _ _ U (KO _ OB) RS)|]. apply Forall_app. split.
      * apply made_all. intros c J. apply OC. right. eapply items_in. eassumption.
      * constructor; [|exact G']. split; [apply OC; now left|]. cbn [pk_inner pk_date]. rewrite <- DK. f_equal. unfold kn_date. do 2 f_equal.
        destruct (obtained_held buffer files t p0 OP CN RT PS _ OB) as (x & HK).
        destruct (at_p buffer files t p0 OP CN RT p U) as (O & F & _). destruct (in_p t p0 CN p x _ O F HK) as (B & H & WK & GN & _).
        rewrite F in RS. destruct (weak_sub_keys _ (ps_state p) (fst x) (snd x) _ B H (od_quiet _ _ O) (proj1 GN) WK) as (k2 & ks2 & E2 & _ & _ & _ & _ & _ & _ & V & _).
        rewrite E2 in RS. injection RS as <- _ _. rewrite V. reflexivity.
    + injection E as <- <- <-. split; [discriminate|]. cbn [flat_map app]. constructor; [|exact G']. split; [exact OB|exact DK].
  - unfold py_find_key in E. destruct s as [p|]; [|discriminate]. specialize (U p eq_refl). pose proof G as G'. rewrite Forall_forall in G. destruct (G k I) as (OB & _).
    destruct (get_sub_key_by_path _ _ _ _ _) as [[[a|] st]| | |] eqn:GK; try discriminate. cbv beta iota in E. destruct (made_some a) as (d & M & _). rewrite M in E. injection E as <- <-.
    split; [intros q [= <-]; exact (used_by_path _ _ _ _ _ _ _ _ U (KO _ OB) GK)|]. constructor; [|exact G'].
    apply (made_got t p0 a); [exact (by_sub_path _ _ _ _ _ _ _ _ OB U SP GK)|exact M].
  - unfold py_find_key in E. destruct s as [p|]; [|injection E as <-; split; [discriminate|exact G]]. specialize (U p eq_refl). pose proof G as G'. rewrite Forall_forall in G. destruct (G k I) as (OB & _).
    destruct (get_sub_key_by_path _ _ _ _ _) as [[[a|] st]| | |] eqn:GK; try discriminate; cbv beta iota in E; [destruct (made_some a) as (d & M & _); rewrite M in E; discriminate|].
    injection E as <-. split; [intros q [= <-]; exact (used_by_path _ _ _ _ _ _ _ _ U (KO _ OB) GK)|exact G'].
  - unfold py_reg_keys in E. destruct s as [p|]; [|discriminate]. specialize (U p eq_refl). destruct (iterate fuel p None false true false) as [l0| | |] eqn:IT; try discriminate.
    cbv beta iota in E. injection E as <- <-. split; [discriminate|]. apply Forall_app. split; [|exact G]. apply made_all. intros k I. exact (by_iteration _ _ _ _ _ _ _ _ _ U L IT I).
Qed.
Hypothesis ON : python_on buffer files t p0 s ks.
Lemma on_got : (forall p, s = Some p -> used (key_of t) p0 p) /\ Forall (py_got t p0) ks.
Proof. destruct ON as (OP & CN & RT & PS & SS). now apply session_got. Qed.
Lemma on_navigating p k : s = Some p -> In k ks -> navigating buffer files t p0 p (pk_inner k).
Proof.
  intros E I. destruct on_got as (U & G). rewrite Forall_forall in G. destruct ON as (OP & CN & RT & PS & _).
  repeat (split; [assumption|]). split; [apply (G k I)|now apply U].
Qed.
Lemma on_seen k names x : obtained t p0 k -> key_shown k names x -> In (names, x) (preorder [] t) ->
  exists d, from_cell_key_node k = Some (mkPyKey k d) /\ sees_key (ps_buffer p0) (mkPyKey k d) names x.
Proof.
  intros OB KS I. destruct ON as (OP & CN & RT & PS & _). destruct (made_some k) as (d & M & D). exists d. split; [exact M|].
  destruct (obtained_held buffer files t p0 OP CN RT PS k OB) as (y & HK). pose proof (opens_opened _ _ _ _ OP) as O. destruct (opened_facts _ _ O) as (B & H & T).
  destruct (od_hive _ _ O) as (_ & _ & _ & _ & ND). pose proof (held_one _ _ _ (names, x) _ ND HK I (proj1 KS)) as ->. exact (seen (ps_file p0) t (names, x) k d B T CN HK D).
Qed.
Lemma all_seen cs l : shown cs l -> (forall c, In c cs -> obtained t p0 c) -> (forall y, In y l -> In y (preorder [] t)) ->
  sees_keys (ps_buffer p0) (map from_cell_key_node cs) l.
Proof.
  unfold shown. intros SH. induction SH as [|c y cs l K SH IH]; intros OC IC; cbn [map]; constructor.
  - destruct (on_seen c (fst y) (snd y)) as (d & M & S); [apply OC; now left|exact K|rewrite <- surjective_pairing; apply IC; now left|]. now exists (mkPyKey c d).
  - apply IH; [intros z Z; apply OC; now right|intros z Z; apply IC; now right].
Qed.
Theorem on_held k : In k ks -> exists names x, py_stands t k names x /\ sees_key (ps_buffer p0) k names x
  /\ forall names' x', py_stands t k names' x' -> names' = names /\ x' = x.
Proof.
  intros I. destruct on_got as (_ & G). rewrite Forall_forall in G. destruct (G k I) as (OB & D). pose proof ON as (OP & CN & RT & PS & _).
  destruct (obtained_held buffer files t p0 OP CN RT PS _ OB) as ((names & x) & HK). exists names, x. pose proof HK as (IN & KS & _). split; [split; [exact IN|apply KS]|].
  destruct (on_seen _ _ _ OB KS IN) as (d & M & S). destruct (made_some (pk_inner k)) as (d' & M' & D'). rewrite M in M'. injection M' as <-. rewrite D in D'. injection D' as <-.
  split; [now destruct k|]. intros names' x' (I' & E'). destruct (od_hive _ _ (opens_opened _ _ _ _ OP)) as (_ & _ & _ & _ & ND).
  pose proof (held_one _ _ _ (names', x') _ ND HK I' E') as X. now injection X as -> ->.
Qed.
End On.
Section Calls.
Variables (buffer : list N) (files : list (list N)) (t : key_tree) (p0 p : parser) (ks : list py_key).
Hypothesis ON : python_on buffer files t p0 (Some p) ks.
Lemma on_used : used (key_of t) p0 p.
Proof. destruct (on_got _ _ _ _ _ _ ON) as (U & _). now apply U. Qed.
Theorem on_root : exists k s', py_root (Some p) = Ok (Returned (Some k), s') /\ sees_key (ps_buffer p0) k [t_name t] t.
Proof.
  pose proof ON as (OP & CN & RT & PS & _). destruct (at_p buffer files t p0 OP CN RT p on_used) as (O & F & R & _).
  destruct (opened_read_root t p O R) as (k & E & W). rewrite F in W. destruct (on_seen _ _ _ _ _ _ ON k [t_name t] t (by_root _ _ _ _ _ on_used E)) as (d & M & S);
    [exact (waits_shown _ _ _ W)|destruct t; now left|].
  exists (mkPyKey k d), (Some p). split; [|exact S]. unfold py_root, key_for. now rewrite E, M.
Qed.
Theorem on_open a segs b fuel : path_names segs -> (List.length segs <= fuel)%nat ->
  exists o s', py_open fuel (Some p) (utf8 (repeat 92 a ++ joined segs ++ repeat 92 b)) = Ok (Returned o, s')
  /\ match hd_error (reached [] segs t) with
     | None => o = None
     | Some (names, x) => exists k, o = Some k /\ sees_key (ps_buffer p0) k names x
     end.
Proof.
  intros PN L. pose proof ON as (OP & CN & RT & PS & _).
  destruct (session_get_key buffer files t p a segs b false fuel) as (o & p' & E & _ & G); [split; [exact CN|]; exists p0; split; [exact OP|]; split; [exact RT|exact on_used]|exact PN|discriminate|exact L|].
  unfold py_open, key_for. cbv beta. rewrite E. destruct (reached [] segs t) as [|(names & x) rs] eqn:RE; cbn [hd_error] in G |- *.
  - subst o. exists None, (Some p'). now split.
  - destruct G as (k & -> & KS). destruct (on_seen _ _ _ _ _ _ ON k names x) as (d & M & S).
    + refine (by_key _ _ p fuel (repeat 92 a ++ joined segs ++ repeat 92 b) false k p' on_used _ E). destruct PN as (S1 & _).
      assert (SB : forall n, Forall scalar (repeat 92 n)) by (intros n; apply Forall_forall; intros c C; apply repeat_spec in C as ->; vm_compute; now left).
      apply Forall_app. split; [apply SB|]. apply Forall_app. split; [now apply joined_scalar|apply SB].
    + exact KS.
    + apply (reached_in segs). rewrite RE. now left.
    + exists (Some (mkPyKey k d)), (Some p'). rewrite M. split; [reflexivity|]. now exists (mkPyKey k d).
Qed.
Theorem on_sub_keys k names x fuel : In k ks -> py_stands t k names x -> (List.length (t_subs x) < fuel)%nat ->
  exists l k' s', py_subkeys fuel (Some p) k = Ok (l, k', s') /\ sees_keys (ps_buffer p0) l (map (fun c => (names ++ [t_name c], c)) (t_subs x)).
Proof.
  intros I AT L. pose proof (on_navigating _ _ _ _ _ _ ON p k eq_refl I) as (OP & CN & RT & PS & OB & U). apply by_init in OB.
  assert (NV : navigating buffer files t p0 p (kn_set_index 0 (pk_inner k))) by (repeat (split; [assumption|]); assumption).
  destruct (nav_sub_keys _ _ _ _ _ _ NV names x AT) as (k' & cs & E & SH). unfold py_subkeys. rewrite E. cbv beta iota. eexists _, _, _. split; [reflexivity|].
  pose proof (Forall2_length _ _ _ SH) as LS. rewrite map_length in LS. change (py_items fuel cs 0) with (py_items fuel cs (N.of_nat 0)). rewrite (items_all cs fuel 0) by lia. cbn [skipn].
  assert (OC : forall c, In c cs -> obtained t p0 c) by (intros c J; exact (by_sub_keys _ _ _ _ _ _ _ _ OB U E (or_intror J))).
  assert (IC : forall y, In y (map (fun c => (names ++ [t_name c], c)) (t_subs x)) -> In y (preorder [] t)).
  { intros y J. apply in_map_iff in J as (c & <- & J). exact (preorder_sub t [] (names, x) c (proj1 AT) J). }
  exact (all_seen _ _ _ _ _ _ ON cs _ SH OC IC).
Qed.
Theorem on_find k names x above segs b fuel : In k ks -> py_stands t k names x ->
  names = above ++ [t_name x] -> Forall (Forall scalar) segs -> Forall (fun n => ~ In 92 n) segs -> segs <> [] -> hd_error (rev segs) <> Some [] -> (List.length segs <= fuel)%nat ->
  exists o s', py_find_key fuel (Some p) k (utf8 (joined segs ++ repeat 92 b)) = Ok (o, s')
  /\ match hd_error (reached above segs x) with
     | None => o = None
     | Some y => exists c, o = Some c /\ sees_key (ps_buffer p0) c (fst y) (snd y)
     end.
Proof.
  intros I AT NA S1 S2 NE LS L. pose proof (on_navigating _ _ _ _ _ _ ON p k eq_refl I) as NV. pose proof NV as (OP & CN & RT & PS & OB & U).
  destruct (nav_by_path _ _ _ _ _ _ NV names x AT above segs b fuel NA S1 S2 NE LS L) as (o & st & E & G). unfold gives in G. unfold py_find_key. rewrite E. cbv beta iota.
  destruct (reached above segs x) as [|y rs] eqn:RE; cbn [hd_error] in G |- *.
  - subst o. eexists _, _. now split.
  - destruct G as (c & -> & KS). destruct (on_seen _ _ _ _ _ _ ON c (fst y) (snd y)) as (d & M & S).
    + refine (by_sub_path _ _ p fuel (pk_inner k) (joined segs ++ repeat 92 b) c st OB U _ E). apply Forall_app. split; [now apply joined_scalar|].
      apply Forall_forall; intros e C; apply repeat_spec in C as ->; vm_compute; now left.
    + exact KS.
    + rewrite <- surjective_pairing. destruct (preorder_within t [] (names, x) (proj1 AT)) as (a & EA & W). cbn [fst snd] in EA, W.
      rewrite NA in EA. apply app_inj_tail in EA as (<- & _). apply W. apply (reached_in segs). rewrite RE. now left.
    + eexists _, _. rewrite M. split; [reflexivity|]. now exists (mkPyKey c d).
Qed.
Theorem on_parent k names x names' x' : In k ks -> py_stands t k names x -> In (names', x') (preorder [] t) -> In x (t_subs x') ->
  exists c s', py_get_parent (Some p) k = Ok (Returned (Some c), s') /\ sees_key (ps_buffer p0) c names' x'.
Proof.
  intros I AT I' IS. pose proof (on_navigating _ _ _ _ _ _ ON p k eq_refl I) as NV. pose proof NV as (OP & CN & RT & PS & OB & U).
  destruct (nav_parent _ _ _ _ _ _ NV names x AT names' x' I' IS) as (c & E & KS).
  destruct (on_seen _ _ _ _ _ _ ON c names' x') as (d & M & S); [|exact KS|exact I'|].
  - refine (by_parent _ _ p (pk_inner k) c p OB U _ E). destruct AT as (_ & ->).
    destruct (od_hive _ _ (opens_opened _ _ _ _ OP)) as (_ & _ & _ & _ & ND).
    pose proof (preorder_sub t [] (names', x') x I' IS) as J. cbn [fst] in J. intros EQ.
    assert (W : (names' ++ [t_name x], x) = ([t_name t], t)) by (apply (preorder_at t _ _ [] ND J); [destruct t; now left|exact EQ]).
    injection W as W _. destruct (preorder_first t _ I') as (r & ER & _). cbn [fst] in ER. rewrite ER in W. destruct r; discriminate.
  - exists (mkPyKey c d), (Some p). unfold py_get_parent, key_for. rewrite E, M. now split.
Qed.
Theorem on_iteration fuel : (2 * List.length (positions t) < fuel)%nat ->
  exists l, py_reg_keys fuel (Some p) = Ok (Returned l, None) /\ sees_keys (ps_buffer p0) l (preorder [] t).
Proof.
  intros L. pose proof ON as (OP & CN & RT & PS & _). destruct (session_preorder _ _ _ _ _ _ false true fuel OP on_used L) as (cs & E & SH).
  unfold py_reg_keys. rewrite E. cbv beta iota. eexists. split; [reflexivity|].
  assert (OC : forall c, In c cs -> obtained t p0 c) by (intros c J; exact (by_iteration _ _ _ _ _ _ _ _ _ on_used L E J)).
  exact (all_seen _ _ _ _ _ _ ON cs _ SH OC (fun y I => I)).
Qed.
End Calls.

(** ** Reading dates *)
Lemma names_one d m m' : names_micro d m -> names_micro d m' -> m = m'.
Proof.
  intros (a & A & _ & _ & _ & _ & ->) (b & B & _ & _ & _ & _ & ->). pose proof (after_right a) as (_ & X). pose proof (after_right b) as (_ & Y). rewrite A in X. rewrite B in Y. lia.
Qed.
Lemma named_one d d' m : names_micro d m -> names_micro d' m -> d = d'.
Proof.
  intros (a & A & A1 & A2 & A3 & A4 & E) (b & B & B1 & B2 & B3 & B4 & E'). destruct d as [y mo da h i s u], d' as [y' mo' da' h' i' s' u'].
  cbn [dt_year dt_month dt_day dt_hour dt_minute dt_second dt_micros] in *.
  assert (u = u') by lia. assert (s = s') by lia. assert (i = i') by lia. assert (h = h') by lia. assert (X : a = b) by lia. subst. rewrite A in B. now injection B as -> -> ->.
Qed.
Lemma nearest_one a m n : nearest_micro a m -> nearest_micro a n -> m = n.
Proof. intros A B. apply N.le_antisymm; eapply nearest_order; eauto; reflexivity. Qed.
Lemma dates_order a b d e m n : shows_time d a -> shows_time e b -> names_micro d m -> names_micro e n -> a <= b -> m <= n.
Proof. intros (m' & A & B) (n' & C & D) M N L. rewrite (names_one _ _ _ M A), (names_one _ _ _ N C). exact (nearest_order _ _ _ _ B D L). Qed.
