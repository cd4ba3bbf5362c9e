(** Files of an unknown type: statements only, with a concrete case beside each. *)
From Verif Require Import Base BaseFacts Util UtilSpec LayoutSpec BaseBlock Types Value Node Recover Parser TxLog TxSpec CellSpec TreeSpec TreeUse
  OddSpec OddFacts Demo DemoCell DemoTree DemoExport.

(** ** C78: a header that names no known file type *)
(** It opens without an error, unless its logs keep every hive from being opened. *)
Theorem C78_opens : forall order n hash recover full buffer files,
  ~ known_file_type buffer -> 4096 <= len buffer -> bytes_at buffer 0 4 = [114; 101; 103; 102] ->
  (files = [] \/ exists order' n' hash' recover' full' other q, build order' n' hash' recover' full' other files = Ok q) ->
  exists p, build order n hash recover full buffer files = Ok p.
Proof. exact odd_opens. Qed.
Print Assumptions C78_opens.
(** The file is left as it is: no log is applied to it and nothing is recovered from
    it, whatever was asked for. Iterating over it gives one key that is nowhere in
    the file, in whichever order; none, if a filter is to be met before the sub keys
    are visited and the keys above are not asked for. *)
Theorem C78_iterated : forall order n hash recover full buffer files p,
  ~ known_file_type buffer -> build order n hash recover full buffer files = Ok p ->
  ps_buffer p = buffer
  /\ (st_deleted_keys (ps_state p) = [] /\ st_deleted_values (ps_state p) = [] /\ st_modified_keys (ps_state p) = [] /\ st_modified_values (ps_state p) = [])
  /\ exists k, blank k /\ forall fuel f anc m post, (2 < fuel)%nat ->
     iterate fuel p f anc m post = Ok (match f with Some _ => if anc || post then [k] else [] | None => [k] end).
Proof.
  intros order n hash recover full buffer files p K E. destruct (odd_open _ _ _ _ _ _ _ _ K E) as (_ & B & S & R). split; [exact B|]. split.
  - unfold set_info in S. injection S as _ _ _ S1 S2 S3 S4. auto.
  - exists default_key. split; [exact default_blank|]. intros fuel f anc m post L. rewrite odd_listing by assumption. now destruct f, anc, post.
Qed.
Print Assumptions C78_iterated.
Theorem C78_counted : forall order n hash recover full buffer files p fuel,
  ~ known_file_type buffer -> build order n hash recover full buffer files = Ok p -> (2 < fuel)%nat -> count_all fuel p None = Ok (1, 0).
Proof.
  intros order n hash recover full buffer files p fuel K E L. destruct (odd_open _ _ _ _ _ _ _ _ K E) as (_ & _ & _ & R). unfold count_all. now rewrite odd_listing by assumption.
Qed.
Print Assumptions C78_counted.
(** Asking for keys by their paths nevertheless finds those that are stored in it. *)
Theorem C78_looked_up : forall order n hash recover full buffer files p t a segs b (has_root : bool) fuel,
  ~ known_file_type buffer -> build order n hash recover full buffer files = Ok p -> hive buffer t -> num_at buffer 36 4 = 32 -> clean_names t ->
  path_names segs -> (has_root = true -> (length segs <= 1)%nat -> (b <= 1)%nat) -> (length segs <= fuel)%nat ->
  exists o p', get_key fuel p (utf8 (repeat 92 a ++ joined segs ++ repeat 92 b)) has_root = Ok (o, p')
  /\ match hd_error (reached [] (if has_root then tl segs else segs) t) with
     | None => o = None
     | Some (names, s) => exists k, o = Some k /\ key_shown k names s
     end.
Proof. exact odd_get_key. Qed.
Print Assumptions C78_looked_up.
(** The keys \R and \R\gamma in a file of type 9. *)
Definition odd_root := tree_nk 0x2C 1 208 0 (-1)%Z 1 7.
Definition odd_hive : list N :=
  firstn 28 (header 1 1 32 4096) ++ [9; 0; 0; 0] ++ skipn 32 (header 1 1 32 4096) ++ hbin_head 0 4096
  ++ nk_bytes odd_root n_root ++ nk_bytes d_gamma n_gamma                (* at 4096 + 32, 4096 + 120 *)
  ++ cell (list_content [108; 102] [120]) ++ repeat 0 16.                (* at 4096 + 208 *)
Definition odd_tree : key_tree := KeyTree 4128 n_root [] [KeyTree 4216 n_gamma [] []].
Lemma odd_is_hive : hive odd_hive odd_tree.
Proof.
  split; [apply bytes_check; vm_compute; reflexivity|]. split; [vm_compute; reflexivity|]. split; [reflexivity|]. split.
  - apply (key_stored (mkFI 4096 odd_hive) true 4128 n_root _ _ odd_root n_root); [key_fits|reflexivity|split; [now apply bytes_check|reflexivity]|reflexivity|at_place| | |].
    + split; [reflexivity|]. now left.
    + split; [reflexivity|]. right. split; [discriminate|].
      apply (lf_list (mkFI 4096 odd_hive) 208 (-16)%Z [(120, [0; 0; 0; 0])]); [vm_compute; split; [discriminate|reflexivity]|reflexivity|repeat constructor; reflexivity|at_place].
    + constructor; [|constructor].
      apply (key_stored (mkFI 4096 odd_hive) false 4216 n_gamma _ _ d_gamma n_gamma); [key_fits|reflexivity|split; [now apply bytes_check|reflexivity]|reflexivity|at_place| | |constructor];
        split; [reflexivity|now left|reflexivity|now left].
  - cbn. repeat (constructor; [cbn; intuition discriminate|]). constructor.
Qed.
Example C78_example : ~ known_file_type odd_hive /\ (4096 <= len odd_hive /\ bytes_at odd_hive 0 4 = [114; 101; 103; 102]) /\ hive odd_hive odd_tree /\ num_at odd_hive 36 4 = 32 /\ clean_names odd_tree /\ path_names [n_gamma]
  /\ hd_error (reached [] [n_gamma] odd_tree) = Some ([n_root; n_gamma], KeyTree 4216 n_gamma [] [])
  /\ exists p, build keep 0 no_hash true false odd_hive [] = Ok p /\ True.
Proof.
  split; [intros [X|[X|X]]; vm_compute in X; discriminate X|]. split; [split; vm_compute; [discriminate|reflexivity]|]. split; [exact odd_is_hive|]. split; [vm_compute; reflexivity|]. split.
  { unfold clean_names. cbn. repeat (constructor; [cbn; intuition discriminate|]). constructor. }
  split. { split; [repeat constructor; unfold scalar; lia|]. split; [repeat constructor; cbn; intuition discriminate|]. split; discriminate. }
  split; [reflexivity|]. refine (checked _ (fun _ => true) _ _ _); [auto|vm_compute; reflexivity].
Qed.
(** So iterating and asking for paths do not agree on such a file. *)
Theorem C78_agree_refuted : exists buffer p ks k q, build keep 0 no_hash true false buffer [] = Ok p /\ iterate 5 p None false true false = Ok ks
  /\ get_key 5 p n_gamma false = Ok (Some k, q) /\ ~ In (kn_path k) (map kn_path ks).
Proof.
  destruct C78_example as (K & _ & H & R & C & PN & RE & p & E & _). destruct (C78_iterated _ _ _ _ _ _ _ _ K E) as (_ & _ & k0 & BL & I).
  destruct (C78_looked_up keep 0 no_hash true false odd_hive [] p odd_tree 0 [n_gamma] 0 false 5 K E H R C PN ltac:(discriminate) ltac:(cbn; lia)) as (o & p' & G & S).
  rewrite RE in S. destruct S as (k & -> & S). exists odd_hive, p, [k0], k, p'. split; [exact E|]. split; [exact (I 5%nat None false true false ltac:(lia))|]. split; [exact G|].
  destruct S as (_ & _ & S & _). destruct BL as (_ & _ & _ & PB & _). cbn [map In]. rewrite PB. intros [X|[]]. rewrite <- X in S. vm_compute in S. discriminate S.
Qed.
Print Assumptions C78_agree_refuted.
