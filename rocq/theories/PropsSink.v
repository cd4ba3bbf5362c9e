(** The property of outputs on a disk that may fail: statements only, with a concrete
    case beside each. The specification is SinkSpec.v. *)
From Coq Require Import String.
From Verif Require Import Base BaseFacts Util UtilSpec UtilText LayoutSpec BaseBlock Types Value Node Recover Parser TxLog Log Export ExportSpec Json JsonSpec Compare Folder
  Dump CompareRun Sink SinkSpec SinkFacts Demo DemoCell DemoTree DemoCompare DemoExport PropsTree PropsExport PropsJson PropsDump PropsCompareRun.
Open Scope string_scope.
Open Scope N_scope.
Open Scope list_scope.

(** ** C71 *)
(** Whatever fails, and when: the file is a beginning of the text. *)
Theorem C71_beginning : forall capacity dv acts, beginning (snd (write_out capacity dv acts)) (handed acts).
Proof. intros capacity dv acts. pose proof (outcome_of capacity dv acts) as O. destruct (write_out capacity dv acts). exact (proj1 O). Qed.
Print Assumptions C71_beginning.
(** So it is at every moment, should the tool be killed then. *)
Theorem C71_killed : forall capacity dv before after, beginning (sn_file (snd (perform capacity dv before empty_sink))) (handed (before ++ after)).
Proof. exact at_any_time. Qed.
Print Assumptions C71_killed.
(** When the tool tells of success, no more than one buffer is missing at the end. *)
Theorem C71_success_partial : forall capacity dv acts, fst (write_out capacity dv acts) = true ->
  exists rest, handed acts = snd (write_out capacity dv acts) ++ rest /\ len rest <= capacity.
Proof. intros capacity dv acts. pose proof (outcome_of capacity dv acts) as O. destruct (write_out capacity dv acts). exact (proj2 O). Qed.
Print Assumptions C71_success_partial.
(** When nothing fails, the file is the text and the tool tells of success. *)
Theorem C71_sound : forall capacity dv acts, sound dv -> write_out capacity dv acts = (true, handed acts).
Proof. exact sound_write. Qed.
Print Assumptions C71_sound.
(** A dump and a comparison, with their exports. *)
Theorem C71_dump : forall capacity dv cut o n c buffer logs, cuts cut ->
  match reg_dump o n c buffer logs, dump_to capacity dv cut o n c buffer logs with
  | NotOpened, Tells success file => success = false /\ file = None
  | Written x, Tells success (Some file) => beginning file x /\ (success = true -> exists rest, x = file ++ rest /\ len rest <= capacity) /\ (sound dv -> success = true /\ file = x)
  | Written _, Tells success None => success = false /\ ~ sound dv
  | GivenUp, Tells success _ => success = false
  | Aborted, ToldAborted | Endless, ToldEndless => True
  | _, _ => False
  end.
Proof.
  intros capacity dv cut o n c buffer logs C. unfold dump_to. destruct (reg_dump o n c buffer logs) as [|x| | |]; try exact I; [now split| |reflexivity].
  destruct (dv_creates dv) eqn:E; [|split; [reflexivity|]; intros (A & _); congruence].
  pose proof (outcome_of capacity dv (cut x)) as O. pose proof (fun S0 => sound_write capacity dv (cut x) S0) as S0. destruct (write_out capacity dv (cut x)) as [ok file].
  rewrite C in O, S0. split; [apply O|]. split; [apply O|]. intros S1. specialize (S0 S1). now injection S0.
Qed.
Print Assumptions C71_dump.
Theorem C71_compare : forall capacity dv cut o n c p x y, cuts cut ->
  match compare_pair o n c p x y, compare_to capacity dv cut o n c p x y with
  | _, Tells success None => success = false /\ ~ sound dv
  | Reported r, Tells success (Some file) => beginning file r /\ (success = true -> exists rest, r = file ++ rest /\ len rest <= capacity) /\ (sound dv -> success = true /\ file = r)
  | Failed, Tells success (Some file) => success = false /\ file = []
  | PairAborted, ToldAborted | PairEndless, ToldEndless => True
  | _, _ => False
  end.
Proof.
  intros capacity dv cut o n c p x y C. unfold compare_to. destruct (dv_creates dv) eqn:E.
  - destruct (compare_pair o n c p x y) as [r| | |]; try exact I; [|now split].
    pose proof (outcome_of capacity dv (cut r)) as O. pose proof (fun S0 => sound_write capacity dv (cut r) S0) as S0. destruct (write_out capacity dv (cut r)) as [ok file].
    rewrite C in O, S0. split; [apply O|]. split; [apply O|]. intros S1. specialize (S0 S1). now injection S0.
  - assert (X : false = false /\ ~ sound dv) by (split; [reflexivity|]; intros (A & _); congruence). destruct (compare_pair o n c p x y); exact X.
Qed.
Print Assumptions C71_compare.
(** What is left of a JSON export can be used: its whole lines are the documents of
    the first keys, and what follows is part of a line. *)
Theorem C71_json : forall capacity dv il ks, exists j whole part js, snd (write_out capacity dv (json_acts il ks)) = whole ++ part /\ ~ In 10 part
  /\ read_lines whole js /\ Forall2 (says_key (il_key il) (il_value il) (il_content il)) (firstn j ks) js.
Proof. intros capacity dv il ks. apply lines_left. rewrite <- json_handed. apply C71_beginning. Qed.
Print Assumptions C71_json.
(** A buffer of four bytes and a disk that fills up: the tool fails, the beginning is
    there; a disk that fails at the end only: the tool tells of success. *)
Definition full_disk (room : N) (at_transfer : nat) : device :=
  mkDevice true (fun i => if Nat.ltb i at_transfer then None else Some room) (fun _ => true).
Example C71_case : write_out 4 (full_disk 2 1) [Put [1; 2; 3]; Say; Put [4; 5]; Put [6; 7; 8; 9; 10]; Put [11]] = (false, [1; 2; 3; 4; 5; 6; 7])
  /\ write_out 4 (full_disk 0 2) [Put [1; 2; 3]; Say; Put [4; 5]; Put [6; 7; 8; 9; 10]; Put [11]] = (false, [1; 2; 3; 4; 5])
  /\ write_out 4 (full_disk 0 3) [Put [1; 2; 3]; Say; Put [4; 5]; Put [6; 7; 8; 9; 10]; Put [11]] = (true, [1; 2; 3; 4; 5; 6; 7; 8; 9; 10])
  /\ sound (mkDevice true (fun _ => None) (fun _ => true)) /\ cuts (fun x => [Put x]).
Proof. do 3 (split; [vm_compute; reflexivity|]). split; [now repeat split|]. intros x. apply app_nil_r. Qed.
(** That success is told only of a whole export is false: the buffer is flushed when it
    is dropped, and an error then is not told. A full disk takes nothing of the export
    of a small hive, and the tool tells of success. *)
Theorem C71_silent_refuted : exists dv cut o n c buffer x, cuts cut /\ reg_dump o n c buffer [] = Written x /\ x <> [] /\ dump_to 8192 dv cut o n c buffer [] = Tells true (Some []).
Proof.
  exists (full_disk 0 0), (fun x => [Put x]), h_out, 20%nat, (h_choices JsonlOut), bare_hive.
  assert (X : exists x, reg_dump h_out 20 (h_choices JsonlOut) bare_hive [] = Written x /\ x <> [] /\ len x < 8192).
  { pattern (reg_dump h_out 20 (h_choices JsonlOut) bare_hive []).
    assert (T : forall (r : outcome), match r with Written (y :: x) => len (y :: x) <? 8192 | _ => false end = true -> exists x, r = Written x /\ x <> [] /\ len x < 8192).
    { intros r H. destruct r as [|[|y x]| | |]; try discriminate H. exists (y :: x). split; [reflexivity|]. split; [discriminate|]. now apply N.ltb_lt. }
    apply T. vm_compute. reflexivity. }
  destruct X as (x & E & Z & L). exists x. split; [intros y; apply app_nil_r|]. split; [exact E|]. split; [exact Z|].
  unfold dump_to. rewrite E. unfold write_out. cbn [perform perform_one dv_creates full_disk]. unfold buf_write_all. cbn [sn_buffer empty_sink]. change (len []) with 0. rewrite N.sub_0_r.
  rewrite (proj2 (N.ltb_lt _ _) L). cbn [app]. unfold close, flush_buf. cbn [sn_buffer sn_file sn_transfers sn_messages]. destruct x as [|y x]; [congruence|].
  unfold taken. cbn [dv_takes Nat.ltb Nat.leb full_disk snd sn_file app]. rewrite N.min_0_l. reflexivity.
Qed.
Print Assumptions C71_silent_refuted.
