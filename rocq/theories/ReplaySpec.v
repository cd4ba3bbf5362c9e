(** Specification for the end of opening with recovery when logs are replayed: the
    files the replay goes through, and what they have in common. *)
From Verif Require Import Base LayoutSpec Types Parser TxLog TxSpec AnyFile Folder FolderSpec Dump DumpSpec.

(** The replay begins with the bytes [b0] and the logs [logs]: those given, if the
    checksum of the header is right or there are no logs; if not, the header is that
    of the newest log file and, of several logs, the oldest is left out. *)
Definition starts (buffer : list N) (files : list (list N)) (b0 : list N) (logs : list transaction_log) : Prop :=
  exists all w, parse_logs files = Ok (all, w)
  /\ ((checksum_right buffer \/ all = []) /\ b0 = buffer /\ logs = all
      \/ ~ checksum_right buffer /\ exists f newest, In f files /\ log_from_bytes f = Ok newest
         /\ List.last (map Some all) None = Some newest /\ header_of f buffer b0
         /\ logs = if 1 <? len all then tl all else all).
(** The sequence numbers of the header are not 0. *)
Definition numbered (buffer : list N) (files : list (list N)) : Prop :=
  forall b0 logs, starts buffer files b0 logs -> 0 < num_at b0 8 4.
(** The bytes [b] are those the replay begins with and the first of the entries
    that the logs apply to them. *)
Definition on_the_way (buffer : list N) (files : list (list N)) (b : list N) : Prop :=
  exists b0 logs es m first rest, starts buffer files b0 logs
  /\ log_chain (num_at b0 8 4) 0 logs es m /\ es = first ++ rest
  /\ overlaid 4096 (num_at b0 40 4) first b0 b.
(** Where the signature nk of a key cell is followed by flags with that of the
    root of a hive, it is in the first cell of the first bin. *)
Definition one_root (b : list N) : Prop :=
  forall c, bytes_at b (c + 4) 2 = [110; 107] -> N.testbit (num_at b (c + 6) 2) 2 = true -> c = 4128.
(** In every file of the replay no list of lists contains itself and there is one
    root; its name is the same in all of them. *)
Definition steady (buffer : list N) (files : list (list N)) : Prop :=
  exists name, forall b, on_the_way buffer files b ->
  no_list_cycle (mkFI 4096 b) /\ one_root b /\ forall n, name_at (mkFI 4096 b) 4128 n -> n = name.
(** A folder in which recovery, if it is chosen, meets hives for which no logs are
    to be replayed, or whose replay is steady. *)
Definition recovery_steady (c : choices) (f : folder) : Prop :=
  ch_recover c = true -> forall p b logs, In (p, b) f -> hive_file p b -> used_logs (ch_skip_logs c) f p logs ->
  no_replay b logs \/ numbered b logs /\ steady b logs.
(** No other hive of the folder, with its logs applied, has an index root inside
    itself. *)
Definition cycle_free (o : outside) (c : choices) (f : folder) : Prop :=
  forall p b logs q, In (p, b) f -> hive_file p b -> used_logs (ch_skip_logs c) f p logs -> (ch_recover c = true -> no_replay b logs) ->
  build (os_order o) 0 (os_hash o) (ch_recover c) (ch_full c) b logs = Ok q -> no_list_cycle (ps_file q).
