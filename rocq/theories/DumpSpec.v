(** What a run of the dump tool over a folder is expected to do. *)
From Verif Require Import Base Types LayoutSpec BaseBlock CellSpec TreeSpec TxSpec AnyFile AbortSpec Parser TxLog Folder FolderSpec Dump.

(** A run that meets no file at which it aborts: the files are made of bytes, no
    entry of a log that is used says that it is shorter than its own header, and
    for the common format the header of each hive gives a known type. *)
Record harmless (c : choices) (f : folder) : Prop := {
  hm_bytes : forall p b, In (p, b) f -> bytes_ok b;
  hm_logs : forall p b logs l pos, In (p, b) f -> hive_file p b -> used_logs (ch_skip_logs c) f p logs -> In l logs -> ~ short_entry l pos;
  hm_types : ch_type c = CommonOut -> forall p b, In (p, b) f -> hive_file p b -> known_file_type b }.
(** There are no logs, or the header says that the hive needs none: its checksum is
    right and its two sequence numbers are the same. *)
Definition no_replay (b : list N) (logs : list (list N)) : Prop := logs = [] \/ checksum_right b /\ num_at b 4 4 = num_at b 8 4.
(** Recovery, if it is chosen, meets no logs to be replayed. *)
Definition recovery_ends (c : choices) (f : folder) : Prop :=
  ch_recover c = true -> forall p b logs, In (p, b) f -> hive_file p b -> used_logs (ch_skip_logs c) f p logs -> no_replay b logs.
(** No hive of the folder, with its logs applied, has an index root inside itself. *)
Definition no_cycles (o : outside) (c : choices) (f : folder) : Prop :=
  forall p b logs q, In (p, b) f -> hive_file p b -> used_logs (ch_skip_logs c) f p logs ->
  build (os_order o) 0 (os_hash o) (ch_recover c) (ch_full c) b logs = Ok q -> no_list_cycle (ps_file q).
