(** What the end of a run is expected to tell. *)
From Verif Require Import Base Types Folder Dump Disk Sink SinkSpec Exit.
Open Scope list_scope.

(** Surroundings without failures. *)
Definition calm (ci : circumstances) : Prop := ci_opening ci = true /\ sound (ci_device ci) /\ ci_last ci = true /\ ci_prints ci = true.
(** A run without what it tells at its end. *)
Definition untold (r : run_end) : disk_run :=
  match r with Ends _ d => Through d | Panics d q => Broken d q | Runs d q => Stuck d q end.
(** The output is there, whole or without no more than one buffer at its end. *)
Definition nearly (capacity : N) (output : path) (x : list N) (d : folder) : Prop :=
  exists file rest, read_file output d = Some file /\ x = file ++ rest /\ len rest <= capacity.
