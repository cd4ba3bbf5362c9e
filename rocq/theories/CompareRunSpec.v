(** What a run of the compare tool over two folders is expected to do. *)
From Verif Require Import Base Types LayoutSpec BaseBlock CellSpec TreeSpec TxSpec TxLog Parser Log Export Compare CompareSpec Folder FolderSpec CompareRun.

(** A pair that is compared: a hive of the base and the file at the same place of
    the other folder, each with the logs beside it. *)
Definition paired (skip_logs : bool) (base comparison : folder) (p : path) (x y : list N * list (list N)) : Prop :=
  In (p, fst x) base /\ hive_file p (fst x) /\ used_logs skip_logs base p (snd x)
  /\ In (p, fst y) comparison /\ fst y <> [] /\ used_logs skip_logs comparison p (snd y).
(** A hive, with its logs, that opens without recovery and holds the tree [t]: as CompareSpec.v
    asks for, and small enough for the fuel. *)
Definition opens_as (o : compare_outside) (n : nat) (x : list N * list (list N)) (t : key_tree) : Prop :=
  exists q, build (co_order o) n (co_hash o) false false (fst x) (snd x) = Ok q /\ compared_hive (co_hash o) t q /\ (2 * length (positions t) < n)%nat.
Definition cannot_open (o : compare_outside) (n : nat) (x : list N * list (list N)) : Prop :=
  build (co_order o) n (co_hash o) false false (fst x) (snd x) = Err.
(** Pairs that can be compared, and pairs of which one cannot be opened. *)
Definition comparable (o : compare_outside) (n : nat) (x y : list N * list (list N)) : Prop :=
  cannot_open o n x
  \/ (exists t, opens_as o n x t) /\ (cannot_open o n y \/ exists t, opens_as o n y t).
