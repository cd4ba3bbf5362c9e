(** Specification of how a hive is handed over (C72). Readers, calls and places are
    those of Source.v. *)
From Verif Require Import Base Types Folder Source.
Open Scope list_scope.

(** A reader that gives something, as long as there is something, whenever it is
    asked; it may be interrupted, and give as little as one byte. *)
Definition patient (turns : list turn) : Prop := forall t, In t turns -> t = Interrupts \/ exists k, t = Gives (S k).
(** A reader that may also fail, but does not pretend to be at its end. *)
Definition honest (turns : list turn) : Prop := ~ In (Gives 0) turns.

(** A reader at the beginning of the bytes. *)
Definition opened_on (s : stream) (bytes : list N) : Prop := sr_before s = [] /\ sr_after s = bytes.
(** What is on the disk under a path. *)
Definition stored (pl : place) (p : path) (bytes : list N) : Prop := read_file p (pl_disk pl) = Some bytes.

(** What a builder has been told: the last of the calls of a kind counts; logs add up. *)
Definition decided {L} (pick : call L -> option bool) (calls : list (call L)) (on : bool) : Prop :=
  (exists before c after, calls = before ++ c :: after /\ pick c = Some on /\ forall c', In c' after -> pick c' = None)
  \/ (on = false /\ forall c, In c calls -> pick c = None).
Definition recovers {L} : list (call L) -> bool -> Prop := decided (fun c => match c with RecoverDeleted on => Some on | _ => None end).
Definition in_full {L} : list (call L) -> bool -> Prop := decided (fun c => match c with GetFullFieldInfo on => Some on | _ => None end).
Fixpoint logs_named {L} (calls : list (call L)) : list L :=
  match calls with
  | [] => []
  | WithTransactionLog l :: r => l :: logs_named r
  | _ :: r => logs_named r
  end.

(** The methods of the Python builder mean those of the other builders. *)
Definition as_call (c : py_call) : call py_source :=
  match c with PyRecoverDeleted on => RecoverDeleted on | PyWithTransactionLog log => WithTransactionLog log end.

(** What a Python program hands over stands for bytes: a path of a file that holds
    them, or an object that is at their beginning. *)
Definition stands_for (ok : list turn -> Prop) (pl : place) (w : objects) (src : py_source) (bytes : list N) : Prop :=
  match src with
  | PyPath p => stored pl p bytes /\ ok (pl_turns pl p)
  | PyFileLike i => opened_on (w i) bytes /\ ok (sr_turns (w i))
  | PyOther => False
  end.
(** The objects among them. *)
Fixpoint objects_in (srcs : list py_source) : list nat :=
  match srcs with
  | [] => []
  | PyFileLike i :: r => i :: objects_in r
  | _ :: r => objects_in r
  end.
