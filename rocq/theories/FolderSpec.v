(** What a run over a folder is expected to do. *)
From Coq Require Import String.
From Verif Require Import Base Types Log UtilSpec.
Open Scope string_scope.
Open Scope N_scope.
Open Scope list_scope.

(** Letters that differ in case only. *)
Definition same_letter (a b : N) : Prop := a = b \/ 65 <= a <= 90 /\ b = a + 32 \/ 65 <= b <= 90 /\ a = b + 32.
Definition same_name (a b : list N) : Prop := Forall2 same_letter a b.
(** A file that is taken for a hive: it has one of the names, in any case, and is
    not empty. *)
Definition hive_names : list (list N) :=
  map text ["SAM"; "SECURITY"; "SOFTWARE"; "SYSTEM"; "DEFAULT"; "Amcache"; "NTUSER.DAT"; "UsrClass.dat"].
Definition hive_file (p : list (list N)) (bytes : list N) : Prop :=
  bytes <> [] /\ exists dirs name n, p = dirs ++ [name] /\ In n hive_names /\ same_name name n.
(** The name that Windows gives to the log of a hive. *)
Definition log_of (name extension : list N) : list N :=
  if beq name (text "NTUSER.DAT") then text "ntuser.dat." ++ extension
  else if beq name (text "UsrClass.DAT") then text "UsrClass.dat." ++ extension
  else name ++ [46] ++ extension.
(** The logs beside a hive: LOG1, then LOG2, those that are there. *)
Inductive file_in (f : list (list (list N) * list N)) (p : list (list N)) : list (list N) -> Prop :=
| file_there b : In (p, b) f -> file_in f p [b]
| file_not : ~ In p (map fst f) -> file_in f p [].
Definition logs_beside (f : list (list (list N) * list N)) (p : list (list N)) (logs : list (list N)) : Prop :=
  exists dirs name l1 l2, p = dirs ++ [name]
  /\ file_in f (dirs ++ [log_of name (text "LOG1")]) l1 /\ file_in f (dirs ++ [log_of name (text "LOG2")]) l2 /\ logs = l1 ++ l2.
(** The logs a run uses: none when it is told to skip them. *)
Definition used_logs (skip_logs : bool) (f : list (list (list N) * list N)) (p : list (list N)) (logs : list (list N)) : Prop :=
  if skip_logs then logs = [] else logs_beside f p logs.
(** The name of the output: the folders on the way, each with an underscore, and the
    name of the hive up to its dot. *)
Definition named_after (p : list (list N)) (extension out : list N) : Prop :=
  exists dirs name stem, p = dirs ++ [name] /\ ~ In 46 stem
  /\ (name = stem \/ exists e, name = stem ++ [46] ++ e /\ ~ In 46 e)
  /\ out = flat_map (fun d => d ++ [95]) dirs ++ stem ++ [46] ++ extension.
(** Folders whose names have no dot, no underscore and no slash. *)
Definition plain_dirs (p : list (list N)) : Prop :=
  forall dirs name, p = dirs ++ [name] -> Forall (fun d => ~ In 46 d /\ ~ In 95 d /\ ~ In 47 d) dirs.
(** A folder of files: paths differ, and hives in one place have names that differ
    in more than case. *)
Definition plain_folder (f : list (list (list N) * list N)) : Prop :=
  NoDup (map fst f)
  /\ (forall p b, In (p, b) f -> hive_file p b -> plain_dirs p)
  /\ (forall dirs n1 n2 b1 b2, In (dirs ++ [n1], b1) f -> In (dirs ++ [n2], b2) f ->
      hive_file (dirs ++ [n1]) b1 -> hive_file (dirs ++ [n2]) b2 -> same_name n1 n2 -> n1 = n2).
(** What is in the output folder under a name. *)
Definition output (outs : amap (list N) (list N)) (name : list N) : option (list N) := aget beq name outs.
(** A list of paths, with blanks around them or quotes, as a user writes it. *)
Definition is_log (name : list N) : Prop := exists stem e, name = stem ++ e /\ (same_name e (text ".log1") \/ same_name e (text ".log2")).
Definition written_path (name shown : list N) : Prop :=
  ~ In 44 name /\ (forall c, hd_error name = Some c -> ~ white_space c /\ c <> 39) /\ (forall c, hd_error (rev name) = Some c -> ~ white_space c /\ c <> 39)
  /\ exists a b q r, Forall white_space a /\ Forall white_space b /\ Forall (eq 39) q /\ Forall (eq 39) r /\ shown = a ++ q ++ name ++ r ++ b.
Fixpoint joined (l : list (list N)) : list N :=
  match l with
  | [] => []
  | [x] => x
  | x :: l => x ++ [44] ++ joined l
  end.
(** No logs are told from an empty list of logs. *)
Definition some_logs (l : list (list N)) : option (list (list N)) := match l with [] => None | _ => Some l end.
