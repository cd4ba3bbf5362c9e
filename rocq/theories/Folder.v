(** Model of the runs over folders: src/cli_util.rs, bin/reg_dump/main.rs,
    bin/reg_compare.rs. A folder is the list of its files, at any depth, in the
    order in which they are walked, each with its path from the folder on (its
    components) and its bytes. Names are UTF-8 texts; a name that is not is
    skipped by the code, and a folder whose name is not is shown lossily. What the
    runs write is outside the folders they read; Disk.v shows that this changes
    nothing. Console messages are left out. *)
From Coq Require Import String.
From Verif Require Import Base Util Types Log.
Open Scope string_scope.
Open Scope N_scope.
Open Scope list_scope.

Definition path := list (list N).
Definition folder := list (path * list N).
Fixpoint path_eqb (a b : path) : bool :=
  match a, b with
  | [], [] => true
  | x :: a, y :: b => beq x y && path_eqb a b
  | _, _ => false
  end.
Definition read_file (p : path) (f : folder) : option (list N) := aget path_eqb p f.

(** [parse_paths], src/cli_util.rs:19-36. [str::split(',')]; [trim] and
    [trim_matches('\'')] work on the characters: the texts here are characters, not
    bytes. *)
Fixpoint split_at_comma (s : list N) : list N * option (list N) :=
  match s with
  | [] => ([], None)
  | c :: r => if c =? 44 then ([], Some r) else let (a, b) := split_at_comma r in (c :: a, b)
  end.
Fixpoint split_commas (fuel : nat) (s : list N) : list (list N) :=
  match fuel with
  | O => []
  | S fuel => match split_at_comma s with (a, None) => [a] | (a, Some r) => a :: split_commas fuel r end
  end.
Fixpoint trim_start (f : N -> bool) (s : list N) : list N :=
  match s with [] => [] | c :: r => if f c then trim_start f r else s end.
Definition trim_with (f : N -> bool) (s : list N) : list N := rev (trim_start f (rev (trim_start f s))).
Fixpoint ends_with (e s : list N) : bool :=
  beq e s || match s with [] => false | _ :: r => ends_with e r end.
Fixpoint parse_components (cs : list (list N)) (primary : list N) (logs : list (list N)) : list N * list (list N) :=
  match cs with
  | [] => (primary, logs)
  | c :: cs =>
      let name := trim_with (fun c => c =? 39) (trim_with is_white c) in
      let low := to_lower name in
      if ends_with (text ".log1") low || ends_with (text ".log2") low then parse_components cs primary (logs ++ [name])
      else parse_components cs name logs
  end.
Definition parse_paths (paths : list N) : list N * option (list (list N)) :=
  match parse_components (split_commas (S (List.length paths)) paths) [] [] with
  | (primary, []) => (primary, None)
  | (primary, logs) => (primary, Some logs)
  end.

(** [get_log_name], src/cli_util.rs:50-60: the name beside the primary file. *)
Definition get_log_name (primary_name extension : list N) : list N :=
  (if beq primary_name (text "NTUSER.DAT") then text "ntuser.dat"
   else if beq primary_name (text "UsrClass.DAT") then text "UsrClass.dat"
   else primary_name) ++ text "." ++ extension.
(** [check_add_log], src/cli_util.rs:38-48; the file found is given with its bytes. *)
Definition check_add_log (f : folder) (parent : path) (primary_name extension : list N) (logs : list (list N)) : list (list N) :=
  match read_file (parent ++ [get_log_name primary_name extension]) f with
  | Some bytes => logs ++ [bytes]
  | None => logs
  end.
(** [get_log_files], src/cli_util.rs:62-73. *)
Definition get_log_files (skip_logs : bool) (f : folder) (p : path) : option (list (list N)) :=
  if skip_logs then None
  else
    let logs := check_add_log f (removelast p) (List.last p []) (text "LOG1") [] in
    Some (check_add_log f (removelast p) (List.last p []) (text "LOG2") logs).
(** [file_has_size], src/cli_util.rs:75-90. *)
Definition file_has_size (bytes : list N) : bool := negb (len bytes =? 0).

(** bin/reg_dump/main.rs:170-179, bin/reg_compare.rs:161-170. *)
Definition reg_files : list (list N) :=
  map text ["sam"; "security"; "software"; "system"; "default"; "amcache"; "ntuser.dat"; "usrclass.dat"].
(** The test of bin/reg_dump/main.rs:186-188. [str::to_lowercase] is taken on ASCII
    letters: no other character has a lower case made of letters that occur in the
    eight names. *)
Definition is_reg_file (p : path) : bool := existsb (beq (to_lower (List.last p []))) reg_files.

(** [Path::set_extension] of a file name (std): the part before the last dot is
    kept, the whole name if there is none or nothing before it. *)
Fixpoint before_last_dot (s : list N) : option (list N) :=
  match s with
  | [] => None
  | c :: r => match before_last_dot r with
              | Some b => Some (c :: b)
              | None => if c =? 46 then Some [] else None
              end
  end.
Definition set_extension (s extension : list N) : list N :=
  (match before_last_dot s with
   | Some (c :: b) => c :: b
   | _ => s
   end) ++ [46] ++ extension.
(** The path as it is printed, with [/] (47) between the components. *)
Fixpoint printed (p : path) : list N :=
  match p with
  | [] => []
  | [c] => c
  | c :: p => c ++ [47] ++ printed p
  end.
(** [get_outpath], bin/reg_dump/main.rs:216-229 and bin/reg_compare.rs:215-227: the
    name in the output folder. *)
Definition get_outpath (p : path) (extension : list N) : list N :=
  set_extension (map (fun c => if c =? 47 then 95 else c) (printed p)) extension.

(** [process_folder], bin/reg_dump/main.rs:160-214. [dump] is [reg_dump] (main.rs:231-268):
    it gets the bytes of the hive and of its logs and gives the bytes of the output,
    or fails before it creates the output. [outs] is the output folder. *)
Definition process_folder (dump : list N -> list (list N) -> option (list N)) (skip_logs : bool) (extension : list N)
    (f : folder) (outs : amap (list N) (list N)) : amap (list N) (list N) :=
  fold_left (fun outs e =>
    if is_reg_file (fst e) && file_has_size (snd e) then
      match dump (snd e) (match get_log_files skip_logs f (fst e) with Some l => l | None => [] end) with
      | Some out => aset beq (get_outpath (fst e) extension) out outs
      | None => outs
      end
    else outs) f outs.
(** [process_folders], bin/reg_compare.rs:150-213. [compare] is [reg_compare]
    (reg_compare.rs:229-...): it always creates the output. *)
Definition process_folders (compare : list N * list (list N) -> list N * list (list N) -> list N) (skip_logs : bool) (extension : list N)
    (base comparison : folder) (outs : amap (list N) (list N)) : amap (list N) (list N) :=
  fold_left (fun outs e =>
    if is_reg_file (fst e) && file_has_size (snd e) then
      match read_file (fst e) comparison with
      | Some bytes =>
          if file_has_size bytes then
            let logs_of f := match get_log_files skip_logs f (fst e) with Some l => l | None => [] end in
            aset beq (get_outpath (fst e) extension) (compare (snd e, logs_of base) (bytes, logs_of comparison)) outs
          else outs
      | None => outs
      end
    else outs) base outs.
