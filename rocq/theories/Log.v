(** Model of src/log.rs. The rest of the model keeps only the codes of the
    messages (see [log_code] in Types.v); here are the messages themselves. *)
From Coq Require Import String Ascii.
From Verif Require Import Base Types.

(** The bytes of a literal. *)
Definition text (s : string) : list N := map N_of_ascii (list_ascii_of_string s).

(** [Log], src/log.rs:120-124. *)
Record message := mkMsg { mg_code : log_code; mg_text : list N }.
(** [Logs], src/log.rs:22-25. *)
Definition logs := option (list message).

(** [Logs::add] and [add_internal], src/log.rs:28-40. *)
Definition logs_add (c : log_code) (t : list N) (l : logs) : logs :=
  match l with
  | Some ms => Some (ms ++ [mkMsg c t])
  | None => Some [mkMsg c t]
  end.

(** [has_logs], src/log.rs:42-49. *)
Definition has_logs (l : logs) : bool :=
  match l with
  | Some (_ :: _) => true
  | _ => false
  end.

(** [get], src/log.rs:51-53. *)
Definition logs_get (l : logs) : option (list message) := l.

(** [get_option], src/log.rs:55-61. *)
Definition logs_get_option (l : logs) : option logs :=
  match l with None => None | Some _ => Some l end.

(** [prepend_all], src/log.rs:63-69. *)
Definition prepend_all (prefix : list N) (l : logs) : logs :=
  option_map (map (fun m => mkMsg (mg_code m) (prefix ++ mg_text m))) l.

(** [extend], src/log.rs:71-76. *)
Definition or_default (l : logs) : list message := match l with Some ms => ms | None => [] end.
Definition logs_extend (additional : logs) (l : logs) : logs :=
  match l with
  | Some ms => Some (ms ++ or_default additional)
  | None => Some (or_default additional)
  end.

(** [{:?}] of a [LogCode], src/log.rs:104-118. *)
Definition code_name (c : log_code) : list N :=
  match c with
  | WarningOther => text "WarningOther"
  | WarningNom => text "WarningNom"
  | WarningConversion => text "WarningConversion"
  | WarningContent => text "WarningContent"
  | WarningBigDataContent => text "WarningBigDataContent"
  | WarningUnrecognizedBitflag => text "WarningUnrecognizedBitflag"
  | WarningTransactionLog => text "WarningTransactionLog"
  | WarningIterator => text "WarningIterator"
  | WarningBaseBlock => text "WarningBaseBlock"
  | WarningParse => text "WarningParse"
  | WarningRecovery => text "WarningRecovery"
  | LogInfo => text "Info"
  end.

(** [write], src/log.rs:78-85: what is written. *)
Definition logs_write (l : logs) : list N :=
  flat_map (fun m => code_name (mg_code m) ++ [32] ++ mg_text m ++ [10]) (or_default l).

(** [get_string] and [Display], src/log.rs:87-101. *)
Definition logs_string (l : logs) : list N :=
  flat_map (fun m => code_name (mg_code m) ++ [32] ++ mg_text m ++ [59]) (or_default l).
