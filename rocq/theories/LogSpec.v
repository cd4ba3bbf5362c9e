(** What a history of operations on a collection of messages should leave. *)
From Coq Require Import String.
From Verif Require Import Base Types Log.

(** The messages in a collection. *)
Definition messages (l : logs) : list message := match l with Some ms => ms | None => [] end.
(** An operation adds one message, merges those of another collection, or puts a
    text before each message. *)
Inductive log_op := Add (c : log_code) (t : list N) | Merge (l : logs) | Prefix (t : list N).
Definition log_step (o : log_op) : logs -> logs :=
  match o with Add c t => logs_add c t | Merge l => logs_extend l | Prefix t => prepend_all t end.
Definition log_history (ops : list log_op) (l : logs) : logs := fold_left (fun l o => log_step o l) ops l.
(** The messages an operation brings, and all of a history, in order. *)
Definition brings (o : log_op) : list message :=
  match o with Add c t => [mkMsg c t] | Merge l => messages l | Prefix _ => [] end.
Definition brought (ops : list log_op) : list message := flat_map brings ops.
Definition no_prefix (o : log_op) : Prop := match o with Prefix _ => False | _ => True end.
(** [m'] is [m], perhaps with something before its text. *)
Definition same_message (m m' : message) : Prop :=
  mg_code m' = mg_code m /\ exists t, mg_text m' = t ++ mg_text m.
(** Nothing is missing from the first list, and its order is kept. *)
Definition kept_before (a b : list log_code) : Prop := exists r, b = a ++ r.

(** The word for a code, and a message as it is written: the word, a space, the
    text. *)
Definition code_word (c : log_code) : list N :=
  text match c with
       | WarningOther => "WarningOther"
       | WarningNom => "WarningNom"
       | WarningConversion => "WarningConversion"
       | WarningContent => "WarningContent"
       | WarningBigDataContent => "WarningBigDataContent"
       | WarningUnrecognizedBitflag => "WarningUnrecognizedBitflag"
       | WarningTransactionLog => "WarningTransactionLog"
       | WarningIterator => "WarningIterator"
       | WarningBaseBlock => "WarningBaseBlock"
       | WarningParse => "WarningParse"
       | WarningRecovery => "WarningRecovery"
       | LogInfo => "Info"
       end%string.
Definition message_text (m : message) : list N := code_word (mg_code m) ++ [32] ++ mg_text m.
