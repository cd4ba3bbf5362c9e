(** How the exported texts are read, and what they should contain. *)
From Coq Require Import String.
From Verif Require Import Base UtilSpec Types CellSpec TreeSpec Log LogSpec Export.
Open Scope string_scope.
Open Scope N_scope.
Open Scope list_scope.

(** ** Reading *)

(** The reader of UtilSpec.v for any separator. *)
Fixpoint read_fields_from (sep : N) (st : rstate) (cur : list N) (s : list N)
  : option (list (list N) * list N) :=
  match s with
  | [] => None
  | c :: r =>
      let next := fun fields_rest : option (list (list N) * list N) =>
                    match fields_rest with
                    | Some (fs, rest) => Some (rev cur :: fs, rest)
                    | None => None
                    end in
      match st with
      | Start | Plain =>
          if c =? sep then next (read_fields_from sep Start [] r)
          else if c =? 10 then Some ([rev cur], r)
          else if c =? 34 then
            match st with Start => read_fields_from sep Quoted cur r | _ => None end
          else read_fields_from sep Plain (c :: cur) r
      | Quoted => if c =? 34 then read_fields_from sep QuoteInQuoted cur r
                  else read_fields_from sep Quoted (c :: cur) r
      | QuoteInQuoted =>
          if c =? 34 then read_fields_from sep Quoted (34 :: cur) r
          else if c =? sep then next (read_fields_from sep Start [] r)
          else if c =? 10 then Some ([rev cur], r)
          else None
      end
  end.
Definition read_fields (sep : N) (s : list N) : option (list (list N) * list N) := read_fields_from sep Start [] s.

(** A text read as rows, up to [rest]. *)
Inductive reads_rows (sep : N) : list N -> list (list (list N)) -> list N -> Prop :=
| rows_end s : reads_rows sep s [] s
| rows_next s r s' rs rest :
    read_fields sep s = Some (r, s') -> reads_rows sep s' rs rest -> reads_rows sep s (r :: rs) rest.

(** The end of a tab-separated export: an empty line, a title, a rule, and a line
    for each message. *)
Definition log_tail (log : logs) : list N :=
  [10] ++ text "Logs" ++ [10] ++ text "-----------" ++ [10] ++ flat_map (fun m => message_text m ++ [10]) (messages log).

(** A whole text read as comment lines, which start with two hashes, and rows. *)
Inductive line := Comment (t : list N) | Row (fields : list (list N)).
Definition hashes : list N := [35; 35].
Inductive reads_as (sep : N) : list N -> list line -> Prop :=
| as_end : reads_as sep [] []
| as_comment t s ls : ~ In 10 t -> reads_as sep s ls ->
    reads_as sep (hashes ++ t ++ 10 :: s) (Comment (hashes ++ t) :: ls)
| as_row s r s' ls : firstn 2 s <> hashes -> read_fields sep s = Some (r, s') -> reads_as sep s' ls ->
    reads_as sep s (Row r :: ls).

Definition digit (c : N) : Prop := 48 <= c /\ c <= 57.
(** [d] is a decimal numeral for [n]. *)
Definition numeral (d : list N) (n : N) : Prop :=
  d <> [] /\ Forall digit d /\ fold_left (fun v c => 10 * v + (c - 48)) d 0 = n.
Definition numeral_if (d : list N) (n : option N) : Prop :=
  match n with Some n => numeral d n | None => d = [] end.

(** None of tab, newline, return, quote and comma. *)
Definition plain (s : list N) : Prop := Forall (fun c => ~ In c [9; 10; 13; 34; 44]) s.

(** ** The items that are exported *)

(** A key, or a value with the key it belongs to. *)
Inductive item := KeyItem (k : key_node) | ValueItem (k : key_node) (v : key_value).
Definition item_state (i : item) : cell_state :=
  match i with KeyItem k => kn_state k | ValueItem _ v => kv_state v end.
(** Found in unused space of the primary file. *)
Definition unused (s : cell_state) : bool :=
  match s with DeletedPrimaryFile | DeletedPrimaryFileSlack => true | _ => false end.
(** The values of a key with their versions. *)
Definition value_items (k : key_node) : list item :=
  flat_map (fun v => ValueItem k v :: map (ValueItem k) (kv_versions v)) (kn_values k).
(** A key, its versions, its values. *)
Definition common_items (k : key_node) : list item :=
  KeyItem k :: map KeyItem (kn_versions k) ++ value_items k.
(** A key with its versions, and theirs. *)
Fixpoint version_items (k : key_node) : list item := KeyItem k :: flat_map version_items (kn_versions k).
Definition tsv_items (k : key_node) : list item := version_items k ++ value_items k.

(** An item that was deleted or replaced, or that has earlier versions. *)
Definition recovered_item (i : item) : bool :=
  match item_state i with Allocated => false | _ => true end
  || match i with
     | KeyItem k => match kn_versions k with [] => false | _ => true end
     | ValueItem _ v => match kv_versions v with [] => false | _ => true end
     end.

(** ** The common format *)
Definition letter (s : cell_state) : list N :=
  match s with
  | Allocated => text "A"
  | DeletedPrimaryFile | DeletedPrimaryFileSlack => text "U"
  | DeletedTransactionLog => text "D"
  | ModifiedTransactionLog => text "M"
  end.
Definition data_bytes (v : key_value) : list N :=
  match vd_bytes (kv_detail v) with Some b => b | None => [] end.
Definition value_name (v : key_value) : list N :=
  match vd_name (kv_detail v) with [] => text "(default)" | n => n end.
(** The row of an item. An unused key has its name only, another one its path
    without the first character; an unused value does not name its key. *)
Definition common_row (date : key_node -> list N) (i : item) (row : list (list N)) : Prop :=
  exists offset, match i with
  | KeyItem k =>
      numeral offset (kn_offset k)
      /\ exists name, (if unused (kn_state k) then name = kn_name k else exists c, kn_path k = c :: name)
      /\ row = [text "key"; letter (kn_state k); offset; name; []; []; []; date k]
  | ValueItem k v =>
      numeral offset (kv_offset v)
      /\ exists type data, numeral type (kv_type v) /\ (bytes_ok (data_bytes v) -> read_hex data = Some (data_bytes v))
      /\ row = [text "value"; letter (kv_state v); offset;
                if unused (kv_state v) then [] else kn_name k;
                value_name v; type; data; []]
  end.
(** A key for which there is something to show: its path is a backslash and
    more text. *)
Definition path_shown (k : key_node) : Prop :=
  unused (kn_state k) = true \/ exists rest c, kn_path k = 92 :: rest /\ read_utf8 rest = Some c.
(** The rows of a kind with a letter. *)
Definition row_is (kind l : list N) (row : list (list N)) : bool :=
  match row with
  | a :: b :: _ => if list_eq_dec N.eq_dec a kind then if list_eq_dec N.eq_dec b l then true else false else false
  | _ => false
  end.
Definition row_count (kind l : list N) (rows : list (list (list N))) : N := len (List.filter (row_is kind l) rows).
(** The totals: label, kind and letter. *)
Definition totals_shown : list (list N * (list N * list N)) :=
  [(text "total_keys", (text "key", text "A")); (text "total_values", (text "value", text "A"));
   (text "total_unused_keys", (text "key", text "U")); (text "total_unused_values", (text "value", text "U"));
   (text "total_deleted_from_transaction_log_keys", (text "key", text "D"));
   (text "total_deleted_from_transaction_log_values", (text "value", text "D"));
   (text "total_modified_from_transaction_log_keys", (text "key", text "M"));
   (text "total_modified_from_transaction_log_values", (text "value", text "M"))].
Definition total_right (rows : list (list (list N))) (t : list N * (list N * list N)) (shown : list N) : Prop :=
  exists d, shown = text "## " ++ fst t ++ text ": " ++ d
            /\ numeral d (row_count (fst (snd t)) (snd (snd t)) rows mod 2 ^ 32).

(** ** TSV *)
Definition state_text (s : cell_state) : list N :=
  match s with
  | DeletedTransactionLog => text "DeletedTransactionLog"
  | DeletedPrimaryFile => text "DeletedPrimaryFile"
  | DeletedPrimaryFileSlack => text "DeletedPrimaryFileSlack"
  | Allocated => text "Allocated"
  | ModifiedTransactionLog => text "ModifiedTransactionLog"
  end.
Definition tsv_columns : list (list N) :=
  map text ["Index"; "Key Path"; "Subkey Count"; "Value Name"; "Value Data"; "Timestamp"; "Status";
    "Previous Seq Num"; "Modifying Seq Num"; "Flags"; "Access Flags"; "Value Type"; "Logs"].
(** What is shown of an item by the columns whose text is not part of the model. *)
Record rendering := mkRendering {
  sh_date : list N; sh_flags : list N; sh_access : list N;
  sh_content : list N; sh_type : list N; sh_logs : list N
}.
(** The row of an item whose number is [n]. *)
Definition tsv_row (show : item -> rendering) (n : N) (i : item) (row : list (list N)) : Prop :=
  let s := show i in
  exists index, numeral index n /\ exists seq updated,
  match i with
  | KeyItem k =>
      numeral_if seq (kn_seq k) /\ numeral_if updated (kn_updated_by k)
      /\ exists subkeys, numeral subkeys (len (kn_sub_offsets k))
      /\ row = [index; kn_path k; subkeys; []; []; sh_date s; state_text (kn_state k); seq; updated;
                sh_flags s; sh_access s; []; sh_logs s]
  | ValueItem k v =>
      numeral_if seq (kv_seq v) /\ numeral_if updated (kv_updated_by v)
      /\ row = [index; kn_path k; []; value_name v; sh_content s; []; state_text (kv_state v); seq; updated;
                []; []; sh_type s; sh_logs s]
  end.
(** Rows numbered from [n] on. *)
Inductive tsv_rows (show : item -> rendering) : N -> list item -> list (list (list N)) -> Prop :=
| tsv_end n : tsv_rows show n [] []
| tsv_next n i is row rows : tsv_row show n i row -> tsv_rows show (n + 1) is rows -> tsv_rows show n (i :: is) (row :: rows).
(** With "recovered only", the recovered items. *)
Definition kept (recovered_only : bool) (i : item) : bool := if recovered_only then recovered_item i else true.
(** What the renderings of a run show. *)
Definition shown_by (r : renderer) (i : item) : rendering :=
  match i with
  | KeyItem k => mkRendering (rd_date r (kn_date k)) (rd_flags r (kd_flags (kn_detail k))) (rd_access r (kd_access (kn_detail k)))
                   [] [] (rd_key_logs r k)
  | ValueItem _ v => mkRendering [] [] [] (rd_content r v) (rd_type r v) (rd_value_logs r v)
  end.
(** Dates, flags and types contain no separators or quotes. *)
Definition plain_renderer (r : renderer) : Prop :=
  (forall z, plain (rd_date r z)) /\ (forall n, plain (rd_flags r n)) /\ (forall n, plain (rd_access r n))
  /\ (forall v, plain (rd_type r v)).

(** ** The export of a whole hive *)

(** The keys of a tree in pre-order, each followed by its values. *)
Definition tree_items (t : key_tree) : list (list (list N) * key_tree * option value) :=
  flat_map (fun x => (x, None) :: map (fun v => (x, Some v)) (t_vals (snd x))) (preorder [] t).
(** The row of one of them: the offset of the key and its path without the first
    backslash, or the name of the key, the name of the value, its type and its data. *)
Definition tree_row (x : list (list N) * key_tree * option value) (row : list (list N)) : Prop :=
  let '(names, t, o) := x in
  match o with
  | None => exists offset path date,
      row = [text "key"; text "A"; offset; path; []; []; []; date]
      /\ numeral offset (t_pos t) /\ read_utf8 path = Some (tl (spelled names))
  | Some v => exists offset key name type data,
      row = [text "value"; text "A"; offset; key; name; type; data; []]
      /\ read_utf8 key = Some (t_name t)
      /\ read_utf8 name = Some (match v_name v with [] => text "(default)" | n => n end)
      /\ numeral type (shown_type (v_type v))
      /\ (bytes_ok (value_data (v_type v mod 4096) (v_data v)) ->
          read_hex data = Some (value_data (v_type v mod 4096) (v_data v)))
  end.
