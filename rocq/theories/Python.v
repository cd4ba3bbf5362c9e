(** Model of the Python bindings, pynotatin/src. A Python object is its value: a
    [str] is its characters, an [int] a number; what a call returns or raises is
    data. Panics stay panics. Reading files, file-like objects and the logger are
    left out. *)
From Coq Require Import String.
From Verif Require Import Base Util Types Value Node Parser TxLog Export Date Show.
Open Scope string_scope.
Open Scope N_scope.
Open Scope list_scope.

(** ** Dates, pynotatin/src/util.rs *)
Open Scope Z_scope.
(** [nanos_to_micros_round_half_even], pynotatin/src/util.rs:66-76. *)
Definition nanos_to_micros_round_half_even (nanos : Z) : Z :=
  let nanos_e7 := nanos mod 1000 / 100 in
  let nanos_e6 := nanos mod 10000 / 1000 in
  let micros := nanos / 10000 * 10 in
  if 5 <? nanos_e7 then micros + (nanos_e6 + 1)
  else if nanos_e7 <? 5 then micros + nanos_e6
  else micros + (nanos_e6 + nanos_e6 mod 2).
(** [date_splitter], pynotatin/src/util.rs:78-87. A date is a number of
    nanoseconds since 1970 (Util.v). *)
Definition date_splitter (date : Z) : Z * Z :=
  let micros := nanos_to_micros_round_half_even (date mod 1000000000) in
  (date / 1000000000 + micros / 1000000, micros mod 1000000).
(** [round_to_usec_half_even], pynotatin/src/util.rs:89-97: the seconds and the
    nanoseconds of the rounded date. chrono's [from_timestamp_opt] takes a
    thousand million nanoseconds or more only in the last second of a minute;
    [None] is the panic of the [expect], which Python sees as an exception. The
    seconds fit: they are those of a date of 64 bits of nanoseconds, or one
    more. *)
Definition round_to_usec_half_even (date : Z) : option (Z * Z) :=
  let (unix_time, micros) := date_splitter date in
  let nanos := micros * 1000 in
  if (nanos <? 1000000000) || (unix_time mod 60 =? 59) && (nanos <? 2000000000) then Some (unix_time, nanos) else None.
(** Python's [datetime], without a time zone. *)
Record py_datetime := mkPyDate { dt_year : N; dt_month : N; dt_day : N; dt_hour : N; dt_minute : N; dt_second : N; dt_micros : N }.
(** The constructor raises [ValueError] outside these ranges. *)
Definition py_datetime_new (y m d h i s u : Z) : option py_datetime :=
  if ((1 <=? y) && (y <=? 9999) && (1 <=? m) && (m <=? 12) && (1 <=? d) && (d <=? nth (Z.to_nat (m - 1)) (month_lengths (leap_year y)) 0)
      && (0 <=? h) && (h <? 24) && (0 <=? i) && (i <? 60) && (0 <=? s) && (s <? 60) && (0 <=? u) && (u <? 1000000))%bool
  then Some (mkPyDate (Z.to_N y) (Z.to_N m) (Z.to_N d) (Z.to_N h) (Z.to_N i) (Z.to_N s) (Z.to_N u))
  else None.
(** [date_to_pyobject], pynotatin/src/util.rs:99-116. *)
Definition date_to_pyobject (date : Z) : option py_datetime :=
  match round_to_usec_half_even date with
  | None => None
  | Some (seconds, nanos) =>
      let '(y, m, d) := date_of_days (seconds / 86400) in
      let s := seconds mod 86400 in
      py_datetime_new y m d (s / 3600) (s / 60 mod 60) (s mod 60) (nanos / 1000)
  end.
Open Scope N_scope.

(** ** Values, pynotatin/src/py_notatin_value.rs *)
Inductive py_object := PyNone | PyInt (z : Z) | PyStr (s : list N) | PyBytes (b : list N) | PyList (l : list py_object).
(** [to_object] of a Rust string. *)
Definition py_str (s : list N) : py_object := PyStr (str_chars s).
(** [prepare_content], pynotatin/src/py_notatin_value.rs:102-115; the result [None]
    is Python's. *)
Definition prepare_content (c : cell_value) : py_object :=
  match c with
  | CString s => py_str s
  | CI32 z => PyInt z
  | CU32 n => PyInt (Z.of_N n)
  | CU64 n => PyInt (Z.of_N n)
  | CI64 z => PyInt z
  | CMultiString l => PyList (map py_str l)
  | CBinary b => PyBytes b
  | CNone | CError => PyNone
  end.
(** The getters of [PyNotatinValue], pynotatin/src/py_notatin_value.rs:36-64. *)
Definition py_value_bytes (v : key_value) : py_object := PyBytes (match vd_bytes (kv_detail v) with Some b => b | None => [] end).
Definition py_value_pretty_name (v : key_value) : py_object := py_str (kv_pretty_name v).
Definition py_value_name (v : key_value) : py_object := py_str (vd_name (kv_detail v)).
Definition py_value_raw_type (v : key_value) : py_object := PyInt (Z.of_N (vd_type_raw (kv_detail v))).
Definition py_value_content (v : key_value) : res py_object := let* (c, _) := get_content v in Ok (prepare_content c).
(** [decode] of a value and of what was decoded, and [content] of the latter,
    pynotatin/src/py_notatin_value.rs:66-79 and
    pynotatin/src/py_notatin_content.rs:32-51: an object holds the content and
    drops the warnings. *)
Definition py_decode (v : key_value) (f : decode_format) (offset : N) : res cell_value :=
  let* (c, _) := decode_content v f offset in Ok c.
Definition py_content_decode (c : cell_value) (f : decode_format) (offset : N) : res cell_value :=
  let* (c, _) := decode f c offset in Ok c.
Definition py_content_content (c : cell_value) : py_object := prepare_content c.

(** ** Keys, pynotatin/src/py_notatin_key.rs *)
Record py_key := mkPyKey { pk_inner : key_node; pk_date : py_datetime }.
(** [from_cell_key_node], pynotatin/src/py_notatin_key.rs:132-145. *)
Definition from_cell_key_node (k : key_node) : option py_key := option_map (mkPyKey k) (date_to_pyobject (kn_date k)).
(** The getters, pynotatin/src/py_notatin_key.rs:78-120. *)
Definition py_key_name (k : py_key) : py_object := py_str (kn_name (pk_inner k)).
Definition py_key_path (k : py_key) : py_object := py_str (kn_path (pk_inner k)).
Definition py_key_pretty_path (k : py_key) : res py_object := let* s := kn_pretty_path (pk_inner k) in Ok (py_str s).
Definition py_key_sub_keys (k : py_key) : py_object := PyInt (Z.of_N (kd_nsub (kn_detail (pk_inner k)))).
Definition py_key_values (k : py_key) : py_object := PyInt (Z.of_N (kd_nvalues (kn_detail (pk_inner k)))).
(** [values] and [PyNotatinValuesIterator], pynotatin/src/py_notatin_key.rs:40-42,
    147-157,189-208: repeated [__next__]; a value is always made. *)
Definition py_values (fuel : nat) (k : py_key) : list key_value := value_iter fuel (pk_inner k) 0.
(** [value], pynotatin/src/py_notatin_key.rs:48-55. *)
Definition py_value (k : py_key) (name : list N) : option key_value := get_value (pk_inner k) name.
(** [versions], pynotatin/src/py_notatin_value.rs:82-84,117-150: repeated
    [__next__]. *)
Fixpoint py_items {A} (fuel : nat) (l : list A) (index : N) : list A :=
  match fuel with
  | O => []
  | S fuel => match get_at l index with Some x => x :: py_items fuel l (index + 1) | None => [] end
  end.
Definition py_versions (fuel : nat) (v : key_value) : list key_value := py_items fuel (kv_versions v) 0.

(** ** The parser, pynotatin/src/py_notatin_parser.rs *)
(** [inner]: [None] after [reg_keys]. *)
Definition py_parser := option parser.
Inductive reply (A : Type) := Returned (a : A) | Raised.
Arguments Returned {A} a. Arguments Raised {A}.
(** [key_for], pynotatin/src/py_notatin_parser.rs:81-98. (After an error the
    parser is taken to be as before.) *)
Definition key_for (func : parser -> res (option key_node * parser)) (s : py_parser) : res (reply (option py_key) * py_parser) :=
  match s with
  | Some p =>
      match func p with
      | Ok (Some k, p') => Ok (Returned (from_cell_key_node k), Some p')
      | Ok (None, p') => Ok (Returned None, Some p')
      | Err => Ok (Raised, Some p)
      | Panic => Panic
      | OutOfFuel => OutOfFuel
      end
  | None => Ok (Returned None, None)
  end.
(** [open], [root], [get_parent], pynotatin/src/py_notatin_parser.rs:56-69. *)
Definition py_open (fuel : nat) (s : py_parser) (path : list N) : res (reply (option py_key) * py_parser) :=
  key_for (fun p => get_key fuel p path false) s.
Definition py_root (s : py_parser) : res (reply (option py_key) * py_parser) := key_for get_root_key s.
Definition py_get_parent (s : py_parser) (k : py_key) : res (reply (option py_key) * py_parser) :=
  key_for (fun p => get_parent_key p (pk_inner k)) s.
(** [subkeys] and [PyNotatinSubKeysIterator], pynotatin/src/py_notatin_key.rs:61-63,
    159-181,210-228: the key is changed, and repeated [__next__] gives the keys; in
    the place of a key that cannot be made the exception is returned. *)
Definition py_subkeys (fuel : nat) (s : py_parser) (k : py_key) : res (list (option py_key) * py_key * py_parser) :=
  match s with
  | Some p =>
      let* (k', ks, st) := read_sub_keys (ps_file p) (ps_state p) (kn_set_index 0 (pk_inner k)) in
      Ok (map from_cell_key_node (py_items fuel ks 0), mkPyKey k' (pk_date k), Some (ps_set_state st p))
  | None => Ok ([], mkPyKey (kn_set_index 0 (pk_inner k)) (pk_date k), None)
  end.
(** [find_key], pynotatin/src/py_notatin_key.rs:65-75. *)
Definition py_find_key (fuel : nat) (s : py_parser) (k : py_key) (path : list N) : res (option py_key * py_parser) :=
  match s with
  | Some p =>
      let* (o, st) := get_sub_key_by_path fuel (ps_file p) (ps_state p) (pk_inner k) path in
      Ok (match o with Some c => from_cell_key_node c | None => None end, Some (ps_set_state st p))
  | None => Ok (None, None)
  end.
(** [reg_keys] and [PyNotatinKeysIterator], pynotatin/src/py_notatin_parser.rs:51-54,
    100-121,163-195: the iterator takes the parser; repeated [__next__]. *)
Definition py_reg_keys (fuel : nat) (s : py_parser) : res (reply (list (option py_key)) * py_parser) :=
  match s with
  | Some p => let* ks := iterate fuel p None false true false in Ok (Returned (map from_cell_key_node ks), None)
  | None => Ok (Raised, None)
  end.
