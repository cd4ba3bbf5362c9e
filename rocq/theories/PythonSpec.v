(** What a Python program sees of a hive. *)
From Coq Require Import String.
From Verif Require Import Base Util UtilSpec LayoutSpec Types Value Node Parser TxLog CellSpec TreeSpec Pure TreeSession NavSpec Log Export ExportSpec Date DateSpec Show ShowSpec Python DecodeSpec.
Open Scope string_scope.
Open Scope N_scope.
Open Scope list_scope.

(** ** Dates *)
(** The [datetime] names this microsecond since 1601. *)
Definition names_micro (d : py_datetime) (m : N) : Prop :=
  exists days, date_after_1601 days = (dt_year d, dt_month d, dt_day d) /\ dt_hour d < 24 /\ dt_minute d < 60 /\ dt_second d < 60 /\ dt_micros d < 1000000
  /\ m = (((days * 24 + dt_hour d) * 60 + dt_minute d) * 60 + dt_second d) * 1000000 + dt_micros d.
(** The microsecond nearest to a FILETIME, in units of 100 nanoseconds; of two
    equally near ones the even. *)
Definition nearest_micro (filetime m : N) : Prop :=
  10 * m <= filetime + 5 /\ filetime <= 10 * m + 5 /\ (10 * m = filetime + 5 \/ filetime = 10 * m + 5 -> N.even m = true).
Definition shows_time (d : py_datetime) (filetime : N) : Prop := exists m, names_micro d m /\ nearest_micro filetime m.

(** ** Contents *)
(** The Python object for a content. *)
Inductive in_python : cell_value -> py_object -> Prop :=
| py_string s u : read_utf8 s = Some u -> in_python (CString s) (PyStr u)
| py_strings l us : map read_utf8 l = map Some us -> in_python (CMultiString l) (PyList (map PyStr us))
| py_u32 n : in_python (CU32 n) (PyInt (Z.of_N n))
| py_u64 n : in_python (CU64 n) (PyInt (Z.of_N n))
| py_i32 z : in_python (CI32 z) (PyInt z)
| py_i64 z : in_python (CI64 z) (PyInt z)
| py_binary b : in_python (CBinary b) (PyBytes b)
| py_none : in_python CNone PyNone
| py_error : in_python CError PyNone.
(** What is seen of a stored value, with its content as it is and decoded, by one
    decoder after another. *)
Definition sees_value (v : key_value) (x : value) : Prop :=
  py_value_name v = PyStr (v_name x) /\ py_value_pretty_name v = PyStr (match v_name x with [] => text "(default)" | m => m end)
  /\ py_value_raw_type v = PyInt (Z.of_N (v_type x)) /\ py_value_bytes v = PyBytes (value_data (v_type x mod 4096) (v_data x))
  /\ forall c, stored_content (shown_type (v_type x)) (value_data (v_type x mod 4096) (v_data x)) c ->
     (exists o, py_value_content v = Ok o /\ in_python c o)
     /\ forall f off steps d, decoded_by ((f, off) :: steps) c d -> exists o, decode_value v f off steps = Ok o /\ in_python d o.
(** What is seen of a stored key: its name, its path, the path without the root's
    name (for the root itself, its path), its counts, its date, its values, and
    the first value of a name, regardless of case. *)
Definition sees_key (buffer : list N) (k : py_key) (names : list (list N)) (s : key_tree) : Prop :=
  py_key_name k = PyStr (t_name s) /\ py_key_path k = PyStr (spelled names)
  /\ py_key_pretty_path k = Ok (PyStr (match names with _ :: n :: r => joined (n :: r) | _ => spelled names end))
  /\ py_key_sub_keys k = PyInt (Z.of_nat (List.length (t_subs s))) /\ py_key_values k = PyInt (Z.of_nat (List.length (t_vals s)))
  /\ (fits_i64 (filetime_instant (stored_time buffer s)) -> shows_time (pk_date k) (stored_time buffer s))
  /\ (forall fuel, (List.length (t_vals s) < fuel)%nat -> Forall2 sees_value (py_values fuel k) (t_vals s))
  /\ forall name, Forall scalar name -> match find (fun x => same_name (v_name x) name) (t_vals s) with
     | Some x => exists v, py_value k (utf8 name) = Some v /\ sees_value v x
     | None => py_value k (utf8 name) = None
     end.
Definition sees_keys (buffer : list N) (ks : list (option py_key)) (l : list (list (list N) * key_tree)) : Prop :=
  Forall2 (fun o x => exists k, o = Some k /\ sees_key buffer k (fst x) (snd x)) ks l.

(** ** Sessions *)
(** The calls of a program so far: its parser, and the keys it holds. Paths are
    texts; the parent of the root is not asked for. *)
Inductive py_session (t : key_tree) (p0 : parser) : py_parser -> list py_key -> Prop :=
| py_start : py_session t p0 (Some p0) []
| py_opened s ks fuel path k s' : py_session t p0 s ks -> Forall scalar path -> py_open fuel s (utf8 path) = Ok (Returned (Some k), s') -> py_session t p0 s' (k :: ks)
| py_not_opened s ks fuel path s' : py_session t p0 s ks -> Forall scalar path -> py_open fuel s (utf8 path) = Ok (Returned None, s') -> py_session t p0 s' ks
| py_rooted s ks k s' : py_session t p0 s ks -> py_root s = Ok (Returned (Some k), s') -> py_session t p0 s' (k :: ks)
| py_parented s ks c k s' : py_session t p0 s ks -> In c ks -> kn_offset (pk_inner c) <> t_pos t -> py_get_parent s c = Ok (Returned (Some k), s') -> py_session t p0 s' (k :: ks)
| py_listed s ks fuel k l k' s' : py_session t p0 s ks -> In k ks -> py_subkeys fuel s k = Ok (l, k', s') -> py_session t p0 s' (flat_map (fun o => match o with Some c => [c] | None => [] end) l ++ k' :: ks)
| py_found s ks fuel k path c s' : py_session t p0 s ks -> In k ks -> Forall scalar path -> py_find_key fuel s k (utf8 path) = Ok (Some c, s') -> py_session t p0 s' (c :: ks)
| py_not_found s ks fuel k path s' : py_session t p0 s ks -> In k ks -> Forall scalar path -> py_find_key fuel s k (utf8 path) = Ok (None, s') -> py_session t p0 s' ks
| py_iterated s ks fuel l s' : py_session t p0 s ks -> (2 * List.length (positions t) < fuel)%nat -> py_reg_keys fuel s = Ok (Returned l, s') ->
    py_session t p0 s' (flat_map (fun o => match o with Some c => [c] | None => [] end) l ++ ks).
(** A hive a Python program works on, as in NavSpec.v. *)
Definition python_on (buffer : list N) (files : list (list N)) (t : key_tree) (p0 : parser) (s : py_parser) (ks : list py_key) : Prop :=
  opens buffer files t p0 /\ clean_names t /\ num_at (ps_buffer p0) 36 4 = 32 /\ parents_stored (ps_buffer p0) t /\ py_session t p0 s ks.
(** The key that one in hand stands for. *)
Definition py_stands (t : key_tree) (k : py_key) (names : list (list N)) (s : key_tree) : Prop := stands_at t (pk_inner k) names s.
