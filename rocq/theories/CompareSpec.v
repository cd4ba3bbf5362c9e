(** What a comparison of two hives should report, and how its outputs are read. *)
From Coq Require Import String Permutation.
From Verif Require Import Base UtilSpec LayoutSpec Types Parser CellSpec TreeSpec TxLog TxSpec Log Export ExportSpec Compare.
Open Scope string_scope.
Open Scope N_scope.
Open Scope list_scope.

(** ** The items of a hive *)

(** What is compared of a key: its flags, its time and its access bits; of a
    value: its type, its flags and its data. *)
Inductive content := KeyContent (flags time access : N) | ValueContent (type flags : N) (data : list N).
Definition key_content (k : key_node) : content :=
  KeyContent (kd_flags (kn_detail k)) (kd_time (kn_detail k)) (kd_access (kn_detail k)).
Definition value_content (v : key_value) : content :=
  ValueContent (vd_type_raw (kv_detail v)) (vd_flags_raw (kv_detail v)) (data_bytes v).
(** The bytes of a content, and the sizes of its fields. *)
Definition digest_input (c : content) : list N :=
  match c with
  | KeyContent f t a => enc 2 f ++ enc 8 t ++ enc 4 a
  | ValueContent t f d => enc 4 t ++ enc 2 f ++ d
  end.
Definition content_ok (c : content) : Prop :=
  match c with
  | KeyContent f t a => f < 2 ^ 16 /\ t < 2 ^ 64 /\ a < 2 ^ 32
  | ValueContent t f d => t < 2 ^ 32 /\ f < 2 ^ 16
  end.
(** The keys (under their path) and the values (under the path of the key and
    their name). *)
Definition contents (ks : list key_node) : list (list N * option (list N) * content) :=
  flat_map (fun k => ((kn_path k, None), key_content k)
    :: map (fun v => ((kn_path k, Some (vd_name (kv_detail v))), value_content v)) (kn_values k)) ks.
Definition absent (w : list N * option (list N)) (ks : list key_node) : Prop := ~ In w (map fst (contents ks)).
Definition changed (w : list N * option (list N)) (c : content) (ks : list key_node) : Prop :=
  exists c', In (w, c') (contents ks) /\ c' <> c.
(** The hash function tells the contents of the same item in two hives apart. *)
Definition no_collision (hash : list N -> N) (ks1 ks2 : list key_node) : Prop :=
  forall w a b, In (w, a) (contents ks1) -> In (w, b) (contents ks2) ->
  hash (digest_input a) = hash (digest_input b) -> digest_input a = digest_input b.
Definition value_key (x : list N * key_value) : list N * option (list N) := (fst x, Some (vd_name (kv_detail (snd x)))).
(** The values with the paths of their keys. *)
Definition values_in (ks : list key_node) : list (list N * key_value) :=
  flat_map (fun k => map (pair (kn_path k)) (kn_values k)) ks.

(** [b] has exactly the elements of [a] that satisfy [P], in order. *)
Inductive picks {A} (P : A -> Prop) : list A -> list A -> Prop :=
| picks_nil : picks P [] []
| picks_keep x a b : P x -> picks P a b -> picks P (x :: a) (x :: b)
| picks_drop x a b : ~ P x -> picks P a b -> picks P (x :: a) b.

(** The changes between the keys [ks1] and the keys [ks2]: added is what is only
    in the second, deleted what is only in the first (in some order), modified
    what is in both with different contents. *)
Record compared (ks1 ks2 : list key_node) (c : changes) : Prop := {
  keys_added : picks (fun k => absent (kn_path k, None) ks1) ks2 (cg_keys_added c);
  keys_modified : picks (fun k => changed (kn_path k, None) (key_content k) ks1) ks2 (map snd (cg_keys_modified c));
  keys_deleted : exists l, picks (fun k => absent (kn_path k, None) ks2) ks1 l
                 /\ Permutation (map kn_path (cg_keys_deleted c)) (map kn_path l);
  values_added : picks (fun x => absent (value_key x) ks1) (values_in ks2) (cg_values_added c);
  values_modified : picks (fun x => changed (value_key x) (value_content (snd x)) ks1) (values_in ks2)
                      (map (fun x => (fst (fst x), snd x)) (cg_values_modified c));
  values_deleted : exists l, picks (fun x => absent (value_key x) ks2) (values_in ks1) l
                   /\ Permutation (map value_key (cg_values_deleted c)) (map value_key l)
}.

(** The old key or value that is shown with a change is that of the tree. *)
Definition old_key (t : key_tree) (path : list N) (k : key_node) : Prop :=
  kn_path k = path /\ exists x, In x (preorder [] t) /\ key_shown k (fst x) (snd x).
Definition old_value (t : key_tree) (path name : list N) (v : key_value) : Prop :=
  vd_name (kv_detail v) = name
  /\ exists x y, In x (preorder [] t) /\ read_utf8 path = Some (spelled (fst x)) /\ In y (t_vals (snd x)) /\ value_shown v y.
Record originals (t : key_tree) (c : changes) : Prop := {
  modified_keys : Forall (fun x => old_key t (kn_path (snd x)) (fst x)) (cg_keys_modified c);
  deleted_keys : Forall (fun k => old_key t (kn_path k) k) (cg_keys_deleted c);
  modified_values : Forall (fun x => old_value t (fst (fst x)) (vd_name (kv_detail (snd x))) (snd (fst x))) (cg_values_modified c);
  deleted_values : Forall (fun x => old_value t (fst x) (vd_name (kv_detail (snd x))) (snd x)) (cg_values_deleted c)
}.

(** Names are not empty, and no two sub-keys of a key and no two values of a key
    have names that differ only in case. *)
Inductive distinct : key_tree -> Prop :=
| distinct_key pos name vals subs : name <> [] ->
    NoDup (map (fun v => map fold_case (v_name v)) vals) -> NoDup (map (fun s => map fold_case (t_name s)) subs) ->
    Forall distinct subs -> distinct (KeyTree pos name vals subs).

(** ** The diff *)

(** The lines of a hunk: those taken away and those put in their place. *)
Definition hunk := (list (list N) * list (list N))%type.
Definition hunk_lines (h : hunk) : list N :=
  flat_map (fun l => text "-" ++ l ++ [10]) (fst h) ++ flat_map (fun l => text "+" ++ l ++ [10]) (snd h).
(** A text that is a sequence of hunks, the next line being number [l] on the left
    and [r] on the right: each header tells the numbers of the first lines and how
    many lines follow. *)
Inductive hunks : N -> N -> list N -> list hunk -> Prop :=
| no_hunk l r : hunks l r [] []
| next_hunk l r a b c d h s hs :
    numeral a l -> numeral b (len (fst h)) -> numeral c r -> numeral d (len (snd h)) ->
    h <> ([], []) -> Forall (fun x => ~ In 10 x) (fst h ++ snd h) ->
    hunks (l + len (fst h)) (r + len (snd h)) s hs ->
    hunks l r (text "@@ -" ++ a ++ text "," ++ b ++ text " +" ++ c ++ text "," ++ d ++ text " @@" ++ [10] ++ hunk_lines h ++ s) (h :: hs).
(** The line that shows a key: its path, time, flags and access bits; the line that
    shows a value: the path of its key, its name and its content. Between them are
    tabs. How times, flags and contents are written is left to the renderer. *)
Definition key_line (r : renderer) (k : key_node) : list N :=
  kn_path k ++ [9] ++ rd_date r (kn_date k) ++ [9] ++ rd_flags r (kd_flags (kn_detail k)) ++ [9] ++ rd_access r (kd_access (kn_detail k)).
Definition value_line (r : renderer) (x : list N * key_value) : list N :=
  fst x ++ [9] ++ (match vd_name (kv_detail (snd x)) with [] => text "(default)" | name => name end) ++ [9] ++ rd_content r (snd x).
(** The hunks of a set of changes: one for each kind, unless there is none. *)
Definition all_hunks (r : renderer) (c : changes) : list hunk :=
  let key := key_line r in
  let value := value_line r in
  List.filter (fun h => match h with ([], []) => false | _ => true end)
  [(map key (cg_keys_deleted c), []);
   ([], map key (cg_keys_added c));
   (map (fun x => key (fst x)) (cg_keys_modified c), map (fun x => key (snd x)) (cg_keys_modified c));
   (map value (cg_values_deleted c), []);
   ([], map value (cg_values_added c));
   (map (fun x => value (fst x)) (cg_values_modified c), map (fun x => value (fst (fst x), snd x)) (cg_values_modified c))].

(** ** The hives that are compared *)

(** What is listed of a tree under a filter. *)
Definition listed (f : filter) (t : key_tree) : list (list (list N) * key_tree) :=
  match f with None => preorder [] t | Some q => filtered q false (preorder [] t) end.
(** A parser that was built, with this hash function and without recovery of
    deleted items, for a hive that holds the tree [t]; the root is the first cell
    and paths are not ambiguous. *)
Definition compared_hive (hash : list N -> N) (t : key_tree) (p : parser) : Prop :=
  (exists order fuel full buffer files, known_file_type buffer /\ build order fuel hash false full buffer files = Ok p)
  /\ hive (ps_buffer p) t /\ num_at (ps_buffer p) 36 4 = 32 /\ clean_names t /\ distinct t.

(** ** The report *)

(** A section has a title, the number of its changes and the lines that show them;
    a modified item is shown by its old line and its new line. *)
Definition report_sections (r : renderer) (c : changes) : list (string * N * list (list N)) :=
  let key := key_line r in
  let value := value_line r in
  [("Keys deleted", len (cg_keys_deleted c), map key (cg_keys_deleted c));
   ("Keys added", len (cg_keys_added c), map key (cg_keys_added c));
   ("Keys modified", len (cg_keys_modified c), flat_map (fun x => [key (fst x); key (snd x)]) (cg_keys_modified c));
   ("Values deleted", len (cg_values_deleted c), map value (cg_values_deleted c));
   ("Values added", len (cg_values_added c), map value (cg_values_added c));
   ("Values modified", len (cg_values_modified c), flat_map (fun x => [value (fst x); value (fst (fst x), snd x)]) (cg_values_modified c))].
Definition dashes : list N := repeat 45 34.
Inductive sections : list N -> list (string * N * list (list N)) -> Prop :=
| no_section : sections [] []
| next_section title n num ls s l : numeral num n -> sections s l ->
    sections ([10] ++ dashes ++ [10] ++ text title ++ text ": " ++ num ++ [10] ++ dashes ++ [10] ++ flat_map (fun x => x ++ [10]) ls ++ s) ((title, n, ls) :: l).
