(** What the looks of a spreadsheet export tell. *)
From Verif Require Import Base Types ExportSpec XlsxLook.
Open Scope N_scope.
Open Scope list_scope.

(** What an item is called: the path of its key and, for a value, its name. *)
Definition called (i : item) : list N * option (list N) :=
  match i with KeyItem k => (kn_path k, None) | ValueItem k v => (kn_path k, Some (vd_name (kv_detail v))) end.
(** The colour of the font tells the state: dark red if the item was deleted, dark
    grey if it was replaced, otherwise that of the sheet. *)
Definition font (s : cell_state) : option N :=
  match s with
  | DeletedPrimaryFile | DeletedPrimaryFileSlack | DeletedTransactionLog => Some 0xA51B1B
  | ModifiedTransactionLog => Some 0x808080
  | Allocated => None
  end.
(** A row begins something new if the row before it is of an item that is called
    otherwise, or if its own item was found in unused space. *)
Definition begins (before : option item) (i : item) : Prop :=
  unused (item_state i) = true \/ match before with Some b => called b <> called i | None => called i <> ([], None) end.
Definition before (is : list item) (n : nat) : option item := match n with O => None | S m => nth_error is m end.
(** The background of the row before. *)
Definition back_before (ls : list (N * (format * format))) (n : nat) : option N :=
  match n with O => None | S m => match nth_error ls m with Some (_, (f, _)) => f_back f | None => None end end.
(** The formats of the rows of the items: one for each, row 0 being the header. A
    line and another background set apart what is new; long texts look like the
    rest of their row, but are underlined. *)
Definition tells_looks (is : list item) (ls : list (N * (format * format))) : Prop :=
  List.length ls = List.length is
  /\ forall n i, nth_error is n = Some i -> exists f,
       nth_error ls n = Some (N.of_nat n + 1, (f, mkFormat (f_back f) (f_font f) (f_top f) true))
       /\ f_underline f = false
       /\ f_font f = font (item_state i)
       /\ (f_top f = true <-> begins (before is n) i)
       /\ (f_back f = None \/ f_back f = Some 0xF4F4F4)
       /\ (f_back f <> back_before ls n <-> begins (before is n) i).
