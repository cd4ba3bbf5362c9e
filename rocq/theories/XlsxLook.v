(** Model of the looks of the spreadsheet export, bin/reg_dump/xlsx_writer.rs: the
    formats that [write_key] and [write_value] give to the rows of the sheet of
    the items, in a run in which the library accepts every call. What they write
    to the cells is in Xlsx.v. *)
From Verif Require Import Base Types Value Node Export.
Open Scope N_scope.
Open Scope list_scope.

(** [Format] of the library, as far as it is set here: colour of the background and
    of the font, a line at the top, underlining. *)
Record format := mkFormat { f_back : option N; f_font : option N; f_top : bool; f_underline : bool }.
(** The colours, bin/reg_dump/xlsx_writer.rs:61-63. *)
Definition color_light_grey : N := 0xF4F4F4.
Definition color_dark_grey : N := 0x808080.
Definition color_dark_red : N := 0xA51B1B.
(** [get_formatters], bin/reg_dump/xlsx_writer.rs:386-411: the format of the row and
    that of the cells with a link. *)
Definition get_formatters (state : cell_state) (shaded upper_line : bool) : format * format :=
  let back := if shaded then Some color_light_grey else None in
  let font := if is_deleted state then Some color_dark_red else if is_modified_tx state then Some color_dark_grey else None in
  (mkFormat back font upper_line false, mkFormat back font upper_line true).

(** The fields of [WorksheetState] other than the sheet,
    bin/reg_dump/xlsx_writer.rs:448-467. *)
Record shading := mkShading { s_row : N; s_shaded : bool; s_border : bool; s_path : list N; s_name : option (list N) }.
Definition new_shading : shading := mkShading 0 false false [] None.
Definition same_name_as (a b : option (list N)) : bool :=
  match a, b with Some a, Some b => beq a b | None, None => true | _, _ => false end.
(** [set_shading], bin/reg_dump/xlsx_writer.rs:477-489. *)
Definition set_shading (path : list N) (name : option (list N)) (state : cell_state) (s : shading) : shading :=
  if negb (beq path (s_path s)) || negb (same_name_as name (s_name s)) then
    mkShading (s_row s) (negb (s_shaded s)) true path name
  else if is_deleted_primary_file state then mkShading (s_row s) (negb (s_shaded s)) true (s_path s) (s_name s)
  else mkShading (s_row s) (s_shaded s) false (s_path s) (s_name s).
(** The calls of [set_row] so far, with the format of the links in that row. *)
Definition looks : Type := list (N * (format * format)) * shading.
(** The beginning of [write_key] and [write_value],
    bin/reg_dump/xlsx_writer.rs:158-173,242-258 (a release build wraps). *)
Definition look_row (path : list N) (name : option (list N)) (state : cell_state) (l : looks) : looks :=
  let s := snd l in
  let s := set_shading path name state (mkShading (w32 (s_row s + 1)) (s_shaded s) (s_border s) (s_path s) (s_name s)) in
  (fst l ++ [(s_row s, get_formatters state (s_shaded s) (s_border s))], s).

Section Looks.
Context (recovered_only : bool).
(** [write_value], bin/reg_dump/xlsx_writer.rs:232-303. *)
Definition look_value (k : key_node) (v : key_value) (l : looks) : looks :=
  if recovered_only && negb (kv_has_or_is_recovered v) then l
  else look_row (kn_path k) (Some (vd_name (kv_detail v))) (kv_state v) l.
(** A loop. *)
Definition look_each {A} (f : A -> looks -> looks) : list A -> looks -> looks :=
  fix go xs l := match xs with [] => l | x :: xs => go xs (f x l) end.
(** [write_key], bin/reg_dump/xlsx_writer.rs:151-230. *)
Fixpoint look_key (k : key_node) (is_key_version : bool) (l : looks) : looks :=
  let l :=
    if negb recovered_only || kn_has_or_is_recovered k then
      look_each (fun v => look_key v true) (kn_versions k) (look_row (kn_path k) None (kn_state k) l)
    else l in
  if is_key_version then l
  else look_each (fun v l => look_each (look_value k) (kv_versions v) (look_value k v l)) (values_of k) l.
(** The loop of [WriteXlsx::write], bin/reg_dump/xlsx_writer.rs:128-131. *)
Definition xlsx_looks (ks : list key_node) : list (N * (format * format)) :=
  fst (look_each (fun k => look_key k false) ks ([], new_shading)).
End Looks.
