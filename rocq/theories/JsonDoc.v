(** The documents of keys and values. *)
From Coq Require Import String.
From Verif Require Import Base BaseFacts Util UtilSpec UtilText LayoutSpec Types Value CellSpec CellData TreeSpec Log Export ExportSpec ExportFacts Date DateSpec DateFacts Show ShowSpec ShowFacts Json JsonSpec JsonFacts.
Open Scope string_scope.
Open Scope N_scope.
Open Scope list_scope.

Definition objd (d : list (string * json)) : json := Obj (map (fun e => (text (fst e), snd e)) d).
Fixpoint distinct (l : list string) : bool :=
  match l with [] => true | x :: l => forallb (fun y => negb (beq (text x) (text y))) l && distinct l end.
Lemma member_objd d name x : distinct (map fst d) = true -> In (name, x) d -> member name (objd d) = Some x.
Proof.
  unfold member, objd. induction d as [|[n y] d IH]; cbn [map fst snd distinct In List.filter]; intros D I; [contradiction|].
  apply andb_true_iff in D as (D1 & D2). rewrite forallb_forall in D1. destruct I as [I|I].
  - injection I as -> ->. rewrite beq_refl.
    replace (List.filter _ _) with (@nil (list N * json)); [reflexivity|]. symmetry. clear - D1. induction d as [|[m z] d IH]; [reflexivity|]. cbn [map fst snd List.filter].
    specialize (D1 m (or_introl eq_refl)) as D2. destruct (beq (text m) (text name)) eqn:E; [apply beq_eq in E; rewrite E, beq_refl in D2; discriminate D2|].
    apply IH. intros w W. apply D1. now right.
  - assert (B : beq (text n) (text name) = false).
    { specialize (D1 name (in_map fst _ _ I)). now apply negb_true_iff in D1. }
    rewrite B. now apply IH.
Qed.
Lemma struct_text (l : list (string * list N)) d : Forall2 (fun a b => fst a = fst b /\ snd a = text_of (snd b)) l d -> json_struct l = text_of (objd d).
Proof.
  intros F. unfold json_struct, objd. cbn [text_of]. do 2 f_equal. f_equal. rewrite map_map. induction F as [|a b l d (A & B) F IH]; [reflexivity|]. cbn [map fst snd]. now rewrite A, B, IH.
Qed.
Lemma seq_text {A} (f : A -> list N) (g : A -> json) l : (forall x, In x l -> f x = text_of (g x)) -> json_seq (map f l) = text_of (Arr (map g l)).
Proof. intros H. unfold json_seq. cbn [text_of]. do 2 f_equal. f_equal. rewrite map_map. now apply map_ext_in. Qed.
Lemma num_text n : json_num n = text_of (num n).
Proof. unfold json_num, num. cbn [text_of]. unfold decimal_z. destruct (Z.ltb_spec (Z.of_N n) 0); [lia|]. now rewrite N2Z.id. Qed.
Lemma int_text z : json_int z = text_of (Num z). Proof. reflexivity. Qed.
Lemma str_text s : json_str s = text_of (Str s). Proof. reflexivity. Qed.
Lemma maybe_text o : json_opt json_num o = text_of (maybe o).
Proof. destruct o; [apply num_text|reflexivity]. Qed.
Ltac same_struct := apply struct_text; repeat (apply Forall2_cons; [split; [reflexivity|cbn [snd]]|]); [..|apply Forall2_nil].

Definition doc_logs (l : logs) : json :=
  objd [("logs", match l with None => Null | Some ms => Arr (map (fun m => objd [("code", Str (code_name (mg_code m))); ("text", Str (mg_text m))]) ms) end)].
Lemma logs_text l : json_logs l = text_of (doc_logs l).
Proof.
  unfold json_logs, doc_logs. same_struct. destruct l as [ms|]; [|reflexivity]. cbn [json_opt]. apply (seq_text _ (fun m => objd [("code", Str (code_name (mg_code m))); ("text", Str (mg_text m))])). intros m _. same_struct; reflexivity.
Qed.
Definition doc_field (place : option (N * N)) (value : json) (more : list (string * json)) : json :=
  objd (("value", value) :: match place with Some (offset, n) => [("offset", num offset); ("len", num n)] | None => [] end ++ more).
Definition texts (more : list (string * json)) : list (string * list N) := map (fun e => (fst e, text_of (snd e))) more.
Lemma texts_same more : Forall2 (fun a b => fst a = fst b /\ snd a = text_of (snd b)) (texts more) more.
Proof. induction more; constructor; auto. Qed.
Lemma field_text place value more : json_field place (text_of value) (texts more) = text_of (doc_field place value more).
Proof.
  unfold json_field, doc_field. apply struct_text. constructor; [auto|]. destruct place as [[o n]|]; cbn [app]; [|apply texts_same].
  repeat (constructor; [split; [reflexivity|apply num_text]|]). apply texts_same.
Qed.
Fixpoint doc_fields (places : option (list (N * N))) (l : list (string * (json * list (string * json)))) : list (string * json) :=
  match l with
  | [] => []
  | (name, (value, more)) :: l => (name, doc_field (option_map (fun t => hd (0, 0) t) places) value more) :: doc_fields (option_map (@tl _) places) l
  end.
Lemma fields_text places l : forall m, Forall2 (fun a b => fst a = fst b /\ fst (snd a) = text_of (fst (snd b)) /\ snd (snd a) = texts (snd (snd b))) m l ->
  Forall2 (fun a b => fst a = fst b /\ snd a = text_of (snd b)) (json_fields places m) (doc_fields places l).
Proof.
  revert places. induction l as [|[n [v e]] l IH]; intros places m F; inversion F as [|[n' [v' e']] ? m' ? (A & B & C) F']; subst; cbn [fst snd] in *; [constructor|].
  subst. cbn [json_fields doc_fields]. constructor; [split; [reflexivity|apply field_text]|]. now apply IH.
Qed.
Definition doc_detail (places : option (list (N * N))) (l : list (string * (json * list (string * json)))) : json :=
  tagged (match places with Some _ => "Full" | None => "Light" end) (objd (doc_fields places l)).
Lemma detail_text places l m : Forall2 (fun a b => fst a = fst b /\ fst (snd a) = text_of (fst (snd b)) /\ snd (snd a) = texts (snd (snd b))) m l ->
  json_detail places m = text_of (doc_detail places l).
Proof.
  intros F. unfold json_detail, doc_detail. change (tagged ?t ?x) with (objd [(t, x)]). same_struct. apply struct_text. now apply fields_text.
Qed.
(** Reading a field. *)
Definition plain_more (more : list (string * json)) : bool := distinct ("value" :: "offset" :: "len" :: map fst more)%string.
Lemma field_value place value more : plain_more more = true -> member "value" (doc_field place value more) = Some value.
Proof.
  intros D. apply member_objd; [|now left]. destruct place as [[o n]|]; [exact D|]. cbn [map fst app]. unfold plain_more in D. cbn [distinct forallb] in *. rewrite !andb_true_iff in *. tauto.
Qed.
Lemma field_place o n value more : plain_more more = true -> member "offset" (doc_field (Some (o, n)) value more) = Some (num o) /\ member "len" (doc_field (Some (o, n)) value more) = Some (num n).
Proof. intros D. split; (apply member_objd; [exact D|]); cbn [app In]; tauto. Qed.
Lemma field_more place value more name x : plain_more more = true -> In (name, x) more -> member name (doc_field place value more) = Some x.
Proof.
  intros D I. apply member_objd.
  - destruct place as [[o n]|]; [exact D|]. cbn [map fst app]. unfold plain_more in D. cbn [distinct forallb] in *. rewrite !andb_true_iff in *. tauto.
  - right. apply in_or_app. now right.
Qed.
Lemma fields_names l : forall places, map fst (doc_fields places l) = map fst l.
Proof. induction l as [|[n [v e]] l IH]; intros places; [reflexivity|]. cbn [doc_fields map fst]. now rewrite IH. Qed.
Lemma fields_nth l : forall places i name value more, nth_error l i = Some (name, (value, more)) ->
  nth_error (doc_fields places l) i = Some (name, doc_field (option_map (fun t => nth i t (0, 0)) places) value more).
Proof.
  induction l as [|[n [v e]] l IH]; intros places [|i] name value more E; try discriminate.
  - injection E as -> -> ->. cbn [doc_fields nth_error]. now destruct places as [[|? ?]|].
  - cbn [doc_fields nth_error] in *. rewrite (IH _ _ _ _ _ E). destruct places as [[|q t]|]; cbn [option_map]; [|reflexivity|reflexivity]. cbn [tl]. now destruct i.
Qed.
Lemma fields_said places l : distinct (map fst l) = true -> forallb (fun e => plain_more (snd (snd e))) l = true ->
  says_fields places (map (fun e => (fst e, fst (snd e))) l) (doc_detail places l).
Proof.
  intros D P. exists (objd (doc_fields places l)). split; [reflexivity|]. intros i name x E. rewrite nth_error_map in E. destruct (nth_error l i) as [[n [v more]]|] eqn:Q; [|discriminate E]. injection E as -> ->.
  pose proof (fields_nth l places i name x more Q) as F. exists (doc_field (option_map (fun t => nth i t (0, 0)) places) x more).
  rewrite forallb_forall in P. specialize (P _ (nth_error_In _ _ Q)). cbn [snd] in P.
  split; [apply member_objd; [now rewrite fields_names|now apply nth_error_In in F]|]. split; [now apply field_value|].
  destruct places as [t|]; [|exact I]. intros o m T. cbn [option_map]. rewrite (nth_error_nth _ _ (0, 0) T). now apply field_place.
Qed.
Lemma field_noted places l name value more s (P : list N -> Prop) : distinct (map fst l) = true -> plain_more more = true -> In (name, (value, more)) l ->
  In ("interpreted", Str s) more -> P s -> noted name (doc_detail places l) P.
Proof.
  intros D M I N0 H. apply In_nth_error in I as (i & I). pose proof (fields_nth l places i name value more I) as F.
  exists (match places with Some _ => "Full" | None => "Light" end)%string, (objd (doc_fields places l)), (doc_field (option_map (fun t => nth i t (0, 0)) places) value more), s.
  split; [reflexivity|]. split; [apply member_objd; [now rewrite fields_names|now apply nth_error_In in F]|]. split; [now apply field_more|exact H].
Qed.
Lemma member_none d name : forallb (fun x => negb (beq (text (fst x)) (text name))) d = true -> member name (objd d) = None.
Proof.
  intros H. unfold member, objd. replace (List.filter _ _) with (@nil (list N * json)); [reflexivity|]. symmetry.
  induction d as [|[n y] d IH]; [reflexivity|]. cbn [map fst snd List.filter forallb] in *. apply andb_true_iff in H as (H1 & H2). apply negb_true_iff in H1. rewrite H1. now apply IH.
Qed.
Lemma field_place_of places l name value more : distinct (map fst l) = true -> In (name, (value, more)) l ->
  exists tag inner place, doc_detail places l = tagged tag inner /\ member name inner = Some (doc_field place value more).
Proof.
  intros D I. apply In_nth_error in I as (i & I). pose proof (fields_nth l places i name value more I) as F.
  exists (match places with Some _ => "Full" | None => "Light" end)%string, (objd (doc_fields places l)), (option_map (fun t => nth i t (0, 0)) places).
  split; [reflexivity|]. apply member_objd; [now rewrite fields_names|now apply nth_error_In in F].
Qed.
