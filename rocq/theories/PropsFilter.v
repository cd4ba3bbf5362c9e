(** The filters that a program puts together (C74): statements only, with a
    concrete case beside each. The specification is FilterSpec.v. *)
From Coq Require Import String.
From Verif Require Import Base BaseFacts Util UtilSpec LayoutSpec BaseBlock Types Value Node Log Parser TxLog TxSpec CellSpec TreeSpec TreeOpen TreeSession
  CompareSpec FilterBuild FilterSpec FilterFacts Demo DemoCell DemoTree DemoExport PropsTree.

(** ** C74 *)
(** Whatever the calls and their order, and whatever regular expressions mean: if
    the library accepts them, a filter is built, and an iteration with it shows,
    in pre-order, exactly the keys that are asked for. *)
Theorem C74_filter : forall compile calls pss, Forall2 says calls pss -> refused compile calls = [] ->
  (if setting root_flag calls then 3 <= List.length (concat pss) else 1 <= List.length (concat pss))%nat ->
  exists q, make_filter compile calls = inl q
  /\ forall buffer files t p ancestors m n, session buffer files t p -> (List.length (positions t) < n)%nat ->
     exists ks l seen, iterate n p (Some q) ancestors m false = Ok ks /\ shown ks seen
     /\ picks (fun x => chosen compile (concat pss) (setting root_flag calls) (setting children_flag calls) ancestors (fst x)) (preorder [] t) l
     /\ Forall2 (shown_as (concat pss) (setting root_flag calls)) l seen.
Proof. exact made_filter. Qed.
Print Assumptions C74_filter.
(** If it refuses one, there is no filter, and the error tells all its complaints. *)
Theorem C74_refused : forall compile calls, refused compile calls <> [] ->
  make_filter compile calls = inr (text "Regex errors encountered: " ++ join_texts (text ", ") (refused compile calls)).
Proof. exact refused_filter. Qed.
Print Assumptions C74_refused.

(** A library that knows three expressions. *)
Definition is_digit (c : N) : bool := (48 <=? c) && (c <=? 57).
Definition three_regexes : regex_library := fun s =>
  if beq s (text "^al") then inl (fun x => beq (firstn 2 x) (text "al"))
  else if beq s (text "\d") then inl (existsb is_digit)
  else if beq s (text "\D") then inl (existsb (fun c => negb (is_digit c)))
  else inr (text "unknown: " ++ s).
Definition two_calls : list filter_call :=
  [ReturnChildKeys true; AddRegexSegment (text "^AL"); ReturnChildKeys false; AddLiteralSegment (utf8 ([92] ++ map fold_case n_beta ++ [92; 92]))].
Example C74_example : (exists p, session demo_hive [] demo_tree p)
  /\ Forall2 says two_calls [[]; [Matching (text "^AL")]; []; [Name (map fold_case n_beta)]]
  /\ refused three_regexes two_calls = [] /\ setting root_flag two_calls = false /\ setting children_flag two_calls = false
  /\ match make_filter three_regexes two_calls with
     | inl q => map fst (filtered q false (preorder [] demo_tree)) = [[n_root; n_alpha; n_beta]]
     | inr _ => False
     end
  /\ make_filter three_regexes [AddRegexSegment (text "("); AddRegexSegment (text "^al"); AddRegexSegment (text "[")]
     = inr (text "Regex errors encountered: unknown: (, unknown: [").
Proof.
  split; [destruct demo_opens as (p & _ & S); now exists p|]. split.
  - constructor; [apply says_children|]. constructor; [apply says_regex|]. constructor; [apply says_children|]. constructor; [|constructor].
    apply (says_name 1 (map fold_case n_beta) 2); [|vm_compute; intuition discriminate].
    repeat (constructor; [left; vm_compute; reflexivity|]). constructor.
  - repeat (split; [vm_compute; reflexivity|]). vm_compute. reflexivity.
Qed.

(** The property as a user reads it - a regular expression selects the keys whose
    names it matches - is false of the code: the expression is put in lower case,
    too, and that turns the class of what is not a digit into that of digits. For
    every library, the filters made of them are the same. *)
Definition digits : reg_query := add_regex_segment empty_query (existsb is_digit).
Theorem C74_classes_refuted :
  (forall compile, make_filter compile [AddRegexSegment (text "\D")] = make_filter compile [AddRegexSegment (text "\d")])
  /\ make_filter three_regexes [AddRegexSegment (text "\D")] = inl digits
  /\ In [n_root; n_alpha] (map fst (preorder [] demo_tree)) /\ existsb (fun c => negb (is_digit c)) n_alpha = true
  /\ exists p, build keep 0 no_hash false false demo_hive [] = Ok p /\ iterate 10 p (Some digits) false false false = Ok [].
Proof.
  split; [reflexivity|]. split; [vm_compute; reflexivity|]. split; [vm_compute; tauto|]. split; [vm_compute; reflexivity|].
  refine (checked _ (fun p => match iterate 10 p (Some digits) false false false with Ok [] => true | _ => false end) _ _ _); [|vm_compute; reflexivity].
  intros p H. destruct (iterate 10 p (Some digits) false false false) as [[|k r]| | |]; try discriminate H. reflexivity.
Qed.
Print Assumptions C74_classes_refuted.
