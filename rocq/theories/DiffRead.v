(** A unified diff determines the lines that it removes and adds. *)
From Coq Require Import String.
From Verif Require Import Base BaseFacts Util UtilSpec UtilText Types Value Node Parser TxLog TxSpec CellSpec TreeSpec
  Log Export ExportSpec ExportFacts Compare CompareSpec CompareFacts LogFacts ShowFacts.
Open Scope list_scope.

Lemma digits_no c d n : ~ digit c -> numeral d n -> ~ In c d.
Proof. intros C (_ & F & _) I. rewrite Forall_forall in F. exact (C (F c I)). Qed.
Lemma lines_back m : forall (a a' : list (list N)) s s', len a = len a' -> Forall (fun x => ~ In 10 x) a -> Forall (fun x => ~ In 10 x) a' ->
  flat_map (fun l => m ++ l ++ [10]) a ++ s = flat_map (fun l => m ++ l ++ [10]) a' ++ s' -> a = a' /\ s = s'.
Proof.
  induction a as [|x a IH]; intros [|x' a'] s s' L F F' E; unfold len in L; cbn [List.length] in L; try lia; [now split|].
  apply Forall_cons_iff in F as (F1 & F2). apply Forall_cons_iff in F' as (F1' & F2').
  cbn [flat_map] in E. rewrite <- !app_assoc in E. apply app_inv_head in E. cbn [app] in E. destruct (cut_unique 10 x x' _ _ F1 F1' E) as (-> & E2).
  destruct (IH a' s s') as (-> & ->); auto. unfold len. lia.
Qed.
Lemma number_back c a a' n n' s s' : ~ digit c -> numeral a n -> numeral a' n' -> a ++ c :: s = a' ++ c :: s' -> n = n' /\ s = s'.
Proof.
  intros C A A' E. destruct (cut_unique c a a' s s' (digits_no _ _ _ C A) (digits_no _ _ _ C A') E) as (-> & ->). split; [exact (numeral_one _ _ _ A A')|reflexivity].
Qed.
Lemma hunks_back l r s hs : hunks l r s hs -> forall l' r' hs', hunks l' r' s hs' -> hs = hs'.
Proof.
  induction 1 as [l r|l r a b c d h s hs A B C D NE F H IH]; intros l' r' hs' H'.
  - remember [] as z eqn:Z. destruct H'; [reflexivity|discriminate Z].
  - remember (text "@@ -" ++ a ++ text "," ++ b ++ text " +" ++ c ++ text "," ++ d ++ text " @@" ++ [10] ++ hunk_lines h ++ s) as z eqn:Z.
    destruct H' as [|l' r' a' b' c' d' h' s' hs' A' B' C' D' NE' F' H']; [discriminate Z|]. apply app_inv_head in Z. cbn [text app] in Z.
    assert (ND : ~ digit 44 /\ ~ digit 32) by (unfold digit; lia). destruct ND as (N1 & N2).
    change (text ",") with [44] in Z. change (text " +") with [32; 43] in Z. change (text " @@") with [32; 64; 64] in Z. cbn [app] in Z.
    destruct (number_back 44 _ _ _ _ _ _ N1 A' A Z) as (_ & Z1). destruct (number_back 32 _ _ _ _ _ _ N2 B' B Z1) as (EB & Z2). injection Z2 as Z2.
    destruct (number_back 44 _ _ _ _ _ _ N1 C' C Z2) as (_ & Z3). destruct (number_back 32 _ _ _ _ _ _ N2 D' D Z3) as (ED & Z4). injection Z4 as Z4.
    unfold hunk_lines in Z4. rewrite <- !app_assoc in Z4. apply Forall_app in F as (F1 & F2). apply Forall_app in F' as (F1' & F2').
    destruct (lines_back _ _ _ _ _ EB F1' F1 Z4) as (E1 & Z5). destruct (lines_back _ _ _ _ _ ED F2' F2 Z5) as (E2 & ->).
    rewrite (IH _ _ _ H'). destruct h, h'. cbn [fst snd] in *. now subst.
Qed.
Lemma diff_back r r' base comparison c c' : Forall (fun h => Forall (fun x => ~ In 10 x) (fst h ++ snd h)) (all_hunks r c) ->
  Forall (fun h => Forall (fun x => ~ In 10 x) (fst h ++ snd h)) (all_hunks r' c') ->
  write_diff r base comparison c = write_diff r' base comparison c' -> all_hunks r c = all_hunks r' c'.
Proof.
  intros F F' E. destruct (write_diff_hunks r base comparison c F) as (body & W & H). destruct (write_diff_hunks r' base comparison c' F') as (body' & W' & H').
  rewrite W, W' in E. repeat (apply app_inv_head in E). subst body'. exact (hunks_back _ _ _ _ H _ _ _ H').
Qed.
