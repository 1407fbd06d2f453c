(** * Property C14, continued: the filters of compare_container, and booleans in lists. *)
From Coq Require Import String List Bool ZArith Lia.
From Verif Require Import PyStr PyVal CompareContainer SpecJson SpecCompareFilter CompareFilterFacts.
Import ListNotations.
Open Scope string_scope.

(** entries whose keys are not looked at (excluded, or not included) do not change where differences are
    reported, nor whether the comparison raises *)
Theorem C14_filters (include exclude : list string) (a a' b b' : json) :
  alike include exclude a a' -> alike include exclude b b' ->
  rmap (map fst) (compare_container a b exclude include) = rmap (map fst) (compare_container a' b' exclude include).
Proof. intros A B. exact (alike_compare include exclude _ _ "" a a' b b' A B (Nat.lt_succ_diag_r _) (Nat.lt_succ_diag_r _)). Qed.
Print Assumptions C14_filters.

(** a list of booleans and a list of the integers equal to them have no difference *)
Theorem C14_booleans_are_integers (bs : list bool) :
  compare_container (JList (map JBool bs)) (JList (map (fun b => JInt (Z.b2z b)) bs)) [] [] = Ok [].
Proof. exact (bools_ints bs). Qed.
Print Assumptions C14_booleans_are_integers.

(** a nested entry with an excluded key differs, and is added: only the difference at [a] is reported *)
Example C14_filters_example :
  let a := JDict [("a", JInt 1); ("in", JDict [("skip", JInt 1); ("t", JNull)])] in
  let b := JDict [("a", JInt 2); ("in", JDict [("skip", JInt 2); ("t", JNull)]); ("skip", JNull)] in
  let b' := JDict [("a", JInt 2); ("in", JDict [("t", JNull)])] in
  alike [] ["skip"] b b' /\ b <> b'
  /\ compare_container a b ["skip"] [] = Ok [("a", WValue (JInt 1) (JInt 2))]
  /\ compare_container a b [] ["in"; "t"] = Ok []
  /\ compare_container a b [] [] = Ok [("skip", WKey); ("a", WValue (JInt 1) (JInt 2)); ("in/skip", WValue (JInt 1) (JInt 2))].
Proof.
  cbn zeta. split; [|split; [discriminate|split; [reflexivity|split; reflexivity]]].
  apply al_dict. cbn. constructor; [split; [reflexivity|apply al_same]|]. constructor; [|constructor]. split; [reflexivity|].
  apply al_dict. cbn. constructor; [split; [reflexivity|apply al_same]|constructor].
Qed.
