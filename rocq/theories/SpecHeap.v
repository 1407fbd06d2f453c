(** * Specification vocabulary for objects with identity. *)
From Coq Require Import String List Bool Arith.
From Verif Require Import PyStr PyVal Obj Heap.
Import ListNotations.
Open Scope string_scope.

(** [reads S h v o]: the value [v] on the heap [h], followed through the objects it holds, is the tree
    [o]; all objects met belong to the set [S] *)
Inductive reads (S : nat -> Prop) (h : heap) : hval -> obj -> Prop :=
| r_prim j : reads S h (HPrim j) (OPrim j)
| r_obj n c p s ks pa kids : S n -> nth_error h n = Some (mk_cell (HObj c) p s ks pa) -> reads_all S h ks kids -> reads S h (HRef n) (OObj c p s kids)
| r_list n b p s ks pa kids : S n -> nth_error h n = Some (mk_cell (HList b) p s ks pa) -> reads_all S h ks kids ->
    map fst kids = map nat_dec (seq 0 (List.length kids)) -> reads S h (HRef n) (OList b p (map snd kids))
| r_map n b p s ks pa kids : S n -> nth_error h n = Some (mk_cell (HMap b) p s ks pa) -> reads_all S h ks kids -> reads S h (HRef n) (OMap b p kids)
with reads_all (S : nat -> Prop) (h : heap) : list (string * hval) -> list (string * obj) -> Prop :=
| ra_nil : reads_all S h [] []
| ra_cons k v o ks os : reads S h v o -> reads_all S h ks os -> reads_all S h ((k, v) :: ks) ((k, o) :: os).
Scheme reads_mut := Induction for reads Sort Prop with reads_all_mut := Induction for reads_all Sort Prop.

(** the object [n] holds the value [v] under the name (position, key) [k] *)
Definition holds (h : heap) (n : nat) (k : string) (v : hval) : Prop := exists c, nth_error h n = Some c /\ In (k, v) (h_kids c).
(** following names from the object [n] leads to the object [m] *)
Inductive leads (h : heap) : nat -> list string -> nat -> Prop :=
| l_here n : leads h n [] n
| l_step n k m ts m' : holds h n k (HRef m) -> leads h m ts m' -> leads h n (k :: ts) m'.
Definition is_container (h : heap) (n : nat) : Prop := exists c, nth_error h n = Some c /\ match h_kind c with HObj _ => False | _ => True end.
Definition is_empty_container (h : heap) (n : nat) : Prop := is_container h n /\ exists c, nth_error h n = Some c /\ h_kids c = [].
(** following parents [i] times *)
Fixpoint ancestor (h : heap) (i : nat) (n : nat) : option nat :=
  match i with
  | O => Some n
  | S i' => match get_parent h n with Some p => ancestor h i' p | None => None end
  end.
(** two heaps that differ in nothing but parents, as far as the first one goes *)
Definition unchanged (h h' : heap) : Prop :=
  forall n c, nth_error h n = Some c -> exists c', nth_error h' n = Some c' /\ h_kind c' = h_kind c /\ h_path c' = h_path c /\ h_spec c' = h_spec c /\ h_kids c' = h_kids c.
