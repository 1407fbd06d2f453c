(** * Specification vocabulary for JSON documents. *)
From Coq Require Import String List Bool ZArith QArith Permutation.
From Verif Require Import PyVal.
Import ListNotations.
Close Scope Q_scope. Open Scope string_scope. Open Scope nat_scope.

(** a real Python value: no dict has two entries with the same key *)
Fixpoint wf_json (j : json) : Prop :=
  match j with
  | JList l => fold_right (fun x P => wf_json x /\ P) True l
  | JDict d => NoDup (map fst d) /\ fold_right (fun kv P => wf_json (snd kv) /\ P) True d
  | _ => True
  end.

Definition scalar (j : json) : Prop :=
  match j with JList _ | JDict _ => False | _ => True end.
Definition dictionary (j : json) : Prop := match j with JDict _ => True | _ => False end.

(** the numeric value of a bool, int or float *)
Definition number (j : json) (q : Q) : Prop :=
  match j with
  | JBool b => q = (if b then 1 else 0)
  | JInt z => q = inject_Z z
  | JFloat p => q = p
  | _ => False
  end%Q.

(** scalars Python considers equal: identical, or numbers of the same value *)
Definition same_scalar (a b : json) : Prop :=
  scalar a /\ scalar b /\ (a = b \/ exists p q, number a p /\ number b q /\ (p == q)%Q).

(** equality of documents up to dict order and up to reordering of lists without dicts *)
Inductive jequiv : json -> json -> Prop :=
| je_scalar a b : same_scalar a b -> jequiv a b
| je_dict d e :
    (forall k, In k (map fst d) <-> In k (map fst e)) ->
    (forall k x y, In (k, x) d -> In (k, y) e -> jequiv x y) ->
    jequiv (JDict d) (JDict e)
| je_list l m : Forall2 jequiv l m -> jequiv (JList l) (JList m)
| je_list_reordered l m m' :
    Forall (fun x => ~ dictionary x) l -> Permutation m m' -> Forall2 jequiv l m' ->
    jequiv (JList l) (JList m).

(** [reordered a b]: [b] is [a] with dict entries permuted anywhere and lists of scalars permuted *)
Inductive reordered : json -> json -> Prop :=
| ro_scalar a : scalar a -> reordered a a
| ro_dict d e e' :
    Permutation e e' ->
    Forall2 (fun kx ky => fst kx = fst ky /\ reordered (snd kx) (snd ky)) d e' ->
    reordered (JDict d) (JDict e)
| ro_list l m : Forall2 reordered l m -> reordered (JList l) (JList m)
| ro_scalars l m : Forall scalar l -> Permutation l m -> reordered (JList l) (JList m).

(** two values of the same Python type *)
Definition same_type (a b : json) : Prop :=
  match a, b with
  | JNull, JNull | JBool _, JBool _ | JInt _, JInt _ | JFloat _, JFloat _
  | JStr _, JStr _ | JList _, JList _ | JDict _, JDict _ => True
  | _, _ => False
  end.
Definition orderable (j : json) : Prop :=
  match j with JNull | JList _ => False | _ => True end.

(** every list is homogeneous, and its elements are strings, numbers, booleans or dicts unless it has
    at most one element *)
Fixpoint homogeneous (j : json) : Prop :=
  match j with
  | JList l =>
      (forall x y, In x l -> In y l -> same_type x y) /\
      (1 < length l -> Forall orderable l) /\
      fold_right (fun x P => homogeneous x /\ P) True l
  | JDict d => fold_right (fun kv P => homogeneous (snd kv) /\ P) True d
  | _ => True
  end.
