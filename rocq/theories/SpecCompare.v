(** * Specification vocabulary for comparing objects. *)
From Coq Require Import String List Bool.
From Verif Require Import PyVal Obj SpecJson SpecObj.
Import ListNotations.
Open Scope string_scope.

(** [reads f s v]: the field [f] of an object with document [s] has the value [v] *)
Inductive reads (f : fielddef) : json -> json -> Prop :=
| rd_set d v : lookup (f_name f) d = Some v -> f_restricted f = false -> reads f (JDict d) v
| rd_default d : lookup (f_name f) d = None -> f_required f = false -> reads f (JDict d) (f_default f).

(** every field of every object in the tree can be read *)
Definition readable (tbl : ctable) (o : obj) : Prop :=
  forall ts c p s kids cd f, within o ts (OObj c p s kids) -> lookup c tbl = Some cd -> In f (c_fields cd) ->
  exists v, reads f s v.

(** equal up to dict order and up to additional elements at the end of lists on the right *)
Inductive agree : json -> json -> Prop :=
| ag_scalar a b : same_scalar a b -> agree a b
| ag_list l m :
    (forall i x, nth_error l i = Some x -> exists y, nth_error m i = Some y /\ agree x y) -> agree (JList l) (JList m)
| ag_dict d e :
    (forall k, In k (map fst d) <-> In k (map fst e)) ->
    (forall k x, In (k, x) d -> exists y, lookup k e = Some y /\ agree x y) -> agree (JDict d) (JDict e).

(** two objects of the same kind: same class and agreeing fields, lists of the same length, maps with
    the same keys *)
Inductive alike (tbl : ctable) : obj -> obj -> Prop :=
| al_object c p p' s s' kids kids' :
    (forall cd f v w, lookup c tbl = Some cd -> In f (c_fields cd) -> reads f s v -> reads f s' w -> agree v w) ->
    alike tbl (OObj c p s kids) (OObj c p' s' kids')
| al_list b p p' es es' : length es = length es' -> alike tbl (OList b p es) (OList b p' es')
| al_map b p p' es es' : (forall k, In k (map fst es) <-> In k (map fst es')) -> alike tbl (OMap b p es) (OMap b p' es').
