(** * Specification vocabulary for construction with overrides. *)
From Coq Require Import String List.
From Verif Require Import PyVal Obj SpecObj SpecJp.
Import ListNotations.
Open Scope string_scope.

(** a reference token that needs no escaping and is not empty *)
Definition plain_token (t : string) : Prop := t <> "" /\ forall a b, t <> a ++ "/" ++ b /\ t <> a ++ "~" ++ b.

(** an override map given by locations: the pointer of a location is its tokens joined by "/" *)
Definition locations := list (list string * obj).
Definition override_of (L : locations) : override := map (fun e => (String.concat "/" (fst e), snd e)) L.

Definition prefix (us ts : list string) : Prop := exists r, ts = (us ++ r)%list.
(** neither location is above the other *)
Definition apart (us ts : list string) : Prop := ~ prefix us ts /\ ~ prefix ts us.
(** locations are non-empty lists of plain tokens, pairwise apart, and the objects are not empty containers *)
Definition well_given (L : locations) : Prop :=
  (forall us x, In (us, x) L -> us <> [] /\ (forall t, In t us -> plain_token t) /\ truthy_obj x = true)
  /\ ForallOrdPairs (fun a b => apart (fst a) (fst b)) L.

(** [o] and [o'] are the same node; their children may differ *)
Inductive same_node : obj -> obj -> Prop :=
| sn_prim j : same_node (OPrim j) (OPrim j)
| sn_obj c p s k k' : same_node (OObj c p s k) (OObj c p s k')
| sn_list b p l l' : length l = length l' -> same_node (OList b p l) (OList b p l')
| sn_map b p d d' : map fst d = map fst d' -> same_node (OMap b p d) (OMap b p d').

(** [us] is a place of [o] where an object can be put: an existing location, or a declared child of an
    object of the tree *)
Inductive place (tbl : ctable) (o : obj) : list string -> Prop :=
| pl_exists us x : within o us x -> place tbl o us
| pl_child us c cd p s kids ch : within o us (OObj c p s kids) -> lookup c tbl = Some cd -> In ch (c_children cd) ->
    place tbl o (us ++ [ch_name ch])%list.
