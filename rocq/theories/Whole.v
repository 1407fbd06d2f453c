(** * The conversions as used by the upgrade modules: Up12.v and Up30.v put into Main.v. *)
From Coq Require Import String List Bool.
From Verif Require Import PyStr PyVal Obj Classes_v1_2 Classes_v2_0 Classes_v3_0_0 Store App Conv20 Up12 Up30.
Import ListNotations.
Open Scope string_scope.

(** 1.2 -> 2.0 -- versions/v2_0/main.py:16-26; [sep]: [app.sep] *)
Definition conversion12 (sep : string) (o : sobj) : res sobj :=
  rmap (fun x => mk_sobj "2.0" x []) (upgrade12 sep (so_obj o) (so_apis o)).
(** 2.0 -> 3.0.0 -- versions/v3_0_0/main.py:17-46; [deref] and [normalized_ref] read attributes set by the
    scanners when the 2.0 object was prepared *)
Definition conversion20 (deref : obj -> res obj) (normalized_ref : obj -> res json) (o : sobj) (url jp : string) (ovr : override) : res (sobj * routes) :=
  rmap (fun x => (mk_sobj "3.0.0" (fst x) [], snd x)) (upgrade30_over deref normalized_ref (so_obj o) url jp ovr).
