(** * [deref] on the objects of Swagger 2.0 documents that refer to each other. *)
From Coq Require Import String List Bool Arith.
From Verif Require Import PyStr PyVal Jp UrlLib Urls Obj Classes_v2_0 Store App Main Conv20 Up30 Whole Follow.
Import ListNotations.
Open Scope string_scope. Open Scope nat_scope.

Section FollowAll.
  (** [st]: the store when [NormalizeRef] and [Resolve] have run on all documents *)
  Variables (path2url abspath : string -> string) (st : store sobj).
  (** [attrs.ref_obj] of an object [o] of the document at [u] -- v2_0/scanner/resolve.py:37-48 -- and the document
      it belongs to: [resolve_obj] (base.py:265-332) takes the object from the store, where all references of the
      documents have been loaded before (C78, C87_noted).  The object was noted when its document was scanned; here it is
      looked up in the store as it is in the end. *)
  Definition noted_all (u : string) (o : obj) : option (string * obj) :=
    match normalized v20_table u o with
    | Ok (Some n) =>
        match split path2url abspath n with
        | Ok (u', jp) => match store_get so_resolve st u' jp "2.0" with Ok (Some x) => Some (u', so_obj x) | _ => None end
        | Err _ => None
        end
    | _ => None
    end.
  Definition label_all_eqb (x y : string * (option string * option string)) : bool := String.eqb (fst x) (fst y) && label_eqb (snd x) (snd y).
  (** [deref(obj)] -- pyopenapi/utils.py:151-166, with [CycleGuard] -- utils.py:101-113.  As in Follow.v, objects are
      the same if they are in the same document, with the same pointer and text of the reference. *)
  Fixpoint deref_all_loop (fuel : nat) (seen : list (string * (option string * option string))) (u : string) (cur : obj) : res obj :=
    match fuel with
    | O => Err OutOfFuel
    | S f =>
        match oattr v20_table cur "ref" with
        | Err AttributeError => Ok cur
        | Err e => Err e
        | Ok (OPrim JNull) => Ok cur
        | Ok _ =>
            match noted_all u cur with
            | None => Ok cur
            | Some (u', nxt) => if existsb (label_all_eqb (u', label nxt)) seen then Err CycleDetectionError else deref_all_loop f ((u', label nxt) :: seen) u' nxt
            end
        end
    end.
  (** the 2.0 objects in the store, each with the url it is stored under; more steps than there are objects in them
      are not needed *)
  Definition stored20 : list (string * obj) :=
    flat_map (fun uc => flat_map (fun pc => match lookup "2.0" (snd pc) with Some o => [(fst uc, so_obj o)] | None => [] end) (snd uc)) (s_objs st).
  Definition stored_size : nat := list_sum (map (fun x => Main.osize (snd x)) stored20).
  Definition deref_all (u : string) (o : obj) : res obj := deref_all_loop (S (S stored_size)) [(u, label o)] u o.
  (** the conversion of an object of version 2.0 -- versions/v3_0_0/main.py:17-46 -- with what the scanners of 2.0 have noted *)
  Definition conversion_all (o : sobj) (url jp : string) (ovr : override) : res (sobj * routes) :=
    conversion20 (deref_all url) (normalized_in url) o url jp ovr.
End FollowAll.
