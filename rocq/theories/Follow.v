(** * [deref] on the objects of a Swagger 2.0 document that only refers to itself. *)
From Coq Require Import String List Bool Arith.
From Verif Require Import PyStr PyVal Jp UrlLib Urls Obj Classes_v2_0 Store App Main Conv20 Up30 Whole.
Import ListNotations.
Open Scope string_scope. Open Scope nat_scope.

Section Follow.
  Variables (path2url abspath : string -> string) (url : string) (root : obj).
  (** [attrs.normalized_ref] of an object, made by the scanner [NormalizeRef(url)] -- v2_0/scanner/norm_ref.py:17-43 *)
  Definition normalized_in (o : obj) : res json :=
    x <- normalized v20_table url o ;; match x with Some n => Ok (JStr n) | None => Err AttributeError end.
  (** [attrs.ref_obj], made by the scanner [Resolve(app)] -- v2_0/scanner/resolve.py:37-48 -- for an object of the
      document [root] at [url], with a reference into this document: [resolve_obj] (base.py:265-332) takes the
      object from the store, where the document is (C75_noted). *)
  Definition noted (o : obj) : option obj :=
    match normalized v20_table url o with
    | Ok (Some n) =>
        match split path2url abspath n with
        | Ok (u, jp) =>
            match store_get so_resolve (mk_store [(url, [("#", [("2.0", mk_sobj "2.0" root [])])])] [] ["1.2"; "2.0"; "3.0.0"]) u jp "2.0" with
            | Ok (Some x) => Some (so_obj x)
            | _ => None
            end
        | Err _ => None
        end
    | _ => None
    end.
  (** objects of one document are the same if they have the same pointer; the text of the reference is compared,
      too, so that objects made outside of the document are not taken for objects of it *)
  Definition label (o : obj) : option string * option string :=
    (get_path o, match oattr v20_table o "ref" with Ok (OPrim (JStr r)) => Some r | _ => None end).
  Definition opt_eqb (x y : option string) : bool :=
    match x, y with Some a, Some b => String.eqb a b | None, None => true | _, _ => false end.
  Definition label_eqb (x y : option string * option string) : bool := opt_eqb (fst x) (fst y) && opt_eqb (snd x) (snd y).
  (** [deref(obj)] -- pyopenapi/utils.py:151-166, with [CycleGuard] -- utils.py:101-113 *)
  Fixpoint deref_loop (fuel : nat) (seen : list (option string * option string)) (cur : obj) : res obj :=
    match fuel with
    | O => Err OutOfFuel
    | S f =>
        match oattr v20_table cur "ref" with
        | Err AttributeError => Ok cur
        | Err e => Err e
        | Ok (OPrim JNull) => Ok cur
        | Ok _ =>
            match noted cur with
            | None => Ok cur
            | Some nxt => if existsb (label_eqb (label nxt)) seen then Err CycleDetectionError else deref_loop f (label nxt :: seen) nxt
            end
        end
    end.
  Definition deref_in (o : obj) : res obj := deref_loop (S (S (Main.osize root))) [label o] o.
End Follow.

(** the conversion of a whole document to 3.0.0 -- versions/v3_0_0/main.py:17-46: [deref] reads what the scanners
    have noted on the objects of the same document *)
Definition conversion_in (path2url abspath : string -> string) (o : sobj) (url jp : string) (ovr : override) : res (sobj * routes) :=
  conversion20 (deref_in path2url abspath url (so_obj o)) (normalized_in url) o url jp ovr.
