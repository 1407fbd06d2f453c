(** * Specification vocabulary for the references of a document. *)
From Coq Require Import String List Bool.
From Verif Require Import PyStr PyVal UrlLib Urls Obj SpecObj Store App.
Import ListNotations.
Open Scope string_scope.

(** what a program asked for that was answered, in order, with the state before and the answer *)
Fixpoint requests {A} (ask : query -> M (sobj * string)) (p : prog A) (a : app) : list (app * query * (sobj * string)) :=
  match p with
  | Done _ => []
  | Ask q k => match ask q a with (a', Ok x) => (a, q, x) :: requests ask (k x) a' | _ => [] end
  | Cache o url jp v k => match set_obj o url jp v a with (a', Ok _) => requests ask k a' | _ => [] end
  | Routes url v rs k => match put_routes url v rs a with (a', Ok _) => requests ask k a' | _ => [] end
  | Original k => requests ask (k (a_original a)) a
  | Under url jp v k => match get_under url jp v false a with (a', Ok x) => requests ask (k (overrides x)) a' | _ => [] end
  end.

(** [declared_slot T o ks b]: the class of the object [o] declares that at [ks] below it -- a child, or
    an element of a list or map child -- there is something built by [b] *)
Inductive declared_slot (T : ctable) : obj -> list string -> builder -> Prop :=
| ds_child c p s kids cd ch b : lookup c T = Some cd -> In ch (c_children cd) -> ch_builder ch = b \/ ch_builder ch = BBoolElse b ->
    declared_slot T (OObj c p s kids) [ch_name ch] b
| ds_element c p s kids cd ch b k : lookup c T = Some cd -> In ch (c_children cd) -> ch_builder ch = BListOf b \/ ch_builder ch = BMapOf b ->
    declared_slot T (OObj c p s kids) [ch_name ch; k] b.
(** what may stand at the place [ts] of the tree [root], where there is an object of class [c]: a
    Reference stands for what its slot declares, every other object for itself *)
Definition expected_at (T : ctable) (root : obj) (ts : list string) (c : string) (b : builder) : Prop :=
  if String.eqb c "Reference"
  then exists us ks owner b', ts = (us ++ ks)%list /\ within root us owner /\ declared_slot T owner ks b /\ b = BRefElse "Reference" b'
  else b = BCls c.
(** what is written in place of a reference [ref] to something found at the location [new]: a pointer
    into the same document stays a pointer, to where it is now; every other reference becomes the
    location *)
Definition written_for (path2url abspath : string -> string) (ref new ref' : string) : Prop :=
  if startswith "#" ref then exists url, split path2url abspath new = Ok (url, ref') else ref' = new.
