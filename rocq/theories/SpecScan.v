(** * Specification vocabulary for traversal and dispatch. *)
From Coq Require Import String List Bool.
From Verif Require Import PyVal Obj SpecObj Scan.
Import ListNotations.
Open Scope string_scope.

Definition is_object (o : obj) : Prop := exists c p s kids, o = OObj c p s kids.
Definition is_container (o : obj) : Prop :=
  (exists b p es, o = OList b p es) \/ (exists b p es, o = OMap b p es).

(** [visible leaves root ts o]: [o] is the object at the location [ts] of the tree, and no object
    strictly above it is of a leaf class *)
Definition visible (leaves : list string) (root : obj) (ts : list string) (o : obj) : Prop :=
  within root ts o /\ is_object o /\
  forall us r c p s kids, ts = (us ++ r)%list -> r <> [] -> within root us (OObj c p s kids) -> ~ In c leaves.

(** no list or map of the tree has both objects and containers among its elements *)
Definition unmixed (root : obj) : Prop :=
  forall ts o k k' x y, within root ts o -> is_container o -> within o [k] x -> within o [k'] y ->
  is_object x -> is_container y -> False.
(** the location does not lead through a container that is an element of a container *)
Definition shallow (root : obj) (ts : list string) : Prop :=
  forall us k r x y, ts = (us ++ k :: r)%list -> within root us x -> is_container x -> within x [k] y -> is_container y -> False.

(** what [scan] has to do: one call *)
Record call {S R : Type} := mk_call { k_handler : handler S R; k_result : option (R -> S -> res S); k_path : string; k_obj : obj }.
Arguments call : clear implicits.
Definition perform {S R} (k : call S R) (s : S) : res S :=
  sr <- k_handler k (k_path k) (k_obj k) s ;;
  match k_result k with Some f => f (snd sr) (fst sr) | None => Ok (fst sr) end.
(** one after the other; an exception ends the scan *)
Fixpoint perform_all {S R} (ks : list (call S R)) (s : S) : res S :=
  match ks with [] => Ok s | k :: ks' => s' <- perform k s ;; perform_all ks' s' end.
(** registrations of a dispatcher class: handler and its target classes, in order *)
Definition registrations (S R : Type) := list (list string * handler S R).
(** the handlers registered for exactly this class, in registration order *)
Definition handlers_for {S R} (c : string) (regs : registrations S R) : list (handler S R) :=
  flat_map (fun tr => flat_map (fun t => if String.eqb t c then [snd tr] else []) (fst tr)) regs.
(** for every visited object, in order; for every route, in order; every handler of its class *)
Definition calls_for {S R} (visited : list (string * obj)) (routes : list (registrations S R * option (R -> S -> res S)))
  : list (call S R) :=
  flat_map (fun po =>
    match snd po with
    | OObj c _ _ _ => flat_map (fun rt => map (fun h => mk_call _ _ h (snd rt) (fst po) (snd po)) (handlers_for c (fst rt))) routes
    | _ => []
    end) visited.
(** the same along the classes an object's class derives from *)
Definition calls_along {S R} (mro : string -> list string) (visited : list (string * obj))
    (routes : list (registrations S R * option (R -> S -> res S))) : list (call S R) :=
  flat_map (fun po =>
    match snd po with
    | OObj c _ _ _ =>
        flat_map (fun rt => flat_map (fun c' => map (fun h => mk_call _ _ h (snd rt) (fst po) (snd po)) (handlers_for c' (fst rt))) (mro c)) routes
    | _ => []
    end) visited.
(** a route object whose first dispatcher (among its other attributes) got these registrations and
    this result function *)
Definition registered {S R} (is_base : string -> bool) (rt : registrations S R * option (R -> S -> res S)) (r : route S R) : Prop :=
  exists (before after : route S R) (d : dispatcher S R),
    foldM (fun d tr => register is_base d (fst tr) (snd tr)) (fst rt) empty_dispatcher = Ok d /\
    r = (before ++ Some (match snd rt with Some f => set_result d f | None => d end) :: after)%list /\
    (forall x, In x before -> x = None).
