(** * Model of pyopenapi/migration/scan.py. *)
From Coq Require Import String Ascii List Bool Arith.
From Verif Require Import PyStr PyVal Jp Obj.
Import ListNotations.
Open Scope string_scope.

(** ** traversal *)
Section Traverse.
  Variable tbl : ctable.

  (** [obj.__class__ not in leaves]; the leaves are given by class name *)
  Definition is_leaf (leaves : list string) (o : obj) : bool :=
    match o with OObj c _ _ _ => existsb (String.eqb c) leaves | _ => false end.
  (** the entries pushed for an object -- pyopenapi/migration/scan.py:17-20 *)
  Definition pushed (leaves : list string) (path : string) (o : obj) : list (string * obj) :=
    if is_leaf leaves o then []
    else map (fun i => (join "/" [path; fst i], snd i)) (get_children tbl o).

  (** the loop of [default_tree_traversal] -- pyopenapi/migration/scan.py:9-24.  [stack] is [objs]
      reversed: the Python list is popped at its end.  The objects are not changed during the
      traversal in this model. *)
  Fixpoint traverse (fuel : nat) (leaves : list string) (stack : list (string * obj)) : res (list (string * obj)) :=
    match stack with
    | [] => Ok []
    | (path, o) :: rest =>
        match fuel with
        | O => Err OutOfFuel
        | S f => r <- traverse f leaves (rev (pushed leaves path o) ++ rest)%list ;; Ok ((path, o) :: r)
        end
    end.
  Definition default_tree_traversal (fuel : nat) (root : obj) (leaves : list string) : res (list (string * obj)) :=
    traverse fuel leaves [("#", root)].
End Traverse.

(** ** dispatchers *)

(** A handler is called with the path and the object and may change the state [S] of its route object
    (and everything else); it returns a value or raises. *)
Section Dispatch.
  Context {S R : Type}.
  Definition handler := string -> obj -> S -> res (S * R).
  (** [Disp.obj_route] and [Disp.result_fn[0]] -- pyopenapi/migration/scan.py:27-45 *)
  Record dispatcher := mk_disp { d_route : list (string * list handler); d_result : option (R -> S -> res S) }.
  Definition empty_dispatcher : dispatcher := mk_disp [] None.

  (** [Disp.register(target_classes)(func)]: [cls.obj_route.setdefault(target_cls, []).append(func)]
      for every class in order; a class that is no [Base2Obj] raises ValueError
      -- pyopenapi/migration/scan.py:47-75.  [is_base] tells the subclasses of [Base2Obj]. *)
  Definition add_route (c : string) (h : handler) (r : list (string * list handler)) : list (string * list handler) :=
    dict_set c (match lookup c r with Some hs => hs | None => [] end ++ [h])%list r.
  Definition register (is_base : string -> bool) (d : dispatcher) (targets : list string) (h : handler) : res dispatcher :=
    r <- foldM (fun r c => if is_base c then Ok (add_route c h r) else Err ValueError) targets (d_route d) ;;
    Ok (mk_disp r (d_result d)).
  (** [Disp.result(func)] -- pyopenapi/migration/scan.py:77-84 *)
  Definition set_result (d : dispatcher) (f : R -> S -> res S) : dispatcher := mk_disp (d_route d) (Some f).

  (** a route object is given by [vars(route.__class__).values()]: dispatchers and other values *)
  Definition route := list (option dispatcher).
  (** [_build_route]: the first dispatcher of each route object -- pyopenapi/migration/scan.py:87-97 *)
  Fixpoint first_dispatcher (r : route) : option dispatcher :=
    match r with [] => None | Some d :: _ => Some d | None :: r' => first_dispatcher r' end.
  Definition build_route (routes : list route) : list dispatcher :=
    flat_map (fun r => match first_dispatcher r with Some d => [d] | None => [] end) routes.

  (** [_handle_cls_without_app], [_handle_cls] -- pyopenapi/migration/scan.py:100-116 *)
  Definition handle_cls (c path : string) (o : obj) (d : dispatcher) (s : S) : res S :=
    match lookup c (d_route d) with
    | None => Ok s
    | Some hs =>
        foldM (fun s h => sr <- h path o s ;;
                          match d_result d with Some f => f (snd sr) (fst sr) | None => Ok (fst sr) end) hs s
    end.

  Section Scan.
    Variable tbl : ctable.
    (** [scan(route, root, leaves=...)] -- pyopenapi/migration/scan.py:146-158; [root = None] raises *)
    Definition scan (fuel : nat) (routes : list route) (root : option obj) (leaves : list string) (s : S) : res S :=
      match root with
      | None => Err ValueError
      | Some o =>
          visited <- default_tree_traversal tbl fuel o leaves ;;
          foldM (fun s po =>
                   foldM (fun s d => match snd po with
                                     | OObj c _ _ _ => handle_cls c (fst po) (snd po) d s
                                     | _ => Ok s
                                     end) (build_route routes) s) visited s
      end.
    (** [Scanner(app).scan(...)]: handlers of the class and of its bases below [Base2Obj], in the
        order of [__mro__] -- pyopenapi/migration/scan.py:131-143.  [mro] gives those classes. *)
    Definition scanner_scan (mro : string -> list string) (fuel : nat) (routes : list route) (root : option obj)
               (leaves : list string) (s : S) : res S :=
      match root with
      | None => Err ValueError
      | Some o =>
          visited <- default_tree_traversal tbl fuel o leaves ;;
          foldM (fun s po =>
                   foldM (fun s d => match snd po with
                                     | OObj c _ _ _ => foldM (fun s c' => handle_cls c' (fst po) (snd po) d s) (mro c) s
                                     | _ => Ok s
                                     end) (build_route routes) s) visited s
      end.
  End Scan.
End Dispatch.
Arguments handler : clear implicits.
Arguments dispatcher : clear implicits.
Arguments route : clear implicits.
