(** * Mutable objects and the cache of [get_children]. *)
From Coq Require Import String Ascii List Bool Arith.
From Verif Require Import PyStr PyVal Jp.
Import ListNotations.
Open Scope string_scope.

(** Objects live at addresses.  A child is a primitive or the address of an object; objects
    ([Base2Obj]) keep their children by name and list them in the order of [__children__]; lists and
    maps keep their elements by index text or key.  Every object has a cache for its listing.
    -- pyopenapi/migration/spec/obj.py:129-139,160-167,199-235,345-382,535-546 *)
Definition addr := nat.
Inductive value := VPrim (truthy : bool) | VRef (a : addr).
Inductive kind := KObject (children : list string) | KListOf | KMapOf.
Record node := mk_node { n_kind : kind; n_elems : list (string * value); n_cache : list (string * addr) }.
Definition heap := list node.
Definition listing := list (string * addr).

Definition at_ (h : heap) (a : addr) : option node := nth_error h a.
Fixpoint put (h : heap) (a : addr) (n : node) : heap :=
  match h, a with
  | [], _ => []
  | _ :: h', O => n :: h'
  | x :: h', S a' => x :: put h' a' n
  end.
Definition set_cache (h : heap) (a : addr) (c : listing) : heap :=
  match at_ h a with Some n => put h a (mk_node (n_kind n) (n_elems n) c) | None => h end.
Definition set_elems (h : heap) (a : addr) (es : list (string * value)) : heap :=
  match at_ h a with Some n => put h a (mk_node (n_kind n) es (n_cache n)) | None => h end.
(** [invalidate_children_cache] -- obj.py:163-164 *)
Definition invalidate (h : heap) (a : addr) : heap := set_cache h a [].

(** the children an object looks at, in order *)
Definition slots (n : node) : list (string * value) :=
  match n_kind n with
  | KObject names => flat_map (fun k => match lookup k (n_elems n) with Some v => [(k, v)] | None => [] end) names
  | _ => n_elems n
  end.
Definition is_object (h : heap) (a : addr) : bool :=
  match at_ h a with Some n => match n_kind n with KObject _ => true | _ => false end | None => false end.

(** names of the children found in a nested container: [jp_compose([name, child_name])] *)
Definition add_nested (name : string) (sub : listing) (acc : listing) : listing :=
  fold_left (fun acc kv => dict_set (jp_join [name; fst kv] None) (snd kv) acc) sub acc.

(** [get_children()] -- pyopenapi/migration/spec/obj.py:286-303,438-455,698-721.  It returns the cache
    if that is not empty; nested containers are asked in turn and keep their own cache.  Containers
    that contain themselves are out of scope (fuel). *)
Fixpoint get_children (fuel : nat) (h : heap) (a : addr) : res (listing * heap) :=
  match fuel with
  | O => Err OutOfFuel
  | S f =>
      match at_ h a with
      | None => Err AttributeError
      | Some n =>
          match n_cache n with
          | _ :: _ => Ok (n_cache n, h)
          | [] =>
              r <- foldM (fun (acc : listing * heap) kv =>
                            match snd kv with
                            | VPrim _ => Ok acc
                            | VRef b =>
                                if is_object (snd acc) b then Ok (dict_set (fst kv) b (fst acc), snd acc)
                                else s <- get_children f (snd acc) b ;;
                                     Ok (add_nested (fst kv) (fst s) (fst acc), snd s)
                            end) (slots n) ([], h) ;;
              Ok (fst r, set_cache (snd r) a (fst r))
          end
      end
  end.

(** [if v:] of a child; containers have a length *)
Definition truthy_value (h : heap) (v : value) : bool :=
  match v with
  | VPrim b => b
  | VRef a => match at_ h a with
              | Some n => match n_kind n, n_elems n with KObject _, _ => true | _, [] => false | _, _ => true end
              | None => false
              end
  end.
Definition child_of (h : heap) (a : addr) (k : string) : value :=
  match at_ h a with Some n => match lookup k (n_elems n) with Some v => v | None => VPrim false end | None => VPrim false end.

(** the operations on objects: listing, [attach_child] (obj.py:667-677), plain assignment of a child
    (obj.py:118-124), [append], [extend] of lists (obj.py:318-326), assignment of a map entry
    (obj.py:460-463), [merge_children] (obj.py:576-586) *)
Inductive op :=
| OpChildren (a : addr)
| OpAttach (a : addr) (name : string) (b : addr)
| OpAssign (a : addr) (name : string) (b : addr)
| OpAppend (a : addr) (v : value)
| OpExtend (a : addr) (vs : list value)
| OpSetItem (a : addr) (key : string) (v : value)
| OpMerge (a b : addr).

Definition append_to (es : list (string * value)) (v : value) : list (string * value) := (es ++ [(nat_dec (length es), v)])%list.
(** the loop of [merge_children]; the setter refuses a primitive, leaving the children assigned so far *)
Fixpoint merge_loop (h : heap) (a b : addr) (names : list string) : heap * bool :=
  match names with
  | [] => (h, true)
  | k :: names' =>
      if truthy_value h (child_of h a k) then merge_loop h a b names'
      else match child_of h b k with
           | VPrim true => (h, false)
           | VPrim false => merge_loop h a b names'
           | VRef c => if truthy_value h (VRef c)
                       then merge_loop (set_elems h a (dict_set k (VRef c) (match at_ h a with Some n => n_elems n | None => [] end))) a b names'
                       else merge_loop h a b names'
           end
  end.

(** one operation: the new heap and the value returned *)
Definition step (fuel : nat) (h : heap) (o : op) : heap * res listing :=
  match o with
  | OpChildren a => match get_children fuel h a with Ok (r, h') => (h', Ok r) | Err e => (h, Err e) end
  | OpAttach a k b =>
      match at_ h a with
      | Some n =>
          match n_kind n with
          | KObject names => if existsb (String.eqb k) names
                             then (invalidate (set_elems h a (dict_set k (VRef b) (n_elems n))) a, Ok [])
                             else (h, Err PyException)
          | _ => (h, Err AttributeError)
          end
      | None => (h, Err AttributeError)
      end
  | OpAssign a k b =>
      match at_ h a with
      | Some n =>
          match n_kind n with
          | KObject names => if existsb (String.eqb k) names
                             then (set_elems h a (dict_set k (VRef b) (n_elems n)), Ok [])
                             else (h, Err AttributeError)
          | _ => (h, Err AttributeError)
          end
      | None => (h, Err AttributeError)
      end
  | OpAppend a v =>
      match at_ h a with
      | Some n => match n_kind n with
                  | KListOf => (set_elems (invalidate h a) a (append_to (n_elems n) v), Ok [])
                  | _ => (h, Err AttributeError)
                  end
      | None => (h, Err AttributeError)
      end
  | OpExtend a vs =>
      match at_ h a with
      | Some n => match n_kind n with
                  | KListOf => (set_elems (invalidate h a) a (fold_left append_to vs (n_elems n)), Ok [])
                  | _ => (h, Err AttributeError)
                  end
      | None => (h, Err AttributeError)
      end
  | OpSetItem a k v =>
      match at_ h a with
      | Some n => match n_kind n with
                  | KMapOf => (set_elems (invalidate h a) a (dict_set k v (n_elems n)), Ok [])
                  | _ => (h, Err AttributeError)
                  end
      | None => (h, Err AttributeError)
      end
  | OpMerge a b =>
      match at_ h a with
      | Some n => match n_kind n with
                  | KObject names => let (h', ok) := merge_loop h a b names in
                                     if ok : bool then (invalidate h' a, Ok []) else (h', Err PyException)
                  | _ => (h, Err NotImplementedError)
                  end
      | None => (h, Err AttributeError)
      end
  end.
(** a history of operations; an operation that raises does not end it *)
Fixpoint run (fuel : nat) (h : heap) (os : list op) : heap :=
  match os with [] => h | o :: os' => run fuel (fst (step fuel h o)) os' end.
