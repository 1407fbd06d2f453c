(** * Objects with identity: construction on a heap, parents
    -- pyopenapi/migration/spec/obj.py:129-181 ([_Base], [get_parent], [set_parent]), 199-235, 345-382
       (containers), 535-552 (objects), 85-126 (the getter and setter of a child), 576-586
       ([merge_children]), 665-677 ([attach_child]).  Obj.v models the same constructors as trees;
       HeapFacts.v proves that both agree. *)
From Coq Require Import String List Bool Arith.
From Verif Require Import PyStr PyVal Jp Obj.
Import ListNotations.
Open Scope string_scope.

(** a value: a bare JSON value, or an object, by its number *)
Inductive hval := HPrim (j : json) | HRef (n : nat).
Inductive hkind := HObj (c : string) | HList (b : builder) | HMap (b : builder).
(** an object or container: its path, its document, what it holds ([children] of an object, the elements
    of a list under their positions, the elements of a map), its parent -- obj.py:131-134,201,353,543 *)
Record cell := mk_cell { h_kind : hkind; h_path : option string; h_spec : json; h_kids : list (string * hval); h_parent : option nat }.
Definition heap := list cell.

(** computations on the heap: what they did stays done when they raise *)
Definition M (A : Type) := heap -> heap * res A.
Definition ret {A} (x : A) : M A := fun h => (h, Ok x).
Definition raise {A} (e : exn) : M A := fun h => (h, Err e).
Definition bindM {A B} (m : M A) (f : A -> M B) : M B := fun h => match m h with (h', Ok x) => f x h' | (h', Err e) => (h', Err e) end.
Definition lift {A} (r : res A) : M A := fun h => (h, r).
Fixpoint set_nth {A} (n : nat) (f : A -> A) (l : list A) : list A :=
  match l, n with [], _ => [] | x :: l', O => f x :: l' | x :: l', S n' => x :: set_nth n' f l' end.
Definition with_parent (p : nat) (c : cell) : cell := mk_cell (h_kind c) (h_path c) (h_spec c) (h_kids c) (Some p).
Definition with_kids (kids : list (string * hval)) (c : cell) : cell := mk_cell (h_kind c) (h_path c) (h_spec c) kids (h_parent c).
Definition alloc (c : cell) : M nat := fun h => ((h ++ [c])%list, Ok (List.length h)).
(** [if hasattr(v, 'set_parent'): v.set_parent(p)] -- obj.py:177-178,232-233,379-380,674-675 *)
Definition set_parent (v : hval) (p : nat) : M unit := fun h => (match v with HRef n => set_nth n (with_parent p) h | HPrim _ => h end, Ok tt).
Definition set_kids (n : nat) (kids : list (string * hval)) : M unit := fun h => (set_nth n (with_kids kids) h, Ok tt).
(** [if v:]; containers have [__len__] -- obj.py:312,486 *)
Definition truthy_at (h : heap) (v : hval) : bool :=
  match v with
  | HPrim j => truthy j
  | HRef n => match nth_error h n with
              | Some c => match h_kind c with HObj _ => true | _ => match h_kids c with [] => false | _ => true end end
              | None => false
              end
  end.

(** overrides: pointer -> value (see Obj.v) -- obj.py:141-151,93-95,220-222,364-366 *)
Definition hover := list (string * hval).
Definition hovr_insert (first rest : string) (v : hval) (m : list (string * hover)) : list (string * hover) :=
  dict_set first (dict_set rest v (match lookup first m with Some o => o | None => [] end)) m.
Definition hsplit (ovr : hover) : res (list (string * hover)) :=
  foldM (fun m kv =>
           match jp_split_max (Some (fst kv)) (Some 1) with
           | [] => Err PyException
           | [t] => Ok (hovr_insert t "" (snd kv) m)
           | t :: t' :: _ => Ok (hovr_insert t t' (snd kv) m)
           end) ovr [].
Definition hovr_get (key : string) (m : list (string * hover)) : hover := match lookup key m with Some o => o | None => [] end.
Definition hovr_here (h : heap) (o : hover) : option hval :=
  match lookup "" o with Some v => if truthy_at h v then Some v else None | None => None end.
(** a slot: the overriding value if there is a truthy one, else what is built *)
Definition slot (ovr : hover) (build : M (option hval)) : M (option hval) :=
  fun h => match hovr_here h ovr with Some v => (h, Ok (Some v)) | None => build h end.

(** the loops of the constructors: every value is built and then told its parent; the elements of a
    container always ([always]), a child only if it is truthy -- obj.py:215-235,361-382,547-552 *)
Fixpoint adopt (n : nat) (always : bool) (items : list (string * M (option hval))) : M (list (string * hval)) :=
  match items with
  | [] => ret []
  | (key, item) :: items' =>
      bindM item (fun kid =>
      match kid with
      | None => adopt n always items'
      | Some v =>
          bindM (fun h => if always || truthy_at h v then set_parent v n h else (h, Ok tt)) (fun _ =>
          bindM (adopt n always items') (fun rest => ret ((key, v) :: rest)))
      end)
  end.
(** a new object: its number is there before its children are built *)
Definition construct_cell (kind : hkind) (path : option string) (spec : json) (items : list (string * M (option hval))) : M hval :=
  bindM (alloc (mk_cell kind path spec [] None)) (fun n =>
  bindM (adopt n (match kind with HObj _ => false | _ => true end) items) (fun kids =>
  bindM (set_kids n kids) (fun _ => ret (HRef n)))).
Definition some_of {A} (m : M A) : M (option A) := bindM m (fun x => ret (Some x)).

Section Build.
  Variable tbl : ctable.
  (** the constructor call [builder(j, path, ovr)] (cf. [construct] of Obj.v)
      -- obj.py:129-151,199-235,345-382,535-552,85-116.  Simplification: the cell is made after the checks
      of the arguments, and what an object holds is noted at the end of its construction, when its
      number is first known to others. *)
  Fixpoint hbuild (j : json) (b : builder) (path : option string) (ovr : hover) {struct j} : M hval :=
    match select b j with
    | Err e => raise e
    | Ok (KPrim v) => ret (HPrim v)
    | Ok KStr => match ovr with
                 | [] => match j with JStr _ => ret (HPrim j) | _ => raise PyException end
                 | _ => raise PyException
                 end
    | Ok (KList b') =>
        bindM (lift (hsplit ovr)) (fun m =>
        match j with
        | JList l =>
            construct_cell (HList b') path j
              ((fix go (i : nat) (l : list json) : list (string * M (option hval)) :=
                  match l with
                  | [] => []
                  | x :: l' => let key := nat_dec i in
                      (key, slot (hovr_get key m) (some_of (hbuild x b' (sub_path path key) (hovr_get key m)))) :: go (S i) l'
                  end) 0 l)
        | _ => raise PyException
        end)
    | Ok (KMap b') =>
        bindM (lift (hsplit ovr)) (fun m =>
        match j with
        | JDict d =>
            construct_cell (HMap b') path j
              ((fix go (d : list (string * json)) : list (string * M (option hval)) :=
                  match d with
                  | [] => []
                  | (key, x) :: d' => (key, slot (hovr_get key m) (some_of (hbuild x b' (sub_path path key) (hovr_get key m)))) :: go d'
                  end) d)
        | _ => raise PyException
        end)
    | Ok (KCls c) =>
        bindM (lift (hsplit ovr)) (fun m =>
        match lookup c tbl with
        | None => raise KeyError
        | Some cd =>
            construct_cell (HObj c) path j
              (map (fun ch => let key := ch_name ch in
                 (key, slot (hovr_get key m)
                   (match j with
                    | JDict d =>
                        (fix find (d : list (string * json)) : M (option hval) :=
                           match d with
                           | [] => if ch_required ch then raise FieldNotExist else ret None
                           | (k', x) :: d' =>
                               if String.eqb key k' then
                                 match x with
                                 | JNull => ret None
                                 | _ => some_of (hbuild x (ch_builder ch) (sub_path path key) (hovr_get key m))
                                 end
                               else find d'
                           end) d
                    | _ => bindM (lift (absent_child j ch)) (fun _ => ret None)
                    end))) (c_children cd))
        end)
    end.

  (** [get_parent()] -- obj.py:170-175 *)
  Definition get_parent (h : heap) (n : nat) : option nat := match nth_error h n with Some c => h_parent c | None => None end.
  (** [setattr(n, name, v)] of a declared child: the setter -- obj.py:118-124 *)
  Definition set_child (n : nat) (name : string) (v : hval) : M unit := fun h =>
    match v with
    | HPrim _ => (h, Err PyException)
    | HRef _ => (set_nth n (fun c => with_kids (dict_set name v (h_kids c)) c) h, Ok tt)
    end.
  (** [n.attach_child(name, v)] -- obj.py:665-677 *)
  Definition attach_child (n : nat) (name : string) (v : hval) : M unit := fun h =>
    match nth_error h n with
    | Some (mk_cell (HObj c) _ _ _ _) =>
        match lookup c tbl with
        | Some cd =>
            match find_child name (c_children cd) with
            | Some _ => bindM (set_child n name v) (fun _ => set_parent v n) h
            | None => (h, Err PyException)
            end
        | None => (h, Err KeyError)
        end
    | _ => (h, Err AttributeError)
    end.
  Definition kid_at (h : heap) (n : nat) (name : string) : hval :=
    match nth_error h n with Some c => match lookup name (h_kids c) with Some v => v | None => HPrim JNull end | None => HPrim JNull end.
  (** [n.merge_children(m)] -- obj.py:576-586 *)
  Fixpoint hmerge (cs : list childdef) (n m : nat) : M unit :=
    match cs with
    | [] => ret tt
    | ch :: cs' => fun h =>
        if truthy_at h (kid_at h n (ch_name ch)) then hmerge cs' n m h
        else let v := kid_at h m (ch_name ch) in
             if truthy_at h v then bindM (set_child n (ch_name ch) v) (fun _ => hmerge cs' n m) h else hmerge cs' n m h
    end.
  Definition merge_children_at (n m : nat) : M unit := fun h =>
    match nth_error h n, nth_error h m with
    | Some (mk_cell (HObj c) _ _ _ _), Some (mk_cell (HObj _) _ _ _ _) =>
        match lookup c tbl with Some cd => hmerge (c_children cd) n m h | None => (h, Err KeyError) end
    | _, _ => (h, Err NotImplementedError)
    end.
End Build.
