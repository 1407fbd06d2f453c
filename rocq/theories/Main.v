(** * Model of the upgrade modules: versions/v2_0/main.py, versions/v3_0_0/main.py and their scanners. *)
From Coq Require Import String Ascii List Bool Arith.
From Verif Require Import PyStr PyVal Jp UrlLib Urls Obj Classes_v1_2 Classes_v2_0 Classes_v3_0_0 Store Scan App.
Import ListNotations.
Open Scope string_scope. Open Scope nat_scope.

(** [getattr(o, name)] *)
Definition oattr (tbl : ctable) (o : obj) (name : string) : res obj :=
  match o with
  | OObj c p s kids => match lookup c tbl with None => Err KeyError | Some cd => getattr_ tbl cd p s kids name end
  | _ => Err AttributeError
  end.

(** what a handler of a [Resolve] scanner resolves, in order: the object itself, an attribute, the
    elements of a list attribute or the values of a map attribute; with the parser to use *)
Inductive target := Self (b : builder) | One (name : string) (b : builder) | Items (name : string) (b : builder) | Values (name : string) (b : builder).
Definition or_ref (c : string) : builder := BRefElse "Reference" (BCls c).
(** [Resolve] of 2.0 -- versions/v2_0/scanner/resolve.py:50-84 *)
Definition targets20 : list (string * list target) :=
  [("Schema", [Self (BCls "Schema")]);
   ("PathItem", [Self (BCls "PathItem"); Items "parameters" (or_ref "Parameter")]);
   ("Operation", [Items "parameters" (or_ref "Parameter"); Values "responses" (or_ref "Response")])].
(** [Resolve] of 3.0.0 -- versions/v3_0_0/scanner/resolve.py:72-234.  A boolean [additional_properties]
    is skipped there by a test, here because it is no Reference. *)
Definition targets30 : list (string * list target) :=
  [("PathItem", [Self (BCls "PathItem"); Items "parameters" (or_ref "Parameter")]);
   ("Schema", [Items "all_of" (or_ref "Schema"); Items "one_of" (or_ref "Schema"); Items "any_of" (or_ref "Schema");
               One "not_" (or_ref "Schema"); One "items" (or_ref "Schema"); Values "properties" (or_ref "Schema");
               One "additional_properties" (or_ref "Schema")]);
   ("Parameter", [One "schema" (or_ref "Schema"); Values "examples" (or_ref "Example")]);
   ("Header", [One "schema" (or_ref "Schema"); Values "examples" (or_ref "Example")]);
   ("Encoding", [Values "headers" (or_ref "Header")]);
   ("MediaType", [One "schema" (or_ref "Schema"); Values "examples" (or_ref "Example")]);
   ("Response", [Values "headers" (or_ref "Header"); Values "links" (or_ref "Link")]);
   ("Operation", [Items "parameters" (or_ref "Parameter"); One "request_body" (or_ref "RequestBody");
                  Values "responses" (or_ref "Response"); Values "callbacks" (BRefElse "Reference" (BMapOf (BCls "PathItem")))]);
   ("Components", [Values "schemas" (or_ref "Schema"); Values "responses" (or_ref "Response"); Values "parameters" (or_ref "Parameter");
                   Values "examples" (or_ref "Example"); Values "request_bodies" (or_ref "RequestBody"); Values "headers" (or_ref "Header");
                   Values "security_schemes" (or_ref "SecurityScheme"); Values "links" (or_ref "Link");
                   Values "callbacks" (BRefElse "Reference" (BMapOf (BCls "PathItem")))])].
(** the objects a target stands for: [enumerate(x or [])], [six.iteritems(x or {})] of something else
    than a list or map raises *)
Definition pick (tbl : ctable) (o : obj) (t : target) : res (list obj * builder) :=
  match t with
  | Self b => Ok ([o], b)
  | One name b => x <- oattr tbl o name ;; Ok ([x], b)
  | Items name b =>
      x <- oattr tbl o name ;;
      if truthy_obj x then match x with OList _ _ es => Ok (es, b) | OMap _ _ _ => Ok ([], b) | _ => Err TypeError end else Ok ([], b)
  | Values name b =>
      x <- oattr tbl o name ;;
      if truthy_obj x then match x with OMap _ _ es => Ok (map snd es, b) | _ => Err AttributeError end else Ok ([], b)
  end.
(** the objects visited by [scan]: enough fuel for the traversal is given by the size of the tree *)
Fixpoint osize (o : obj) : nat :=
  match o with
  | OPrim _ => 1
  | OObj _ _ _ kids => S ((fix go l := match l with [] => 0 | (_, x) :: l' => osize x + go l' end) kids)
  | OList _ _ es => S ((fix go l := match l with [] => 0 | x :: l' => osize x + go l' end) es)
  | OMap _ _ es => S ((fix go l := match l with [] => 0 | (_, x) :: l' => osize x + go l' end) es)
  end.

(** ** assigning [obj.ref]

    [obj.ref = new] writes the key "$ref" of the dict the object was made from -- spec/obj.py:34-39,57-75.
    The dicts of the objects above it contain this dict, so they change with it.  Which objects are
    written is given by their own pointers ([path]); an object without a pointer is never written. *)
Definition ref_updates := list (string * string).
Definition own_ref (u : ref_updates) (p : option string) (s : json) : json :=
  match p, s with
  | Some q, JDict d =>
      match lookup q u, lookup "$ref" d with Some r, Some (JStr _) => JDict (dict_set "$ref" (JStr r) d) | _, _ => s end
  | _, _ => s
  end.
(** what the value [j], from which [x] was made, is now *)
Fixpoint graft (x : obj) (j : json) : json :=
  match x with
  | OPrim _ => j
  | OObj _ _ s _ => match s with JDict _ => s | _ => j end
  | OList _ _ es =>
      match j with
      | JList l => JList ((fix go (es : list obj) (l : list json) := match es, l with e :: es', v :: l' => graft e v :: go es' l' | _, _ => l end) es l)
      | _ => j
      end
  | OMap _ _ es =>
      match j with
      | JDict d => JDict ((fix go (es : list (string * obj)) (d : list (string * json)) :=
                             match es with [] => d | (k, e) :: es' => match lookup k d with Some v => dict_set k (graft e v) (go es' d) | None => go es' d end end) es d)
      | _ => j
      end
  end.
Definition graft_kids (kids : list (string * obj)) (s : json) : json :=
  match s with
  | JDict d => JDict (fold_right (fun ke d' => match lookup (fst ke) d with Some v => dict_set (fst ke) (graft (snd ke) v) d' | None => d' end) d kids)
  | _ => s
  end.
Fixpoint rewrite_refs (u : ref_updates) (o : obj) : obj :=
  match o with
  | OPrim j => OPrim j
  | OObj c p s kids =>
      let kids' := (fix go l := match l with [] => [] | (k, x) :: l' => (k, rewrite_refs u x) :: go l' end) kids in
      OObj c p (own_ref u p (graft_kids kids' s)) kids'
  | OList b p es => OList b p ((fix go l := match l with [] => [] | x :: l' => rewrite_refs u x :: go l' end) es)
  | OMap b p es => OMap b p ((fix go l := match l with [] => [] | (k, x) :: l' => (k, rewrite_refs u x) :: go l' end) es)
  end.
Definition rewrite_sobj (u : ref_updates) (o : sobj) : sobj := mk_sobj (so_version o) (rewrite_refs u (so_obj o)) (so_apis o).

(** what follows in a module, given the assignments to [obj.ref] so far (latest first) *)
Definition cont := ref_updates -> prog (sobj * routes).

Section Main.
  Variables (path2url abspath : string -> string) (app_url : string).
  (** how many references of path items [Merge] follows for one path item *)
  Variable merge_fuel : nat.
  Definition visited (tbl : ctable) (o : obj) (k : list obj -> prog (sobj * routes)) : prog (sobj * routes) :=
    match default_tree_traversal tbl (osize o) o [] with Ok l => k (map snd l) | Err e => Done (Err e) end.

  (** [attrs.normalized_ref], made from [obj.ref] by the scanner [NormalizeRef(url)] -- v2_0/scanner/norm_ref.py:17-43,
      v3_0_0/scanner/norm_ref.py:13-34.  The attribute is computed when it is read: the scanner visits
      every object of the document before, and its exceptions come from [obj.ref] (see [normalize_all]). *)
  Definition normalized (tbl : ctable) (url : string) (o : obj) : res (option string) :=
    r <- oattr tbl o "ref" ;;
    match r with
    | OPrim (JStr r) => if truthy_str r then normalize_jr (Some r) (Some url) else Ok None
    | OPrim j => if truthy j then Err AttributeError else Ok None
    | _ => Err AttributeError
    end.
  Definition normalized_classes (V : string) : list string :=
    if String.eqb V "2.0" then ["Schema"; "Reference"; "PathItem"] else ["Reference"; "PathItem"].
  Definition normalize_all (V : string) (url : string) (os : list obj) : res unit :=
    foldM (fun _ o => match o with
                      | OObj c _ _ _ => if str_in c (normalized_classes V) then x <- normalized (table_of V) url o ;; Ok tt else Ok tt
                      | _ => Ok tt
                      end) os tt.

  (** [_resolve] of 2.0 -- v2_0/scanner/resolve.py:24-48: an object without [ref] is skipped; the
      attribute [ref_obj] is not represented, so a reference may be asked for again.  An object that
      cannot be resolved ends in an AttributeError (from [obj.normalized_ref], line 46). *)
  Definition resolve20 (url : string) (b : builder) (o : obj) (k : cont) : cont := fun u =>
    if truthy_obj o then
      match oattr (table_of "2.0") o "ref" with
      | Err AttributeError => k u
      | Err e => Done (Err e)
      | Ok r =>
          if truthy_obj r then
            match normalized (table_of "2.0") url o with
            | Ok (Some n) =>
                Ask (mk_query n "2.0" (Some ("2.0", b)) None true)
                    (fun x => if so_truthy (fst x) then k u else Done (Err AttributeError))
            | Ok None => Done (Err JsonReferenceError)
            | Err e => Done (Err e)
            end
          else k u
      end
    else k u.
  (** [_resolve] of 3.0.0 -- v3_0_0/scanner/resolve.py:37-70: only References and PathItems.  [obj.ref]
      becomes the pointer of the answer, if it was a pointer before, else the whole answer (lines 63-66).
      The attribute [normalized_ref] (line 68) is made from the new [obj.ref] when it is read again;
      [ref_obj] is not represented. *)
  Definition from30 (original : string) : string := if String.eqb original "3.0.0" then "3.0.0" else "2.0".
  Definition assigned (p : option string) (ref : string) (u : ref_updates) : ref_updates :=
    match p with Some q => (q, ref) :: u | None => u end.
  Definition new_ref (old new : string) : res string :=
    if startswith "#" old then rmap snd (split path2url abspath new) else Ok new.
  Definition resolve30 (url : string) (b : builder) (o : obj) (k : cont) : cont := fun u =>
    match o with
    | OObj c p _ _ =>
        if String.eqb c "Reference" || String.eqb c "PathItem" then
          match normalized (table_of "3.0.0") url o with
          | Err e => Done (Err e)
          | Ok None => if String.eqb c "Reference" then Done (Err JsonReferenceError) else k u
          | Ok (Some n) =>
              Original (fun original =>
                Ask (mk_query n (from30 original) (Some ("3.0.0", b)) (Some "3.0.0") true)
                    (fun x => if so_truthy (fst x) then
                                match oattr (table_of "3.0.0") o "ref" with
                                | Ok (OPrim (JStr old)) =>
                                    match new_ref old (snd x) with Ok r => k (assigned p r u) | Err e => Done (Err e) end
                                | _ => Done (Err AttributeError)
                                end
                              else Done (Err AttributeError)))
          end
        else k u
    | _ => k u
    end.
  Definition resolve_with (V : string) : string -> builder -> obj -> cont -> cont :=
    if String.eqb V "2.0" then resolve20 else resolve30.
  Definition targets_of (V c : string) : list target :=
    match lookup c (if String.eqb V "2.0" then targets20 else targets30) with Some ts => ts | None => [] end.
  Definition resolve_target (V url : string) (o : obj) (t : target) (k : cont) : cont :=
    match pick (table_of V) o t with
    | Err e => fun _ => Done (Err e)
    | Ok (os, b) => fold_right (resolve_with V url b) k os
    end.
  (** the scan with [Resolve(app)] *)
  Definition resolve_obj_refs (V url : string) (o : obj) (k : cont) : cont :=
    match o with OObj c _ _ _ => fold_right (resolve_target V url o) k (targets_of V c) | _ => k end.

  (** the loop of [_merge_path_item] -- versions/comm.py:22-42.  Identity of objects is replaced by
      their location; the merged object ([final_obj]) and errors of [merge_children] are not
      represented here (see MergePath.v). *)
  Fixpoint merge_chain (fuel : nat) (V : string) (seen : list (string * string)) (cur : string) (k : prog (sobj * routes)) : prog (sobj * routes) :=
    match fuel with
    | O => Done (Err OutOfFuel)
    | S f =>
        match split path2url abspath cur with
        | Err e => Done (Err e)
        | Ok (u, jp) =>
            let url := if truthy_str u then u else app_url in
            Original (fun original =>
              Ask (mk_query cur (if String.eqb V "2.0" then "2.0" else from30 original) (Some (V, BCls "PathItem")) (Some V) false)
                  (fun x =>
                     if so_truthy (fst x) then
                       if existsb (fun l => String.eqb (fst l) url && String.eqb (snd l) jp) seen then k
                       else match normalized (table_of V) url (so_obj (fst x)) with
                            | Err e => Done (Err e)
                            | Ok None => k
                            | Ok (Some n) => if truthy_str n then merge_chain f V ((url, jp) :: seen) n k else k
                            end
                     else Done (Err PyException)))
        end
    end.
  (** [Merge] -- v2_0/scanner/merge.py:19-25, v3_0_0/scanner/merge.py:19-27 *)
  Definition merge_obj (V url : string) (o : obj) (k : prog (sobj * routes)) : prog (sobj * routes) :=
    match o with
    | OObj c _ _ _ =>
        if String.eqb c "PathItem" then
          match normalized (table_of V) url o with
          | Err e => Done (Err e)
          | Ok None => k
          | Ok (Some n) => if truthy_str n then merge_chain merge_fuel V [] n k else k
          end
        else k
    | _ => k
    end.

  (** [upgrade(obj, app, jref)] of 2.0 -- versions/v2_0/main.py:13-49.  [from12] is the conversion of a
      1.2 object (the scanner [Upgrade]).  [YamlFixer] replaces the responses of operations by equal
      ones when their keys are strings (see YamlFix.v), and is left out. *)
  Variable from12 : sobj -> res sobj.
  Definition upgrade20 (o : sobj) (jref : string) : prog (sobj * routes) :=
    match (if String.eqb (so_version o) "1.2" then from12 o else Ok o) with
    | Err e => Done (Err e)
    | Ok o =>
        if String.eqb (so_version o) "2.0" then
          match split path2url abspath jref with
          | Err e => Done (Err e)
          | Ok (url, jp) =>
              Cache o url jp "2.0"
                (visited v20_table (so_obj o) (fun os =>
                   match normalize_all "2.0" url os with
                   | Err e => Done (Err e)
                   | Ok _ => Cache o url jp "2.0" (fold_right (resolve_obj_refs "2.0" url) (fun _ => fold_right (merge_obj "2.0" url) (Done (Ok (o, []))) os) os [])
                   end))
          end
        else Done (Err PyException)
    end.
  (** [upgrade(obj, app, jref)] of 3.0.0 -- versions/v3_0_0/main.py:17-66.  [from20] is the conversion
      of a 2.0 object (Up30.v).  The object in the store is the object itself: it is stored again when
      references were assigned. *)
  Variable from20 : sobj -> string -> string -> override -> res (sobj * routes).
  Definition finish30 (url jp : string) (o : sobj) (reloc : routes) : prog (sobj * routes) :=
    if String.eqb (so_version o) "3.0.0" then
      visited v30_table (so_obj o) (fun os =>
        match normalize_all "3.0.0" url os with
        | Err e => Done (Err e)
        | Ok _ =>
            Cache o url jp "3.0.0"
              (Routes url "3.0.0" [(jp, RMap reloc)]
                (fold_right (resolve_obj_refs "3.0.0" url)
                   (fun u => Cache (rewrite_sobj u o) url jp "3.0.0"
                               (fold_right (merge_obj "3.0.0" url) (Done (Ok (rewrite_sobj u o, reloc))) (map (rewrite_refs u) os))) os []))
        end)
    else Done (Err PyException).
  Definition upgrade300 (o : sobj) (jref : string) : prog (sobj * routes) :=
    match split path2url abspath jref with
    | Err e => Done (Err e)
    | Ok (url, jp) =>
        if String.eqb (so_version o) "2.0" then
          Under url jp "3.0.0" (fun ovr =>
            match from20 o url jp ovr with
            | Err e => Done (Err e)
            | Ok (o', reloc) => finish30 url jp o' reloc
            end)
        else finish30 url jp o []
    end.
  (** [upgrade] of 1.2 returns the object -- versions/v1_2/main.py *)
  Definition modules (v : string) : option (sobj -> string -> prog (sobj * routes)) :=
    if String.eqb v "1.2" then Some (fun o _ => Done (Ok (o, [])))
    else if String.eqb v "2.0" then Some upgrade20
    else if String.eqb v "3.0.0" then Some upgrade300
    else None.
End Main.
