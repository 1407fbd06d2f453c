(** * Properties C15-C25: the object system of pyopenapi/migration/spec/obj.py and the classes of the three versions. *)
From Coq Require Import String Ascii List Bool Arith ZArith.
From Verif Require Import PyStr PyVal Jp SpecJp Obj ObjState SpecJson SpecObj SpecTables Classes_v1_2 Classes_v2_0 Classes_v3_0_0
  ObjFacts ShapeFacts StateFacts StateFacts2 ResolveFacts ObjCompare SpecCompare SpecOverride Cache SpecCache CacheFacts TablesFacts PropertiesObjAux.
Import ListNotations.
Open Scope string_scope.

(** ** C15: fields *)

(** reading a declared field, under its name or alias *)
Theorem C15_read (T : ctable) (c name : string) (o : inst) (f : fielddef) (d : list (string * json)) :
  repo_table T -> lookup c T = Some (i_class o) -> names_field (i_class o) name f -> i_spec o = JDict d ->
  inst_get T o name =
  match lookup (f_name f) d with
  | Some v => if f_restricted f then Err PyException else Ok (OPrim v)
  | None => if f_required f then Err PyException else Ok (OPrim (f_default f))
  end.
Proof. exact (fun R E N D => read_initial T o name f d (repo_unamb T c _ R E) N D). Qed.
(** after any history of writes the value is the one written last, under whichever name *)
Theorem C15_last_write_wins (T : ctable) (c m name : string) (v : json) (o : inst) (f : fielddef) (d : list (string * json))
    (before after : list (string * json)) :
  repo_table T -> lookup c T = Some (i_class o) -> i_spec o = JDict d ->
  names_field (i_class o) name f -> names_field (i_class o) m f -> f_readonly f = false -> f_restricted f = false ->
  (forall n x, In (n, x) after -> ~ names_field (i_class o) n f) ->
  inst_get T (writes o (before ++ (m, v) :: after)) name = Ok (OPrim v).
Proof. exact (fun R E => read_after_writes T o before m v after name f d (repo_unamb T c _ R E)). Qed.
(** writes to other names, and writes to a read-only field, change nothing *)
Theorem C15_other_fields_unchanged (T : ctable) (c name : string) (o : inst) (f : fielddef) (ws : list (string * json)) :
  repo_table T -> lookup c T = Some (i_class o) -> names_field (i_class o) name f ->
  (f_readonly f = true \/ forall n v, In (n, v) ws -> ~ names_field (i_class o) n f) ->
  inst_get T (writes o ws) name = inst_get T o name.
Proof. exact (fun R E => read_unwritten T o ws name f (repo_unamb T c _ R E)). Qed.
Theorem C15_readonly_write_raises (T : ctable) (c name : string) (o : inst) (f : fielddef) (v : json) :
  repo_table T -> lookup c T = Some (i_class o) -> names_field (i_class o) name f -> f_readonly f = true ->
  inst_set o name v = Err AttributeError.
Proof. exact (fun R E N Ro => readonly_raises o name f v (repo_unamb T c _ R E) N Ro). Qed.
(** attributes that live beside the document: the value written last under that name, else what was
    there before, else the declared default, whatever else is written *)
Theorem C15_internal_last_write_wins (T : ctable) (c name : string) (v dflt : json) (o : inst) (before after : list (string * json)) :
  repo_table T -> lookup c T = Some (i_class o) -> lookup name (c_internal (i_class o)) = Some dflt ->
  (forall x, ~ In (name, x) after) ->
  inst_get T (writes o (before ++ (name, v) :: after)) name = Ok (OPrim v).
Proof. exact (fun R E => internal_written T o before v after name dflt (repo_unamb T c _ R E)). Qed.
Theorem C15_internal_unwritten (T : ctable) (c name : string) (dflt : json) (o : inst) (ws : list (string * json)) :
  repo_table T -> lookup c T = Some (i_class o) -> lookup name (c_internal (i_class o)) = Some dflt ->
  (forall x, ~ In (name, x) ws) ->
  inst_get T (writes o ws) name = Ok (OPrim (match lookup name (i_internal o) with Some v => v | None => dflt end)).
Proof. exact (fun R E => internal_unwritten T o ws name dflt (repo_unamb T c _ R E)). Qed.
Print Assumptions C15_internal_last_write_wins.
Print Assumptions C15_internal_unwritten.
Print Assumptions C15_read.
Print Assumptions C15_last_write_wins.
Print Assumptions C15_other_fields_unchanged.
Print Assumptions C15_readonly_write_raises.
Example C15_example :
  let o := mk_inst v30_Reference None (JDict [("$ref", JStr "#/a")]) [] [] [] in
  lookup "Reference" v30_table = Some (i_class o) /\
  names_field (i_class o) "ref" (mk_field "$ref" true JNull false false) /\
  inst_get v30_table o "ref" = Ok (OPrim (JStr "#/a")) /\
  inst_get v30_table (writes o [("ref", JStr "#/b"); ("other", JInt 1)]) "$ref" = Ok (OPrim (JStr "#/b")) /\
  inst_get v30_table (mk_inst v30_Info None (JDict []) [] [] []) "title" = Err PyException /\
  inst_set (mk_inst v30_Info None (JDict []) [] [] []) "title" (JStr "x") = Err AttributeError.
Proof. repeat split; apply (nf_alias v30_Reference "ref" (mk_field "$ref" true JNull false false)); now left. Qed.

(** ** C16: load then dump *)
Theorem C16_load_dump (T : ctable) (c : string) (j : json) (path : option string) :
  repo_table T -> wf_json j -> conforms T (BCls c) j ->
  exists o v, construct T j (BCls c) path [] = Ok o /\ dump T o = Ok v /\ same_doc v j.
Proof. exact (load_dump T c j path). Qed.
Print Assumptions C16_load_dump.
Definition C16_doc : json :=
  JDict [("type", JStr "object"); ("properties", JDict [("id", JDict [("type", JStr "integer")])]); ("required", JList [JStr "id"])].
Example C16_example : wf_json C16_doc /\ conforms v20_table (BCls "Schema") C16_doc /\
  rmap (dump v20_table) (construct v20_table C16_doc (BCls "Schema") (Some "#") []) =
  Ok (Ok (JDict [("properties", JDict [("id", JDict [("type", JStr "integer")])]); ("required", JList [JStr "id"]); ("type", JStr "object")])).
Proof. split; [|split]; [exact (wf_jsonb_ok C16_doc eq_refl)|exact (conformsb_ok v20_table C16_doc (BCls "Schema") 9 eq_refl)|reflexivity]. Qed.

(** ** C17: dump, reload, dump *)
Theorem C17_v2_reload (c : string) (j w : json) (p p' : option string) (o : obj) :
  construct v20_table j (BCls c) p [] = Ok o -> dump v20_table o = Ok w ->
  exists o', construct v20_table w (BCls c) p' [] = Ok o' /\ dump v20_table o' = Ok w.
Proof. exact (reload_dump_norequired v20_table c j p p' o w rt_v20 v20_norequired). Qed.
(** in every version the reload can only fail on a required child that the dump does not contain *)
Theorem C17_reload (T : ctable) (c : string) (j w : json) (p p' : option string) (o : obj) :
  repo_table T -> construct T j (BCls c) p [] = Ok o -> dump T o = Ok w ->
  match construct T w (BCls c) p' [] with
  | Ok o' => dump T o' = Ok w
  | Err e => e = FieldNotExist
  end.
Proof. exact (reload_dump_weak T c j p p' o w). Qed.
Print Assumptions C17_v2_reload.
Print Assumptions C17_reload.
(** and it does fail in 3.0.0 *)
Theorem C17_v3_reload_refuted : exists c j o w,
  construct v30_table j (BCls c) (Some "#") [] = Ok o /\ dump v30_table o = Ok w /\
  construct v30_table w (BCls c) (Some "#") [] = Err FieldNotExist.
Proof.
  exists "RequestBody", (JDict [("content", JDict [])]). do 2 eexists. split; [reflexivity|]. split; reflexivity.
Qed.
Print Assumptions C17_v3_reload_refuted.
Example C17_example :
  let j := JDict [("properties", JDict []); ("title", JNull); ("type", JStr "object"); ("x-extra", JInt 1)] in
  exists o, construct v20_table j (BCls "Schema") (Some "#") [] = Ok o /\ dump v20_table o = Ok (JDict [("type", JStr "object")]).
Proof. eexists. split; reflexivity. Qed.

(** ** C18: what dump contains *)
Theorem C18_dump_entries (T : ctable) (c : string) (cd : classdef) (p : option string) (d : list (string * json))
    (kids : list (string * obj)) (w : json) :
  repo_table T -> lookup c T = Some cd -> dump T (OObj c p (JDict d) kids) = Ok w ->
  exists e, w = JDict e /\ NoDup (map fst e) /\
  forall k v, In (k, v) e <->
    (exists ch kid, In ch (c_children cd) /\ ch_name ch = k /\ lookup k kids = Some kid /\ truthy_obj kid = true /\ dump T kid = Ok v)
    \/ (exists f, In f (c_fields cd) /\ f_name f = k /\ lookup k d = Some v /\ v <> JNull).
Proof. exact (fun R => dump_entries T c cd p d kids w (repo_wd T R)). Qed.
(** a boolean where a schema is allowed (additionalProperties): [false] is lost, [true] cannot be dumped *)
Theorem C18_boolean_child (T : ctable) (c : string) (cd : classdef) (j : list (string * json)) (p : option string) (o : obj)
    (ch : childdef) (b : builder) (v : bool) (w : json) :
  repo_table T -> lookup c T = Some cd -> construct T (JDict j) (BCls c) p [] = Ok o ->
  In ch (c_children cd) -> ch_builder ch = BBoolElse b -> lookup (ch_name ch) j = Some (JBool v) -> dump T o = Ok w ->
  v = false /\ exists e, w = JDict e /\ lookup (ch_name ch) e = None.
Proof. exact (bool_child_dump T c cd j p o ch b v w). Qed.
Print Assumptions C18_dump_entries.
Print Assumptions C18_boolean_child.
(** the content of a 3.0.0 Header is never dumped *)
Theorem C18_header_content_lost (j : list (string * json)) (p : option string) (o : obj) (w : list (string * json)) :
  construct v30_table (JDict j) (BCls "Header") p [] = Ok o -> dump v30_table o = Ok (JDict w) -> lookup "content" w = None.
Proof. exact (header_content_lost j p o w). Qed.
Print Assumptions C18_header_content_lost.
Example C18_example :
  let load j := construct v20_table j (BCls "Schema") (Some "#") [] in
  rmap (dump v20_table) (load (JDict [("additionalProperties", JBool false); ("x-a", JInt 1); ("title", JNull); ("allOf", JList [])])) = Ok (Ok (JDict []))
  /\ rmap (dump v20_table) (load (JDict [("additionalProperties", JBool true)])) = Ok (Err AttributeError)
  /\ In (mk_child "additionalProperties" (BBoolElse (BCls "Schema")) false) (c_children v20_Schema)
  /\ rmap (dump v30_table) (construct v30_table (JDict [("content", JDict [("a", JDict [])]); ("description", JStr "x")]) (BCls "Header") None [])
     = Ok (Ok (JDict [("description", JStr "x")])).
Proof. split; [reflexivity|]. split; [reflexivity|]. split; [cbn; tauto|reflexivity]. Qed.

(** ** C19: resolve *)
Theorem C19_resolve_is_pointer_evaluation (T : ctable) (b b' : builder) (j j' : json) (ts : list string) (base : string) (o : obj) :
  repo_table T -> base <> "" -> construct T j b (Some base) [] = Ok o -> addresses T b j ts b' j' ->
  jget j ts j' /\ exists o', construct T j' b' (Some (jp_join ts (Some base))) [] = Ok o' /\ within o ts o' /\
                             (~ primitive o' -> resolve T o ts = Ok o').
Proof. exact (resolve_addressed T b j ts b' j' base o). Qed.
(** below a field the raw document is followed *)
Theorem C19_resolve_into_field (T : ctable) (ts us : list string) (j v w : json) (b : builder) (base p : option string) (o : obj)
    (c : string) (cd : classdef) (d : list (string * json)) (kids : list (string * obj)) (f : fielddef) :
  repo_table T -> construct T j b base [] = Ok o ->
  within o ts (OObj c p (JDict d) kids) -> lookup c T = Some cd -> In f (c_fields cd) -> f_restricted f = false ->
  lookup (f_name f) d = Some v -> jget v us w -> resolve T o (ts ++ f_name f :: us)%list = Ok (OPrim w).
Proof. exact (resolve_field T ts j b base o c cd p d kids f v us w). Qed.
(** and a pointer that leads nowhere raises; but behind a scalar any further pieces are ignored *)
Theorem C19_resolve_below_field_missing (T : ctable) (ts us more : list string) (k : string) (j v w : json) (b : builder)
    (base p : option string) (o : obj) (c : string) (cd : classdef) (d : list (string * json)) (kids : list (string * obj)) (f : fielddef) :
  repo_table T -> construct T j b base [] = Ok o ->
  within o ts (OObj c p (JDict d) kids) -> lookup c T = Some cd -> In f (c_fields cd) -> f_restricted f = false ->
  lookup (f_name f) d = Some v -> jget v us w ->
  (forall e, w = JDict e -> lookup k e = None -> resolve T o (ts ++ f_name f :: us ++ k :: more)%list = Err KeyError) /\
  (forall l i, w = JList l -> index_text i k -> (List.length l <= i)%nat -> resolve T o (ts ++ f_name f :: us ++ k :: more)%list = Err IndexError) /\
  ((forall e, w <> JDict e) -> (forall l, w <> JList l) -> resolve T o (ts ++ f_name f :: us ++ k :: more)%list = Ok (OPrim w)).
Proof. exact (resolve_field_missing T ts j b base o c cd p d kids f v us w k more). Qed.
Print Assumptions C19_resolve_below_field_missing.
Theorem C19_string_elements_raise (T : ctable) (j : json) (b : builder) (base : option string) (o o1 : obj) (ts : list string) (k s : string) :
  repo_table T -> construct T j b base [] = Ok o -> within o ts o1 ->
  (match o1 with OList _ _ _ | OMap _ _ _ => True | _ => False end) -> within o1 [k] (OPrim (JStr s)) ->
  resolve T o (ts ++ [k])%list = Err AttributeError.
Proof. exact (string_elements_raise T j b base o ts o1 k s). Qed.
Print Assumptions C19_resolve_is_pointer_evaluation.
Print Assumptions C19_resolve_into_field.
Print Assumptions C19_string_elements_raise.
Example C19_example :
  addresses v20_table (BCls "Schema") C16_doc ["properties"; "id"] (BCls "Schema") (JDict [("type", JStr "integer")]) /\
  match construct v20_table C16_doc (BCls "Schema") (Some "#") [] with
  | Ok o => rmap get_path (resolve v20_table o ["properties"; "id"]) = Ok (Some "#/properties/id")
            /\ resolve v20_table o ["required"; "0"] = Ok (OPrim (JStr "id"))
            /\ resolve v20_table o ["properties"; "id"; "type"] = Ok (OPrim (JStr "integer"))
            /\ resolve v20_table o ["required"; "1"; "x"] = Err IndexError
            /\ resolve v20_table o ["required"; "0"; "x"] = Ok (OPrim (JStr "id"))
  | Err _ => False
  end.
Proof.
  split; [|repeat split]. refine (ad_child v20_table _ "Schema" v20_Schema _ (mk_child "properties" (BMapOf (BCls "Schema")) false) _ _ _ _ (dn_cls _ _) _ _ _ _ _);
    [reflexivity|cbn; tauto|reflexivity|discriminate|].
  refine (ad_key v20_table _ (BCls "Schema") _ "id" _ [] _ _ (dn_map _ _) _ (ad_here _ _ _)). reflexivity.
Qed.

(** ** C20: every object knows its pointer *)
Theorem C20_own_pointer (T : ctable) (j : json) (b : builder) (o o' : obj) (ts : list string) :
  repo_table T -> construct T j b (Some "#") [] = Ok o -> within o ts o' -> ~ primitive o' ->
  exists p, get_path o' = Some p /\ p = jp_join ts (Some "#") /\ jp_split p = "#" :: ts /\ resolve T o ts = Ok o'.
Proof. exact (own_pointer T j b o ts o'). Qed.
Print Assumptions C20_own_pointer.
Example C20_example :
  match construct v20_table (JDict [("paths", JDict [("/a/{b}", JDict [("get", JDict [])])])]) (BCls "Swagger") (Some "#") [] with
  | Ok o => exists o', within o ["paths"; "/a/{b}"; "get"] o' /\ get_path o' = Some "#/paths/~1a~1{b}/get"
  | Err _ => False
  end.
Proof.
  cbn. eexists. split; [eapply wi_child; [reflexivity|]; eapply wi_key; [reflexivity|]; eapply wi_child; [reflexivity|]; constructor|].
  reflexivity.
Qed.

(** ** C21: merge_children *)
Theorem C21_merge (T : ctable) (c : string) (cd : classdef) (p p2 : option string) (s s2 : json) (kids kids2 : list (string * obj)) (m : obj) :
  repo_table T -> lookup c T = Some cd ->
  merge_children T (OObj c p s kids) (OObj c p2 s2 kids2) = Ok m ->
  (forall ch, In ch (c_children cd) -> exists a b, getattr T (OObj c p s kids) (ch_name ch) = Ok a /\
      getattr T (OObj c p2 s2 kids2) (ch_name ch) = Ok b /\
      getattr T m (ch_name ch) = Ok (if truthy_obj a then a else if truthy_obj b then b else a)) /\
  (forall name f, names_field cd name f -> getattr T m name = getattr T (OObj c p s kids) name) /\
  get_path m = p /\
  merge_children T m (OObj c p2 s2 kids2) = Ok m.
Proof. exact (merge_spec T c cd p s kids p2 s2 kids2 m). Qed.
Theorem C21_raises (T : ctable) (c : string) (cd : classdef) (p p2 : option string) (s s2 : json) (kids kids2 : list (string * obj)) :
  repo_table T -> lookup c T = Some cd ->
  ((exists e, merge_children T (OObj c p s kids) (OObj c p2 s2 kids2) = Err e) <->
   exists ch a j, In ch (c_children cd) /\ getattr T (OObj c p s kids) (ch_name ch) = Ok a /\ truthy_obj a = false /\
                  getattr T (OObj c p2 s2 kids2) (ch_name ch) = Ok (OPrim j) /\ truthy j = true).
Proof. exact (merge_raises T c cd p s kids p2 s2 kids2). Qed.
(** on mutable objects: no object but the receiver is changed *)
Theorem C21_other_unchanged (fuel : nat) (h : heap) (a b x : addr) : x <> a -> at_ (fst (step fuel h (OpMerge a b))) x = at_ h x.
Proof. exact (merge_other_unchanged fuel h a b x). Qed.
Print Assumptions C21_merge.
Print Assumptions C21_raises.
Print Assumptions C21_other_unchanged.
Example C21_example :
  let load j := construct v20_table j (BCls "PathItem") None [] in
  match load (JDict [("get", JDict [("summary", JStr "mine")])]),
        load (JDict [("get", JDict [("summary", JStr "theirs")]); ("put", JDict [])]) with
  | Ok x, Ok y => match merge_children v20_table x y with
                  | Ok m => rmap (dump v20_table) (getattr v20_table m "get") = Ok (Ok (JDict [("summary", JStr "mine")]))
                            /\ rmap (dump v20_table) (getattr v20_table m "put") = Ok (Ok (JDict []))
                  | Err _ => False
                  end
  | _, _ => False
  end.
Proof. split; reflexivity. Qed.

(** ** C22: compare *)
Theorem C22_reflexive (T : ctable) (c : string) (j : json) (p base : option string) (o : obj) :
  repo_table T -> wf_json j -> construct T j (BCls c) p [] = Ok o -> readable T o ->
  exists loc, compare T o o base = Ok (true, loc).
Proof. exact (compare_reflexive T c j p o base). Qed.
(** a positive answer means: both trees have the same objects at the same locations, with fields that
    agree up to extra elements at the end of lists *)
Theorem C22_positive_answer (T : ctable) (c c' : string) (j j' : json) (p p' base : option string) (x y : obj) (loc : string) :
  repo_table T -> wf_json j -> wf_json j' ->
  construct T j (BCls c) p [] = Ok x -> construct T j' (BCls c') p' [] = Ok y -> compare T x y base = Ok (true, loc) ->
  (forall ts x1, within x ts x1 -> ~ primitive x1 -> exists y1, within y ts y1 /\ alike T x1 y1) /\
  (forall ts y1, within y ts y1 -> ~ primitive y1 -> exists x1, within x ts x1 /\ alike T x1 y1).
Proof. exact (compare_sound T c c' j j' p p' x y base loc). Qed.
Print Assumptions C22_reflexive.
Print Assumptions C22_positive_answer.
Definition C22_op (tags : list json) : res obj := construct v20_table (JDict [("tags", JList tags)]) (BCls "Operation") None [].
Definition C22_schema (req : list json) : res obj := construct v20_table (JDict [("required", JList req)]) (BCls "Schema") None [].
(** lists of strings are compared by their first element only *)
Theorem C22_string_lists_refuted : exists x y loc,
  C22_op [JStr "a"; JStr "b"] = Ok x /\ C22_op [JStr "a"; JStr "c"] = Ok y /\ compare v20_table x y None = Ok (true, loc).
Proof. do 3 eexists. split; [reflexivity|]. split; [reflexivity|]. reflexivity. Qed.
(** extra elements of the other object are ignored; missing ones raise *)
Theorem C22_raw_lists_refuted : exists x y loc,
  C22_schema [JStr "a"] = Ok x /\ C22_schema [JStr "a"; JStr "b"] = Ok y /\
  compare v20_table x y None = Ok (true, loc) /\ compare v20_table y x None = Err IndexError.
Proof. do 3 eexists. split; [reflexivity|]. split; [reflexivity|]. split; reflexivity. Qed.
(** an object without a required field cannot be compared, not even with itself *)
Theorem C22_required_field_refuted : exists x, construct v30_table (JDict []) (BCls "Info") None [] = Ok x /\
  compare v30_table x x None = Err PyException.
Proof. eexists. split; reflexivity. Qed.
Print Assumptions C22_string_lists_refuted.
Print Assumptions C22_raw_lists_refuted.
Print Assumptions C22_required_field_refuted.
Example C22_example :
  match construct v20_table C16_doc (BCls "Schema") None [],
        construct v20_table (JDict [("type", JStr "object"); ("properties", JDict [("id", JDict [("type", JStr "string")])])]) (BCls "Schema") None [] with
  | Ok x, Ok y => compare v20_table x x None = Ok (true, "") /\ compare v20_table x y None = Err IndexError
  | _, _ => False
  end.
Proof. split; reflexivity. Qed.

(** ** C23: the children listing over time *)

(** if every change to a container happens while no object enclosing it has been listed (since it was
    changed itself), every listing is exact *)
Theorem C23_listing_exact (fuel : nat) (h h' : heap) (os : list op) (a : addr) (r : listing) :
  (forall x n, at_ h x = Some n -> n_cache n = []) -> disciplined fuel h (fun _ => False) os ->
  step fuel (run fuel h os) (OpChildren a) = (h', Ok r) -> lists (run fuel h os) a r.
Proof. exact (fun H0 D => listing_exact fuel h os a H0 D h' r). Qed.
(** a listing that is not empty is repeated until the object itself is changed, whatever happens below *)
Theorem C23_listing_stale (fuel : nat) (h h1 : heap) (a : addr) (r : listing) (os : list op) :
  r <> [] -> step fuel h (OpChildren a) = (h1, Ok r) -> (forall o, In o os -> target o <> Some a) ->
  snd (step fuel (run fuel h1 os) (OpChildren a)) = Ok r.
Proof. exact (listing_repeated fuel h a h1 r os). Qed.
Print Assumptions C23_listing_exact.
Print Assumptions C23_listing_stale.
(** an object 0 with a list 1 of objects *)
Definition C23_heap : heap :=
  [mk_node (KObject ["tags"; "info"]) [("tags", VRef 1)] []; mk_node KListOf [("0", VRef 2)] []; mk_node (KObject []) [] []; mk_node (KObject []) [] []].
Example C23_stale_example :
  snd (step 5 (run 5 C23_heap [OpChildren 0; OpAppend 1 (VRef 3)]) (OpChildren 0)) = Ok [("tags/0", 2)] /\
  snd (step 5 (run 5 C23_heap [OpAppend 1 (VRef 3)]) (OpChildren 0)) = Ok [("tags/0", 2); ("tags/1", 3)].
Proof. split; reflexivity. Qed.
Example C23_disciplined_example :
  (forall x n, at_ C23_heap x = Some n -> n_cache n = []) /\
  disciplined 5 C23_heap (fun _ => False) [OpAppend 1 (VRef 3); OpChildren 0; OpAttach 0 "info" 2; OpChildren 0] /\
  snd (step 5 (run 5 C23_heap [OpAppend 1 (VRef 3); OpChildren 0; OpAttach 0 "info" 2]) (OpChildren 0))
  = Ok [("tags/0", 2); ("tags/1", 3); ("info", 2)].
Proof.
  split; [|split].
  - intros [|[|[|[|x]]]] n H; cbn in H; try (injection H as <-; reflexivity). destruct x; discriminate.
  - cbn. repeat split; try tauto. intros x n E. injection E as <-. intros En. exfalso. exact (object_not_enclosed _ _ _ En eq_refl).
  - reflexivity.
Qed.

(** ** C24: overrides *)
Theorem C24_override (T : ctable) (j : json) (L : locations) (b : builder) (p : option string) (o o' : obj) :
  repo_table T -> well_given L -> construct T j b p [] = Ok o -> construct T j b p (override_of L) = Ok o' ->
  (forall us x, In (us, x) L -> place T o us -> within o' us x) /\
  (forall ts v, (forall us x, In (us, x) L -> apart us ts) -> within o ts v <-> within o' ts v) /\
  (forall ts v, (forall us x, In (us, x) L -> ~ prefix us ts) -> within o ts v -> exists v', within o' ts v' /\ same_node v v').
Proof. exact (override_spec T j L b p o o'). Qed.
Theorem C24_override_total (T : ctable) (j : json) (L : locations) (b : builder) (p : option string) (o : obj) :
  repo_table T -> wf_json j -> well_given L -> construct T j b p [] = Ok o ->
  (forall us x, In (us, x) L -> place T o us) -> exists o', construct T j b p (override_of L) = Ok o'.
Proof. exact (override_total T j L b p o). Qed.
Print Assumptions C24_override.
Print Assumptions C24_override_total.
(** a location below a path (a token with "/") is not honoured, although the pointer is escaped properly *)
Theorem C24_escaped_pointer_refuted : exists j x o,
  jp_compose (SList ["paths"; "/a"; "get"]) None = Some "paths/~1a/get" /\ truthy_obj x = true /\
  construct v20_table j (BCls "Swagger") (Some "#") [] = Ok o /\
  (exists y, within o ["paths"; "/a"; "get"] y) /\
  construct v20_table j (BCls "Swagger") (Some "#") [("paths/~1a/get", x)] = Ok o.
Proof.
  pose (j := JDict [("paths", JDict [("/a", JDict [("get", JDict [])])])]).
  exists j, (OObj "Operation" None (JDict [("summary", JStr "mine")]) []), (match construct v20_table j (BCls "Swagger") (Some "#") [] with Ok o => o | Err _ => OPrim JNull end).
  split; [vm_compute; reflexivity|]. split; [reflexivity|]. split; [vm_compute; reflexivity|]. split; [|vm_compute; reflexivity].
  match goal with |- exists y, within ?o ?ts y => let o' := eval vm_compute in o in change (exists y, within o' ts y) end.
  eexists. eapply wi_child; [reflexivity|]. eapply wi_key; [reflexivity|]. eapply wi_child; [reflexivity|]. constructor.
Qed.
Print Assumptions C24_escaped_pointer_refuted.
Example C24_example :
  let x := OObj "Schema" None (JDict [("type", JStr "mine")]) [] in
  well_given [(["properties"; "id"], x); (["items"], x)] /\
  override_of [(["properties"; "id"], x); (["items"], x)] = [("properties/id", x); ("items", x)] /\
  rmap (dump v20_table) (construct v20_table C16_doc (BCls "Schema") (Some "#") [("properties/id", x); ("items", x)]) =
  Ok (Ok (JDict [("items", JDict [("type", JStr "mine")]); ("properties", JDict [("id", JDict [("type", JStr "mine")])]);
                 ("required", JList [JStr "id"]); ("type", JStr "object")])).
Proof. split; [apply well_givenb_ok; reflexivity|]. split; reflexivity. Qed.

(** ** C25: construction succeeds exactly on well-shaped documents *)
Theorem C25_construct_iff_shaped (T : ctable) (j : json) (b : builder) (path : option string) :
  (exists o, construct T j b path [] = Ok o) <-> shaped T b j.
Proof. exact (construct_shaped T j b path). Qed.
(** in particular [additionalProperties] may always be a boolean *)
Theorem C25_boolean_additional_properties (T : ctable) (d : list (string * json)) (v : bool) :
  T = v20_table \/ T = v30_table -> shaped T (BCls "Schema") (JDict d) ->
  shaped T (BCls "Schema") (JDict (dict_set "additionalProperties" (JBool v) d)).
Proof. exact (boolean_additional T d v). Qed.
Print Assumptions C25_boolean_additional_properties.
Print Assumptions C25_construct_iff_shaped.
Example C25_example :
  construct v20_table (JDict [("properties", JList [])]) (BCls "Schema") None [] = Err PyException /\
  construct v30_table (JDict [("description", JStr "x")]) (BCls "RequestBody") None [] = Err FieldNotExist /\
  (exists o, construct v20_table C16_doc (BCls "Schema") None [] = Ok o) /\
  (exists o, construct v20_table (JInt 3) (BCls "Contact") None [] = Ok o).
Proof. split; [reflexivity|]. split; [reflexivity|]. split; eexists; reflexivity. Qed.
