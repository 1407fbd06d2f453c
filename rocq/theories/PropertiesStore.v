(** * Properties C29-C34: pyopenapi/migration/store.py. *)
From Coq Require Import String Ascii List Bool Arith.
From Verif Require Import PyStr PyVal Jp Obj Classes_v2_0 Store SpecStore StoreFacts StoreFacts2 UntilFacts.
Import ListNotations.
Open Scope string_scope. Open Scope nat_scope.

(** for the examples: objects of Swagger 2.0 *)
Definition is_spec_object (o : obj) : bool := match o with OPrim _ => false | _ => true end.
Definition x_info : obj := OObj "Info" (Some "#/info") (JDict [("title", JStr "t")]) [].
Definition x_pet : obj := OObj "Schema" (Some "#/definitions/Pet") (JDict [("type", JStr "object")]) [].
Definition x_owner : obj := OObj "Schema" (Some "#/definitions/PetOwner") (JDict [("type", JStr "string")]) [].
Definition x_map : obj := OMap (BCls "Schema") (Some "#/definitions") [("Pet", x_pet)].

(** ** C29: lookup *)
Theorem C29_nothing_cached (O : Type) (is_base : O -> bool) (resolve : O -> list string -> res O) (versions : list string)
    (calls : list (store_op O)) (url jp version : string) :
  (forall p o, live is_base calls url p version o -> ~ prefix_of p jp) ->
  store_get resolve (run_ops is_base versions calls) url jp version = Ok None.
Proof. exact (get_none is_base resolve versions calls url jp version). Qed.
Theorem C29_prefix_answers (O : Type) (is_base : O -> bool) (resolve : O -> list string -> res O) (versions : list string)
    (calls : list (store_op O)) (url jp version : string) :
  (exists p o, live is_base calls url p version o /\ prefix_of p jp) ->
  exists p o rest, live is_base calls url p version o /\ jp = (p ++ rest)%string /\
                   store_get resolve (run_ops is_base versions calls) url jp version = rmap Some (resolve o (tl (jp_split rest))).
Proof. exact (get_some is_base resolve versions calls url jp version). Qed.
(** the pointer to a descendant of the only matching object *)
Theorem C29_descendant (O : Type) (is_base : O -> bool) (resolve : O -> list string -> res O) (versions : list string)
    (calls : list (store_op O)) (url p : string) (tokens : list string) (version : string) (o : O) :
  p <> "" -> live is_base calls url p version o ->
  (forall p' o', live is_base calls url p' version o' -> prefix_of p' (jp_join tokens (Some p)) -> p' = p) ->
  store_get resolve (run_ops is_base versions calls) url (jp_join tokens (Some p)) version = rmap Some (resolve o tokens).
Proof. exact (get_pointer is_base resolve versions calls url p tokens version o). Qed.
Print Assumptions C29_nothing_cached.
Print Assumptions C29_prefix_answers.
Print Assumptions C29_descendant.
(** the object cached for Pet answers for PetOwner *)
Theorem C29_boundary_refuted :
  let calls := [SetOp x_pet "u" "#/definitions/Pet" "2.0"; SetOp x_owner "u" "#/definitions/PetOwner" "2.0"] in
  live is_spec_object calls "u" "#/definitions/PetOwner" "2.0" x_owner /\
  store_get (resolve v20_table) (run_ops is_spec_object ["2.0"] calls) "u" "#/definitions/PetOwner" "2.0" = Ok (Some x_pet).
Proof. split; [|vm_compute; reflexivity]. exists [SetOp x_pet "u" "#/definitions/Pet" "2.0"], []. split; [reflexivity|]. split; [reflexivity|]. intros ? []. Qed.
Print Assumptions C29_boundary_refuted.
Example C29_example :
  let calls := [SetOp x_info "u" "#/info" "2.0"; SetOp x_map "u" "#/definitions" "2.0"] in
  live is_spec_object calls "u" "#/definitions" "2.0" x_map /\
  store_get (resolve v20_table) (run_ops is_spec_object ["2.0"] calls) "u" (jp_join ["Pet"] (Some "#/definitions")) "2.0" = Ok (Some x_pet) /\
  store_get (resolve v20_table) (run_ops is_spec_object ["2.0"] calls) "u" "#/definitions/Pet" "3.0.0" = Ok None.
Proof. split; [|split; vm_compute; reflexivity]. exists [SetOp x_info "u" "#/info" "2.0"], []. split; [reflexivity|]. split; [reflexivity|]. intros ? []. Qed.

(** ** C30: isolation *)
(** calls about other urls never matter *)
Theorem C30_other_urls (O : Type) (is_base : O -> bool) (resolve : O -> list string -> res O) (versions : list string)
    (calls : list (store_op O)) (url jp version : string) :
  store_get resolve (run_ops is_base versions calls) url jp version =
  store_get resolve (run_ops is_base versions (filter (about url) calls)) url jp version.
Proof. exact (get_other_urls is_base resolve versions calls url jp version). Qed.
(** calls about other versions do not matter as long as at most one cached pointer matches *)
Theorem C30_other_versions (O : Type) (is_base : O -> bool) (resolve : O -> list string -> res O) (versions : list string)
    (calls : list (store_op O)) (url jp version : string) :
  (forall p p' o o', live is_base calls url p version o -> live is_base calls url p' version o' ->
                     prefix_of p jp -> prefix_of p' jp -> p = p') ->
  store_get resolve (run_ops is_base versions calls) url jp version =
  store_get resolve (run_ops is_base versions (filter (about_version url version) calls)) url jp version.
Proof. exact (get_other_versions is_base resolve versions calls url jp version). Qed.
(** what is cached for a version is never changed by a call about another one *)
Theorem C30_entries_by_version (O : Type) (is_base : O -> bool) (calls : list (store_op O)) (url jp version : string) (o : O) :
  live is_base (filter (about_version url version) calls) url jp version o <-> live is_base calls url jp version o.
Proof. exact (live_filter is_base calls url jp version o _ (fun p => touches_about is_base p url jp version)). Qed.
(** [live] is what the store holds *)
Theorem C30_history (O : Type) (is_base : O -> bool) (versions : list string) (calls : list (store_op O)) (url jp version : string) (o : O) :
  entry (run_ops is_base versions calls) url jp version = Some o <-> live is_base calls url jp version o.
Proof. exact (entry_live is_base versions calls url jp version o). Qed.
(** setting again replaces, and changes nothing else *)
Theorem C30_replace (O : Type) (is_base : O -> bool) (calls : list (store_op O)) (url p version : string) (o o' : O) :
  is_base o' = true -> (live is_base (calls ++ [SetOp o' url p version])%list url p version o <-> o = o').
Proof. exact (live_set is_base calls url p version o o'). Qed.
Theorem C30_replace_only (O : Type) (is_base : O -> bool) (calls : list (store_op O)) (url p version url' p' version' : string) (o o' : O) :
  (url', p', version') <> (url, p, version) ->
  (live is_base (calls ++ [SetOp o' url p version])%list url' p' version' o <-> live is_base calls url' p' version' o).
Proof. exact (live_set_other is_base calls url p version url' p' version' o o'). Qed.
Print Assumptions C30_other_urls.
Print Assumptions C30_other_versions.
Print Assumptions C30_entries_by_version.
Print Assumptions C30_history.
Print Assumptions C30_replace.
Print Assumptions C30_replace_only.
(** with two matching pointers, a call about another version can decide which of them answers *)
Theorem C30_two_matches_refuted :
  let calls := [SetOp x_info "u" "#/definitions/Pet" "3.0.0"; SetOp x_map "u" "#/definitions" "2.0"; SetOp x_owner "u" "#/definitions/Pet" "2.0"] in
  store_get (resolve v20_table) (run_ops is_spec_object ["2.0"; "3.0.0"] calls) "u" "#/definitions/Pet" "2.0" = Ok (Some x_owner) /\
  store_get (resolve v20_table) (run_ops is_spec_object ["2.0"; "3.0.0"] (filter (about_version "u" "2.0") calls)) "u" "#/definitions/Pet" "2.0" = Ok (Some x_pet).
Proof. split; vm_compute; reflexivity. Qed.
Print Assumptions C30_two_matches_refuted.
Example C30_example :
  let calls := [SetOp x_info "w" "#" "2.0"; SetOp x_map "u" "#/definitions" "2.0"; SetOp x_info "u" "#/definitions" "3.0.0"; UnderOp "w" "#" "2.0" true] in
  (forall p p' o o', live is_spec_object calls "u" p "2.0" o -> live is_spec_object calls "u" p' "2.0" o' ->
                     prefix_of p "#/definitions/Pet" -> prefix_of p' "#/definitions/Pet" -> p = p') /\
  store_get (resolve v20_table) (run_ops is_spec_object ["2.0"; "3.0.0"] calls) "u" "#/definitions/Pet" "2.0" = Ok (Some x_pet).
Proof.
  split; [|vm_compute; reflexivity]. intros p p' o o' L L' _ _.
  assert (K : forall q x, live is_spec_object [SetOp x_info "w" "#" "2.0"; SetOp x_map "u" "#/definitions" "2.0"; SetOp x_info "u" "#/definitions" "3.0.0"; UnderOp "w" "#" "2.0" true] "u" q "2.0" x -> q = "#/definitions").
  { intros q x (b & a & E & _ & _). do 4 (destruct b as [|? b]; cbn [app] in E; [inversion E; subst; congruence|apply (f_equal (@tl _)) in E; cbn [tl] in E]). now destruct b. }
  now rewrite (K _ _ L), (K _ _ L').
Qed.

(** ** C31: collecting and removing *)
(** every result is an object cached under the pointer, and every such object's key is present *)
Theorem C31_found (O : Type) (is_base : O -> bool) (versions : list string) (calls : list (store_op O)) (url jp version : string)
    (remove : bool) (ret : list (string * O)) :
  (remove = true -> jp <> "") ->
  snd (store_get_under (run_ops is_base versions calls) url jp version remove) = Ok (Some ret) ->
  (forall key o, lookup key ret = Some o -> exists p, live is_base calls url p version o /\ prefix_of jp p /\ key = sdrop (String.length jp + 1) p) /\
  (forall p o, live is_base calls url p version o -> prefix_of jp p -> exists o', lookup (sdrop (String.length jp + 1) p) ret = Some o').
Proof. exact (under_found is_base versions calls url jp version remove ret). Qed.
(** if all cached pointers under it go on with a slash, exactly those, keyed by the rest *)
Theorem C31_exact (O : Type) (is_base : O -> bool) (versions : list string) (calls : list (store_op O)) (url jp version : string)
    (remove : bool) (ret : list (string * O)) :
  (remove = true -> jp <> "") ->
  (forall p o, live is_base calls url p version o -> prefix_of jp p -> exists key, p = (jp ++ "/" ++ key)%string) ->
  snd (store_get_under (run_ops is_base versions calls) url jp version remove) = Ok (Some ret) ->
  forall key o, lookup key ret = Some o <-> live is_base calls url (jp ++ "/" ++ key)%string version o.
Proof. exact (under_keys is_base versions calls url jp version remove ret). Qed.
(** the same with any pointers whose keys differ (this includes an object at the pointer itself) *)
Theorem C31_exact_distinct (O : Type) (is_base : O -> bool) (versions : list string) (calls : list (store_op O)) (url jp version : string)
    (remove : bool) (ret : list (string * O)) :
  (remove = true -> jp <> "") ->
  (forall p p' o o', live is_base calls url p version o -> live is_base calls url p' version o' -> prefix_of jp p -> prefix_of jp p' ->
     sdrop (String.length jp + 1) p = sdrop (String.length jp + 1) p' -> p = p') ->
  snd (store_get_under (run_ops is_base versions calls) url jp version remove) = Ok (Some ret) ->
  forall key o, lookup key ret = Some o <-> exists p, live is_base calls url p version o /\ prefix_of jp p /\ key = sdrop (String.length jp + 1) p.
Proof. exact (under_exact is_base versions calls url jp version remove ret). Qed.
(** [None] is returned exactly if nothing was ever cached for the url *)
Theorem C31_none (O : Type) (is_base : O -> bool) (versions : list string) (calls : list (store_op O)) (url jp version : string) (remove : bool) :
  (remove = true -> jp <> "") ->
  (snd (store_get_under (run_ops is_base versions calls) url jp version remove) = Ok None <->
   forall o jp' version', is_base o = true -> ~ In (SetOp o url jp' version') calls).
Proof. exact (under_none is_base versions calls url jp version remove). Qed.
(** removal: these entries and no others *)
Theorem C31_removed (O : Type) (is_base : O -> bool) (versions : list string) (calls : list (store_op O)) (url jp version url' p' version' : string) (o : O) :
  jp <> "" ->
  (entry (fst (store_get_under (run_ops is_base versions calls) url jp version true)) url' p' version' = Some o <->
   entry (run_ops is_base versions calls) url' p' version' = Some o /\ ~ (url' = url /\ version' = version /\ prefix_of jp p')).
Proof. exact (fun H => iff_trans (entry_after_under is_base versions calls url jp version url' p' version' o H)
                                 (and_iff_compat_r _ (iff_sym (entry_live is_base versions calls url' p' version' o)))). Qed.
Theorem C31_kept (O : Type) (s : store O) (url jp version : string) : fst (store_get_under s url jp version false) = s.
Proof. exact (under_no_remove s url jp version). Qed.
Theorem C31_empty_pointer (O : Type) (s : store O) (url version : string) : store_get_under s url "" version true = (s, Err PyException).
Proof. exact eq_refl. Qed.
Print Assumptions C31_found.
Print Assumptions C31_exact.
Print Assumptions C31_exact_distinct.
Print Assumptions C31_none.
Print Assumptions C31_removed.
Print Assumptions C31_kept.
Print Assumptions C31_empty_pointer.
(** two objects under the pointer may fall on the same key: one is lost *)
Theorem C31_collision_refuted :
  let calls := [SetOp x_info "u" "#/a/x" "2.0"; SetOp x_pet "u" "#/abx" "2.0"] in
  store_get_under (run_ops is_spec_object ["2.0"] calls) "u" "#/a" "2.0" false = (run_ops is_spec_object ["2.0"] calls, Ok (Some [("x", x_pet)])).
Proof. vm_compute. reflexivity. Qed.
Print Assumptions C31_collision_refuted.
Example C31_example :
  let s := run_ops is_spec_object ["2.0"] [SetOp x_info "u" "#/info" "2.0"; SetOp x_pet "u" "#/definitions/Pet" "2.0"; SetOp x_owner "u" "#/definitions/PetOwner" "2.0"] in
  snd (store_get_under s "u" "#/definitions" "2.0" true) = Ok (Some [("Pet", x_pet); ("PetOwner", x_owner)]) /\
  entry (fst (store_get_under s "u" "#/definitions" "2.0" true)) "u" "#/info" "2.0" = Some x_info /\
  entry (fst (store_get_under s "u" "#/definitions" "2.0" true)) "u" "#/definitions/Pet" "2.0" = None.
Proof. repeat split. Qed.

(** ** C32: the newest version *)
Theorem C32_newest (O : Type) (is_base truthy : O -> bool) (resolve : O -> list string -> res O) (versions : list string)
    (calls : list (store_op O)) (url jp v : string) (until : option string) :
  ascending versions -> In v versions ->
  (match until with Some b => In b versions /\ version_le v b | None => True end) ->
  let s := run_ops is_base versions calls in
  match store_get_until truthy resolve s url jp v until with
  | Ok (Some (o, q, w)) =>
      in_range versions v until w /\ store_relocate s url jp v (Some w) = Ok q /\ store_get resolve s url q w = Ok (Some o) /\ truthy o = true /\
      (forall w', in_range versions v until w' -> version_lt w w' ->
         exists q', store_relocate s url jp v (Some w') = Ok q' /\ nothing truthy (store_get resolve s url q' w'))
  | Ok None =>
      forall w, in_range versions v until w -> exists q, store_relocate s url jp v (Some w) = Ok q /\ nothing truthy (store_get resolve s url q w)
  | Err e =>
      exists w q, in_range versions v until w /\ store_relocate s url jp v (Some w) = Ok q /\ store_get resolve s url q w = Err e /\
      (forall w', in_range versions v until w' -> version_lt w w' ->
         exists q', store_relocate s url jp v (Some w') = Ok q' /\ nothing truthy (store_get resolve s url q' w'))
  end.
Proof. exact (until_newest is_base truthy resolve versions calls url jp v until). Qed.
Theorem C32_unknown_version (O : Type) (truthy : O -> bool) (resolve : O -> list string -> res O) (s : store O) (url jp v : string) (until : option string) :
  ~ In v (s_versions s) -> store_get_until truthy resolve s url jp v until = Err ValueError.
Proof. exact (until_unknown truthy resolve s url jp v until). Qed.
Theorem C32_unknown_bound (O : Type) (truthy : O -> bool) (resolve : O -> list string -> res O) (s : store O) (url jp v b : string) :
  In v (s_versions s) -> ~ In b (s_versions s) -> b <> "" -> store_get_until truthy resolve s url jp v (Some b) = Err ValueError.
Proof. exact (until_unknown_bound truthy resolve s url jp v b). Qed.
Print Assumptions C32_newest.
Print Assumptions C32_unknown_version.
Print Assumptions C32_unknown_bound.
Lemma C32_versions : ascending ["1.2"; "2.0"; "3.0.0"].
Proof. repeat (constructor; [do 2 eexists; split; [vm_compute; reflexivity|]; split; [vm_compute; reflexivity|reflexivity]|]). econstructor. vm_compute. reflexivity. Qed.
Example C32_example :
  let calls := [SetOp x_pet "u" "#/definitions/Pet" "2.0"; RoutesOp "u" "3.0.0" [("#", RMap [("definitions", RStr "components/schemas")])];
                SetOp x_owner "u" "#/components/schemas/Pet" "3.0.0"] in
  store_get_until truthy_obj (resolve v20_table) (run_ops is_spec_object ["1.2"; "2.0"; "3.0.0"] calls) "u" "#/definitions/Pet" "2.0" None =
    Ok (Some (x_owner, "#/components/schemas/Pet", "3.0.0")) /\
  store_get_until truthy_obj (resolve v20_table) (run_ops is_spec_object ["1.2"; "2.0"; "3.0.0"] calls) "u" "#/definitions/Pet" "2.0" (Some "2.0") =
    Ok (Some (x_pet, "#/definitions/Pet", "2.0")).
Proof. split; vm_compute; reflexivity. Qed.

(** ** C33: relocation *)
(** no matching route, or only an empty one: unchanged *)
Theorem C33_unmatched (jp : string) (m : routes) : wf_routes m -> stays m jp -> patch_jp jp m = Ok jp.
Proof. exact (patch_jp_stays jp m). Qed.
(** the longest keys [ks] match up to the end of a token: they are replaced by the target, relative to
    all keys but the last unless it is absolute *)
Theorem C33_longest (m : routes) (ks : list string) (tail t : string) :
  wf_routes m -> Forall (fun k => k <> "") ks -> token_tail tail ->
  leads m (join "/" ks ++ tail)%string ks t -> endswith "/" t = false ->
  patch_jp (join "/" ks ++ tail)%string m =
  Ok ((if startswith "#" t then t else (join "/" (removelast ks) ++ "/" ++ t)%string) ++ tail)%string.
Proof. exact (patch_jp_boundary m ks tail t). Qed.
(** the default route of a nested map, its key is empty *)
Theorem C33_default (m : routes) (ks : list string) (tail t : string) :
  wf_routes m -> Forall (fun k => k <> "") ks -> ks <> [] -> token_tail tail ->
  leads m (join "/" ks ++ tail)%string (ks ++ [""])%list t -> endswith "/" t = false ->
  patch_jp (join "/" ks ++ tail)%string m =
  Ok ((if startswith "#" t then t else (join "/" ks ++ "/" ++ t)%string) ++ tail)%string.
Proof. exact (patch_jp_default m ks tail t). Qed.
(** one of the two always holds, the keys and the target are unique, nothing raises *)
Theorem C33_total (m : routes) (jp : string) : wf_routes m -> stays m jp \/ exists ks t, leads m jp ks t.
Proof. exact (leads_or_stays m jp). Qed.
Theorem C33_determined (m : routes) (jp : string) (ks ks' : list string) (t t' : string) :
  leads m jp ks t -> ~ stays m jp /\ (leads m jp ks' t' -> ks = ks' /\ t = t').
Proof. exact (fun L => conj (fun S => stays_not_leads m jp S ks t L) (fun L' => leads_unique m jp ks t L ks' t' L')). Qed.
Theorem C33_never_raises (jp : string) (m : routes) : exists r, patch_jp jp m = Ok r.
Proof. exact (patch_jp_total jp m). Qed.
(** the order of the entries does not matter, at any level *)
Theorem C33_order (jp : string) (m m' : routes) : wf_routes m -> wf_routes m' -> same_routes m m' -> patch_jp jp m = patch_jp jp m'.
Proof. exact (patch_jp_same jp m m'). Qed.
Print Assumptions C33_unmatched.
Print Assumptions C33_longest.
Print Assumptions C33_default.
Print Assumptions C33_total.
Print Assumptions C33_determined.
Print Assumptions C33_never_raises.
Print Assumptions C33_order.
(** a key that ends inside a token also matches *)
Definition C33_routes : routes :=
  [("#", RMap [("definitions", RStr "components/schemas");
               ("parameters", RMap [("body_1", RStr "#/components/requestBodies/body_1"); ("", RStr "#/components/parameters")])])].
Theorem C33_boundary_refuted : patch_jp "#/parameters/body_10" C33_routes = Ok "#/components/requestBodies/body_1/0".
Proof. vm_compute. reflexivity. Qed.
Print Assumptions C33_boundary_refuted.
Lemma wf_C33_routes : wf_routes C33_routes.
Proof.
  constructor; [repeat constructor; cbn; intuition congruence|]. intros k m' [[= <- <-]|[]]. constructor; [repeat constructor; cbn; intuition congruence|].
  intros k m' [H|[[= <- <-]|[]]]; [discriminate|]. constructor; [repeat constructor; cbn; intuition congruence|]. intros k m' [H|[H|[]]]; discriminate.
Qed.
Lemma C33_leads : leads C33_routes "#/definitions/Pet" ["#"; "definitions"] "components/schemas".
Proof.
  eapply ld_map with (rest := "/definitions/Pet"); [|reflexivity|left; reflexivity|].
  - split; [reflexivity|]. split; [exists "/definitions/Pet"; reflexivity|]. intros k' t'. cbn. destruct (String.eqb_spec k' "#") as [->|]; [intros; constructor|discriminate].
  - apply ld_text; [|discriminate]. split; [reflexivity|]. split; [exists "/Pet"; reflexivity|]. intros k' t'. cbn.
    destruct (String.eqb_spec k' "definitions") as [->|]; [intros; constructor|]. destruct (String.eqb_spec k' "parameters") as [->|]; [|discriminate]. intros _ [r Hr]. discriminate.
Qed.
Example C33_example :
  patch_jp "#/definitions/Pet" C33_routes = Ok "#/components/schemas/Pet" /\
  patch_jp "#/parameters/limit" C33_routes = Ok "#/components/parameters/limit" /\
  patch_jp "#/info" C33_routes = Ok "#/info" /\
  patch_jp "#/parameters/body_1" C33_routes = Ok "#/components/requestBodies/body_1".
Proof. repeat split; vm_compute; reflexivity. Qed.

(** ** C34: relocation over several versions *)
Theorem C34_compose (O : Type) (is_base : O -> bool) (versions : list string) (calls : list (store_op O)) (url jp a b c : string) :
  ascending versions -> In b versions -> In c versions -> version_le a b -> version_le b c ->
  store_relocate (run_ops is_base versions calls) url jp a (Some c) =
  (jp' <- store_relocate (run_ops is_base versions calls) url jp a (Some b) ;; store_relocate (run_ops is_base versions calls) url jp' b (Some c)).
Proof. exact (relocate_compose is_base versions calls url jp a b c). Qed.
Theorem C34_not_newer (O : Type) (is_base : O -> bool) (versions : list string) (calls : list (store_op O)) (url jp a b : string) :
  ascending versions -> In b versions -> version_le b a -> store_relocate (run_ops is_base versions calls) url jp a (Some b) = Ok jp.
Proof. exact (relocate_back is_base versions calls url jp a b). Qed.
Theorem C34_never_raises (O : Type) (is_base : O -> bool) (versions : list string) (calls : list (store_op O)) (url jp a b : string) :
  ascending versions -> In b versions -> version_le a b -> exists jp', store_relocate (run_ops is_base versions calls) url jp a (Some b) = Ok jp'.
Proof. exact (relocate_total is_base versions calls url jp a b). Qed.
Theorem C34_without_routes (O : Type) (is_base : O -> bool) (versions : list string) (calls : list (store_op O)) (url jp a : string) (b : option string) :
  (forall t rs, ~ In (RoutesOp url t rs) calls) -> store_relocate (run_ops is_base versions calls) url jp a b = Ok jp.
Proof. exact (relocate_no_calls is_base versions calls url jp a b). Qed.
Theorem C34_unknown_version (O : Type) (is_base : O -> bool) (versions : list string) (calls : list (store_op O)) (url jp a b t : string) (rs : routes) :
  NoDup versions -> In (RoutesOp url t rs) calls -> ~ In b versions -> b <> "" ->
  store_relocate (run_ops is_base versions calls) url jp a (Some b) = Err PyException.
Proof. exact (relocate_unknown is_base versions calls url jp a b rs t). Qed.
(** one step: the routes given to update_routes for that version, later ones overriding earlier ones *)
Theorem C34_step (O : Type) (is_base : O -> bool) (versions : list string) (calls : list (store_op O)) (url jp a b : string) :
  ascending versions -> In a versions -> In b versions -> version_lt a b ->
  (forall w, In w versions -> version_lt a w -> version_le b w) -> (exists t rs, In (RoutesOp url t rs) calls) ->
  store_relocate (run_ops is_base versions calls) url jp a (Some b) = patch_jp jp (routes_given calls url b).
Proof. exact (relocate_step is_base versions calls url jp a b). Qed.
Print Assumptions C34_compose.
Print Assumptions C34_not_newer.
Print Assumptions C34_never_raises.
Print Assumptions C34_without_routes.
Print Assumptions C34_unknown_version.
Print Assumptions C34_step.
Example C34_example :
  let s := run_ops is_spec_object ["1.2"; "2.0"; "3.0.0"; "4.0"]
             [RoutesOp "u" "3.0.0" C33_routes; RoutesOp "u" "4.0" [("#/components", RStr "#/c")]] in
  store_relocate s "u" "#/definitions/Pet" "2.0" (Some "4.0") = Ok "#/c/schemas/Pet" /\
  store_relocate s "u" "#/definitions/Pet" "2.0" None = Ok "#/components/schemas/Pet" /\
  store_relocate s "u" "#/definitions/Pet" "4.0" (Some "2.0") = Ok "#/definitions/Pet".
Proof. repeat split; vm_compute; reflexivity. Qed.
