(** Conversion of Swagger 1.2 objects: the operations and models of a declaration. *)
From Coq Require Import String Ascii List Bool Arith ZArith Lia.
From Verif Require Import PyStr PyStrFacts PyVal PyValFacts Jp Scope UrlLib Obj SpecObj SpecJson ObjFacts TablesFacts Classes_v1_2 Scan Up12 SpecUp12 Up12Facts NumeralFacts Up12Facts2 Up12Facts3.
Import ListNotations.
Open Scope string_scope. Open Scope nat_scope.

(** ** operations *)
Notation path_table := (list (string * list (string * doc))).
Definition put_site (acc : path_table) (ss : site * doc) : path_table := add_operation (full_path (fst ss)) (method_of (fst ss)) (snd ss) acc.
Definition with_paths (s : sw) (p : path_table) : sw := mk_sw (s_info s) (s_tags s) (s_defs s) p (s_secs s).
Definition with_defs (s : sw) (d : list (string * doc)) : sw := mk_sw (s_info s) (s_tags s) d (s_paths s) (s_secs s).
Lemma lower_of_text j m : lower_of j = Ok m -> m = lower (text j).
Proof. destruct j; try discriminate. intros H. apply Ok_inj in H. now subst. Qed.
Lemma convert_operation_ok j aj dj op api decl sep s s' : made "Operation" j op -> made "Api" aj api -> made "ApiDeclaration" dj decl ->
  convert_operation op api decl sep s = Ok s' -> exists spec, operation_image sep (mk_site dj aj j) spec /\ s' = with_paths s (put_site (s_paths s) (mk_site dj aj j, spec)).
Proof.
  intros M Ma Md H. unfold convert_operation in H. apply bind_ok in H as (spec & Hs & H). apply bind_ok in H as (bp & Hb & H). apply bind_ok in H as (ap & Ha & H).
  apply (field12_get "ApiDeclaration" _ _ "base_path" "basePath" _ Md eq_refl) in Hb. apply (field12_get "Api" _ _ "path" "path" _ Ma eq_refl) in Ha.
  destruct bp as [| | | |b| |]; try discriminate. destruct ap as [| | | |a| |]; try discriminate.
  apply bind_ok in H as (m & Hm & H). apply (field12_get "Operation" _ _ "method" "method" _ M eq_refl) in Hm. subst m. apply bind_ok in H as (me & Hme & H).
  apply lower_of_text in Hme. apply Ok_inj in H. subst s' me. exists spec. split; [eapply operation_spec_ok; eauto|].
  unfold with_paths, put_site, full_path, method_of. cbn [fst snd at_op at_api at_decl]. rewrite <- Hb, <- Ha. reflexivity.
Qed.
Lemma with_paths_twice s p q : with_paths (with_paths s p) q = with_paths s q. Proof. reflexivity. Qed.
Lemma with_paths_same s : with_paths s (s_paths s) = s. Proof. destruct s; reflexivity. Qed.
Lemma ops_ok aj dj api decl sep ops js : made "Api" aj api -> made "ApiDeclaration" dj decl -> Forall2 (made "Operation") js ops -> forall s s',
  foldM (fun s op => convert_operation op api decl sep s) ops s = Ok s' ->
  exists specs, Forall2 (operation_image sep) (map (mk_site dj aj) js) specs /\
    s' = with_paths s (fold_left put_site (combine (map (mk_site dj aj) js) specs) (s_paths s)).
Proof.
  intros Ma Md F. induction F as [|j op js ops M F IH]; intros s s' H; cbn [foldM] in H.
  - apply Ok_inj in H. subst s'. exists []. split; [constructor|]. cbn. now rewrite with_paths_same.
  - apply bind_ok in H as (s1 & H1 & H). destruct (convert_operation_ok _ _ _ _ _ _ _ _ _ M Ma Md H1) as (spec & Hi & ->).
    destruct (IH _ _ H) as (specs & Hs & ->). exists (spec :: specs). split; [constructor; assumption|]. reflexivity.
Qed.
Lemma combine_app_local {A B} (l1 l2 : list A) (m1 m2 : list B) : length l1 = length m1 -> combine (l1 ++ l2) (m1 ++ m2) = (combine l1 m1 ++ combine l2 m2)%list.
Proof. revert m1. induction l1 as [|x l1 IH]; intros [|y m1] H; try discriminate; [reflexivity|]. cbn. rewrite IH by (simpl in H; lia). reflexivity. Qed.
Lemma Forall2_len {A B} (R : A -> B -> Prop) l m : Forall2 R l m -> length l = length m. Proof. induction 1; simpl; congruence. Qed.
Lemma apis_ok dj decl sep apis js : made "ApiDeclaration" dj decl -> Forall2 (made "Api") js apis -> forall s s',
  foldM (fun s api => ops <- attr12 api "operations" ;; ops <- elems12 ops ;; foldM (fun s op => convert_operation op api decl sep s) ops s) apis s = Ok s' ->
  exists specs, Forall2 (operation_image sep) (flat_map (fun api => map (mk_site dj api) (elements (get api "operations"))) js) specs /\
    s' = with_paths s (fold_left put_site (combine (flat_map (fun api => map (mk_site dj api) (elements (get api "operations"))) js) specs) (s_paths s)).
Proof.
  intros Md F. induction F as [|aj api js apis Ma F IH]; intros s s' H; cbn [foldM] in H.
  - apply Ok_inj in H. subst s'. exists []. split; [constructor|]. cbn. now rewrite with_paths_same.
  - apply bind_ok in H as (s1 & H1 & H). apply bind_ok in H1 as (x & Hx & H1). apply bind_ok in H1 as (ops & Ho & H1).
    destruct (list_read "Api" _ _ "operations" "Operation" _ _ Ma eq_refl Hx Ho) as (l & El & Fl).
    destruct (ops_ok _ _ _ _ _ _ _ Ma Md Fl _ _ H1) as (specs & Hs & ->). destruct (IH _ _ H) as (specs' & Hs' & ->).
    exists (specs ++ specs')%list. cbn [flat_map]. rewrite El. cbn [elements]. split; [now apply Forall2_app|].
    rewrite combine_app_local by (now apply Forall2_len in Hs). rewrite fold_left_app. reflexivity.
Qed.

(** ** models *)
Definition model_doc (dm : json * json) (props : list (string * json)) (old : doc) : doc :=
  let oldp := match lookup "properties" old with Some (JDict x) => x | _ => [] end in
  opt_set "description" (given (snd dm) "description") (opt_set "discriminator" (given (snd dm) "discriminator") (opt_set "required" (given (snd dm) "required")
    (dict_set "properties" (JDict (dict_update oldp props)) old))).
Definition add_super (n : string) (defs : list (string * doc)) (sub : string) : list (string * doc) :=
  dict_set sub (append_all_of (ref_to n) (entry_of sub defs)) defs.
Definition model_step (sep : string) (defs : list (string * doc)) (dmp : (json * json) * list (string * json)) : list (string * doc) :=
  let dm := fst dmp in
  let n := model_name sep dm in
  fold_left (add_super n) (subtype_names sep dm) (dict_set n (model_doc dm (snd dmp) (entry_of n defs)) defs).
Definition props_image (sep : string) (dm : json * json) (props : list (string * json)) : Prop :=
  Forall2 (fun a p => fst a = fst p /\ property_image sep (resource (fst dm)) (snd a) (snd p)) (fields (get (snd dm) "properties")) props.
Lemma property_ok j o scope sep out : made "Property" j o -> property_spec scope sep o = Ok out -> property_image sep scope j out.
Proof.
  intros M H. unfold property_spec in H. apply bind_ok in H as (d & Hd & H). apply bind_ok in H as (desc & Hde & H). apply Ok_inj in H. subst out.
  apply (field12_get "Property" _ _ "description" "description" _ M eq_refl) in Hde. subst desc.
  destruct (convert_schema_ok _ _ _ _ _ _ property_datatype M Hd) as [(T & I1 & I2 & B1 & B2 & I3 & I4 & I5) K].
  eexists. split; [reflexivity|]. split.
  - split; [split; look2; apply T|]. split; [look2; exact I1|]. split; [look2; exact I2|]. split; [apply bound_of_image; look2; exact B1|]. split; [apply bound_of_image; look2; exact B2|].
    split; [look2; exact I3|]. split; [look2; exact I4|]. destruct (match get j "items" with JNull => true | _ => false end); [look2; exact I5|].
    destruct I5 as (i & Hi & Ii). exists i. split; [look2; exact Hi|exact Ii].
  - split; [look2; reflexivity|]. apply only_set; [|inkeys]. eapply only_incl; [exact K|]. intros k Hk. right. exact Hk.
Qed.
Lemma subtypes_ok scope sep j ts : iter_json j = Ok ts -> forall n (defs defs' : list (string * doc)),
  foldM (fun defs t => sub <- compose12 scope t sep ;; Ok (dict_set sub (append_all_of (ref_to n) (entry_of sub defs)) defs)) ts defs = Ok defs' ->
  defs' = fold_left (add_super n) (map (scoped sep scope) (names_in j)) defs.
Proof.
  intros Hi n. assert (E : map text ts = names_in j).
  { unfold iter_json in Hi. destruct j as [| | | |s|l|d]; cbn [names_in] in *; try (destruct (truthy _); [discriminate|apply Ok_inj in Hi; subst; reflexivity]).
    - destruct (truthy (JStr s)) eqn:T; apply Ok_inj in Hi; subst ts; [|destruct s; [reflexivity|discriminate]]. rewrite map_map. reflexivity.
    - destruct (truthy (JList l)) eqn:T; apply Ok_inj in Hi; subst ts; [reflexivity|]. destruct l; [reflexivity|discriminate].
    - destruct (truthy (JDict d)) eqn:T; apply Ok_inj in Hi; subst ts; [|destruct d; [reflexivity|discriminate]]. rewrite map_map. reflexivity. }
  rewrite <- E. clear E Hi. induction ts as [|t ts IH]; intros defs defs' H; cbn [foldM] in H.
  - apply Ok_inj in H. now subst.
  - apply bind_ok in H as (d1 & H1 & H). apply bind_ok in H1 as (sub & Hs & H1). apply Ok_inj in H1. subst d1. apply compose12_ok in Hs. subst sub. apply IH in H. exact H.
Qed.
Lemma convert_model_ok mj dj model decl sep s s' : made "Model" mj model -> made "ApiDeclaration" dj decl -> convert_model model decl sep s = Ok s' ->
  exists props, props_image sep (dj, mj) props /\ s' = with_defs s (model_step sep (s_defs s) ((dj, mj), props)).
Proof.
  intros M Md H. unfold convert_model in H.
  apply bind_ok in H as (rp & Hrp & H). apply bind_ok in H as (scope & Hsc & H).
  assert (Es : scope = resource dj) by (apply (resource_read dj decl); [exact Md|rewrite Hrp; exact Hsc]). clear Hrp Hsc.
  apply bind_ok in H as (id & Hid & H). apply (field12_get "Model" _ _ "id" "id" _ M eq_refl) in Hid. subst id.
  apply bind_ok in H as (n & Hn & H). apply compose12_ok in Hn.
  apply bind_ok in H as (ps0 & Hps0 & H). apply bind_ok in H as (ps & Hps & H). apply bind_ok in H as (props & Hp & H). cbv zeta in H.
  apply bind_ok in H as (d1 & H1 & H). apply (put_ok "Model" _ _ "required" _ _ _ M eq_refl) in H1.
  apply bind_ok in H as (d2 & H2 & H). apply (put_ok "Model" _ _ "discriminator" _ _ _ M eq_refl) in H2.
  apply bind_ok in H as (d3 & H3 & H). apply (put_ok "Model" _ _ "description" _ _ _ M eq_refl) in H3.
  apply bind_ok in H as (subs & Hsub & H). apply (field12_get "Model" _ _ "subTypes" "subTypes" _ M eq_refl) in Hsub. subst subs.
  apply bind_ok in H as (ts & Hts & H). apply bind_ok in H as (defs & Hdefs & H). apply Ok_inj in H. subst s'.
  destruct (map_read "Model" _ _ "properties" _ _ _ M eq_refl Hps0 Hps) as (d & Ed & F).
  exists props. split.
  - unfold props_image. cbn [fst snd]. rewrite Ed. cbn [fields]. eapply mapM_Forall2; [exact F| |exact Hp]. intros [k v] [k' e] [k2 c] [Ek (p & Me)] Hc. cbn [fst snd] in *.
    apply bind_ok in Hc as (q & Hq & Hc). apply Ok_inj in Hc. injection Hc as <- <-. split; [exact Ek|]. rewrite <- Es. eapply property_ok; [exists p; exact Me|exact Hq].
  - apply (subtypes_ok _ _ _ _ Hts n) in Hdefs. unfold with_defs, model_step, subtype_names, model_name, model_doc. cbn [fst snd]. rewrite <- Es, <- Hn. subst d3 d2 d1 defs. reflexivity.
Qed.
Lemma with_defs_same s : with_defs s (s_defs s) = s. Proof. destruct s; reflexivity. Qed.
Lemma models_ok dj decl sep (js : list (string * json)) models : made "ApiDeclaration" dj decl ->
  Forall2 (fun v e => fst v = fst e /\ exists p, construct v12_table (snd v) (BCls "Model") p [] = Ok (snd e)) js models -> forall s s',
  foldM (fun s (m : string * obj) => convert_model (snd m) decl sep s) models s = Ok s' ->
  exists props, Forall2 (props_image sep) (map (fun m => (dj, snd m)) js) props /\
    s' = with_defs s (fold_left (model_step sep) (combine (map (fun m => (dj, snd m)) js) props) (s_defs s)).
Proof.
  intros Md F. induction F as [|[k mj] [k' m] js models [_ M] F IH]; intros s s' H; cbn [foldM] in H.
  - apply Ok_inj in H. subst s'. exists []. split; [constructor|]. cbn. now rewrite with_defs_same.
  - apply bind_ok in H as (s1 & H1 & H). destruct (convert_model_ok _ _ _ _ _ _ _ M Md H1) as (p & Hi & ->).
    destruct (IH _ _ H) as (ps & Hs & ->). exists (p :: ps). split; [constructor; assumption|]. reflexivity.
Qed.
(** a declaration *)
Definition models_of (dj : json) : list (json * json) := map (fun m => (dj, snd m)) (fields (get dj "models")).
Lemma declaration_ok dj decl sep s s' : made "ApiDeclaration" dj decl -> api_declaration sep decl s = Ok s' ->
  exists specs props, Forall2 (operation_image sep) (sites_of dj) specs /\ Forall2 (props_image sep) (models_of dj) props /\
    s' = mk_sw (s_info s) (add_tag (resource dj) (s_tags s)) (fold_left (model_step sep) (combine (models_of dj) props) (s_defs s))
               (fold_left put_site (combine (sites_of dj) specs) (s_paths s)) (s_secs s).
Proof.
  intros Md H. unfold api_declaration in H. apply bind_ok in H as (rp & Hrp & H). apply (field12_get "ApiDeclaration" _ _ "resource_path" "resourcePath" _ Md eq_refl) in Hrp. subst rp.
  apply bind_ok in H as (n & Hn & H). apply from1_ok in Hn. cbv zeta in H.
  apply bind_ok in H as (x & Hx & H). apply bind_ok in H as (apis & Ha & H). apply bind_ok in H as (s1 & H1 & H).
  apply bind_ok in H as (y & Hy & H). apply bind_ok in H as (ms & Hm & H).
  destruct (list_read "ApiDeclaration" _ _ "apis" "Api" _ _ Md eq_refl Hx Ha) as (l & El & Fl).
  destruct (map_read "ApiDeclaration" _ _ "models" _ _ _ Md eq_refl Hy Hm) as (d & Ed & Fd).
  destruct (apis_ok _ _ _ _ _ Md Fl _ _ H1) as (specs & Hs & ->). destruct (models_ok _ _ _ _ _ Md Fd _ _ H) as (props & Hp & ->).
  exists specs, props. unfold sites_of, models_of. rewrite El, Ed. cbn [elements fields]. split; [exact Hs|]. split; [exact Hp|].
  unfold with_defs, with_paths. cbn. subst n. reflexivity.
Qed.
