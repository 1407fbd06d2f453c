(** Proofs about the conversion of a whole document. *)
From Coq Require Import String Ascii List Bool Arith Lia.
From Verif Require Import PyStr PyStrFacts PyVal PyValFacts Jp JpFacts UrlLib Obj ObjFacts Classes_v2_0 TablesFacts SpecJson ShapeFacts DumpFacts SpecObj SpecSchema SpecConv SpecBody SpecOp SpecDoc Store Conv20 ConvFacts SchemaFacts SchemaFacts2 ParamFacts BodyFacts BodyFacts2 ParamListFacts ParamListFacts2 OpFacts OpFacts2 PathFacts PathFacts2 DocFacts.
Import ListNotations.
Open Scope string_scope. Open Scope nat_scope.

(** [ys] are the conversions, by [f], of the entries of [l] *)
Definition each (b : builder) (f : obj -> res dict) (l ys : dict) : Prop :=
  Forall2 (fun kv y => fst kv = fst y /\ exists o x, loaded b (snd kv) o /\ f o = Ok x /\ snd y = JDict x) l ys.
Lemma each_keys b f l ys : each b f l ys -> keys ys = keys l.
Proof. unfold keys. induction 1 as [|x y l m [E _] F IH]; [reflexivity|]. cbn [map]. congruence. Qed.
Lemma each_lookup b f l ys k v : each b f l ys -> lookup k l = Some v -> exists o x, loaded b v o /\ f o = Ok x /\ lookup k ys = Some (JDict x).
Proof.
  induction 1 as [|[k1 v1] [k2 y] l m [E (o & x & L & Hf & Ey)] F IH]; cbn [lookup fst snd] in *; [discriminate|]. subst. destruct (String.eqb k k2); [|exact IH]. intros H. injection H as <-. eauto.
Qed.
Lemma each_lookup_back b f l ys k y : each b f l ys -> lookup k ys = Some y -> exists v o x, lookup k l = Some v /\ loaded b v o /\ f o = Ok x /\ y = JDict x.
Proof.
  induction 1 as [|[k1 v1] [k2 y2] l m [E (o & x & L & Hf & Ey)] F IH]; cbn [lookup fst snd] in *; [discriminate|]. subst. destruct (String.eqb k k2); [|exact IH]. intros H. injection H as <-. eauto 7.
Qed.
Lemma lookup_set {A} k k' (v : A) d : lookup k (dict_set k' v d) = if String.eqb k' k then Some v else lookup k d.
Proof. rewrite PyValFacts.lookup_dict_set, String.eqb_sym. reflexivity. Qed.
Lemma convert_each_ok b f l es xs : NoDup (keys l) -> Forall2 (fun x e => fst x = fst e /\ loaded b (snd x) (snd e)) l es -> convert_each f es = Ok xs -> each b f l xs.
Proof.
  intros N F2 H. assert (Nk : map fst es = map fst l). { clear -F2. induction F2 as [|x e l es [E _] _ IH]; [reflexivity|]. cbn [map]. congruence. }
  unfold convert_each in H. destruct (fold_set f fst es [] xs H) as (ys & -> & Fy); [cbn [keys map List.app]; rewrite Nk; exact N|]. cbn [List.app]. clear H N Nk. revert ys Fy.
  induction F2 as [|x e l es [E L] F2 IH]; intros ys Fy; inversion Fy as [|? y ? ys' (Ey & d & Ed & Es) Fy']; subst; constructor; [|now apply IH].
  split; [congruence|]. exists (snd e), d. auto.
Qed.
(** a map child *)
Lemma map_child c d o name b : loaded (BCls c) (JDict d) o -> child_builder c name = Some (BMapOf b) ->
  exists x, gattr o name = Ok x /\ ((entries_of (val d name) = [] /\ truthy_obj x = false) \/
    exists es, entries_of (val d name) <> [] /\ truthy_obj x = true /\ entries x = Ok es /\ Forall2 (fun x e => fst x = fst e /\ loaded b (snd x) (snd e)) (entries_of (val d name)) es).
Proof.
  intros L C. destruct (gattr_child c d o name _ L C) as [[Hv G]|(Hv & ko & G & Lk & _)].
  - exists (OPrim JNull). split; [exact G|]. left. rewrite Hv. auto.
  - exists ko. split; [exact G|]. destruct (loaded_map _ _ _ Lk) as (l & p & es & -> & -> & F). cbn [entries_of]. destruct F as [|a e l es H F]; [left; auto|]. right. exists (e :: es). split; [discriminate|]. split; [reflexivity|]. split; [reflexivity|]. now constructor.
Qed.
Lemma nodup_entries d name : wf_json (JDict d) -> NoDup (keys (entries_of (val d name))).
Proof. intros W. pose proof (wf_val d name W) as H. destruct (val d name); cbn [entries_of]; try constructor. now apply wf_dict in H as [H _]. Qed.

(** optional maps *)
Definition opt_route (k : string) (v : option target) (m : routes) : routes := match v with Some x => dict_set k x m | None => m end.
Lemma lookup_opt_route k v m k' : lookup k m = None -> lookup k' (opt_route k v m) = if String.eqb k k' then v else lookup k' m.
Proof. intros H. destruct v; cbn [opt_route]; [apply lookup_set|]. destruct (String.eqb_spec k k') as [<-|]; [exact H|reflexivity]. Qed.
Lemma nonempty_some {B} (l : dict) (a : B) : l <> [] -> match l with [] => None | _ => Some a end = Some a. Proof. destruct l; [congruence|reflexivity]. Qed.

Section Doc.
  Variables (deref : obj -> res obj) (normalized_ref : obj -> res json).

  (** ** global parameters *)
  Definition global (kv : string * json) (y : string * (dict * pctx)) : Prop := fst kv = fst y /\ exists o, loaded (BCls "Parameter") (snd kv) o /\ from_parameter deref o None [] = Ok (snd y).
  Definition body_ones (ys : list (string * (dict * pctx))) := filter (fun y => is_body (snd (snd y))) ys.
  Definition other_ones (ys : list (string * (dict * pctx))) := filter (fun y => negb (is_body (snd (snd y)))) ys.
  Definition as_doc (ys : list (string * (dict * pctx))) : dict := map (fun y => (fst y, JDict (fst (snd y)))) ys.
  Definition as_routes (ys : list (string * (dict * pctx))) : routes := map (fun y => (fst y, RStr ("#/components/requestBodies/" ++ fst y))) ys.
  Lemma global_params es : forall ps bs rl ps' bs' rl',
    foldM (fun acc kv =>
             let '(ps, bs, rl) := acc in
             x <- from_parameter deref (snd kv) None [] ;;
             Ok (if is_body (snd x)
                 then (ps, dict_set (fst kv) (JDict (fst x)) bs, dict_set (fst kv) (RStr ("#/components/requestBodies/" ++ fst kv)) rl)
                 else (dict_set (fst kv) (JDict (fst x)) ps, bs, rl))) es (ps, bs, rl) = Ok (ps', bs', rl') ->
    NoDup (map fst es) -> (forall k, In k (map fst es) -> lookup k ps = None /\ lookup k bs = None /\ lookup k rl = None) ->
    exists ys, Forall2 (fun e y => fst e = fst y /\ from_parameter deref (snd e) None [] = Ok (snd y)) es ys /\
      ps' = (ps ++ as_doc (other_ones ys))%list /\ bs' = (bs ++ as_doc (body_ones ys))%list /\ rl' = (rl ++ as_routes (body_ones ys))%list.
  Proof.
    match goal with |- context [foldM ?g _ _] => set (step := g) end.
    induction es as [|[k o] es IH]; intros ps bs rl ps' bs' rl' H N Fr; cbn [foldM] in H.
    - injection H as <- <- <-. exists []. rewrite !app_nil_r. split; [constructor|auto].
    - apply bind_ok in H as (acc & H0 & H). unfold step in H0. cbn [fst snd] in H0. apply bind_ok in H0 as ([x c] & Ex & H0). injection H0 as <-. cbn [fst snd] in H.
      destruct (Fr k (or_introl eq_refl)) as (F1 & F2 & F3). cbn [map fst] in N. inversion N as [|? ? Nk N']; subst.
      assert (Fs : forall k', In k' (map fst es) -> k' <> k) by (intros k' I ->; contradiction).
      destruct (is_body c) eqn:Ec; destruct (IH _ _ _ _ _ _ H N') as (ys & Fy & E1 & E2 & E3).
      + intros k' I. destruct (Fr k' (or_intror I)) as (X1 & X2 & X3). rewrite !lookup_set. destruct (String.eqb_spec k k'); [subst; now contradiction (Fs k')|]. auto.
      + exists ((k, (x, c)) :: ys). split; [constructor; auto|]. unfold other_ones, body_ones. cbn [filter snd]. rewrite Ec. cbn [negb as_doc as_routes map fst snd].
        rewrite E1, E2, E3. rewrite (dict_set_fresh k _ bs F2), (dict_set_fresh k _ rl F3), <- !app_assoc. auto.
      + intros k' I. destruct (Fr k' (or_intror I)) as (X1 & X2 & X3). rewrite !lookup_set. destruct (String.eqb_spec k k'); [subst; now contradiction (Fs k')|]. auto.
      + exists ((k, (x, c)) :: ys). split; [constructor; auto|]. unfold other_ones, body_ones. cbn [filter snd]. rewrite Ec. cbn [negb as_doc as_routes map fst snd].
        rewrite E1, E2, E3. rewrite (dict_set_fresh k _ ps F1), <- !app_assoc. auto.
  Qed.

  (** ** paths *)
  Definition path_routes (l : list (string * (json * routes))) : routes := flat_map (fun y => match snd (snd y) with [] => [] | r => [(jp_encode (fst y), RMap r)] end) l.
  Definition path_done (root : string) (cs pr : list string) (kv : string * json) (y : string * (json * routes)) : Prop :=
    fst kv = fst y /\ startswith "x-" (fst kv) = false /\ exists o x, loaded (BCls "PathItem") (snd kv) o /\ to_path_item deref normalized_ref o root cs pr = Ok (x, snd (snd y)) /\ fst (snd y) = JDict x.
  Lemma convert_paths_ok root cs pr es : forall (l acc : dict) racc xs rs, Forall2 (fun x e => fst x = fst e /\ loaded (BCls "PathItem") (snd x) (snd e)) l es ->
    foldM (fun acc kv =>
             if startswith "x-" (fst kv) then Err SchemaError
             else
               x <- to_path_item deref normalized_ref (snd kv) root cs pr ;;
               Ok (dict_set (fst kv) (JDict (fst x)) (fst acc),
                   match snd x with [] => snd acc | r => dict_set (jp_encode (fst kv)) (RMap r) (snd acc) end)) es (acc, racc) = Ok (xs, rs) ->
    NoDup (keys acc ++ keys l) -> (forall k, In k (keys l) -> lookup (jp_encode k) racc = None) ->
    exists ys, Forall2 (path_done root cs pr) l ys /\ xs = (acc ++ map (fun y => (fst y, fst (snd y))) ys)%list /\ rs = (racc ++ path_routes ys)%list.
  Proof.
    match goal with |- context [foldM ?g _ _] => set (step := g) end. induction es as [|[k o] es IH]; intros l acc racc xs rs F2 H N Fr; inversion F2 as [|[k0 v] ? l' ? [E0 Lo] F2']; subst.
    - cbn in H. injection H as <- <-. exists []. rewrite !app_nil_r. split; [constructor|auto].
    - cbn [fst snd] in *. subst k0. cbn [foldM] in H. apply bind_ok in H as (a & H0 & H). unfold step in H0. cbn [fst snd] in H0. destruct (startswith "x-" k) eqn:Sx; [discriminate|].
      apply bind_ok in H0 as ([x r] & Ex & H0). injection H0 as <-. cbn [fst snd] in H.
      assert (Fk : lookup k acc = None). { apply PyValFacts.lookup_none. intros X. cbn [keys map fst] in N. apply NoDup_remove_2 in N. apply N. apply in_or_app. now left. }
      assert (Nl : ~ In k (keys l')). { intros X. cbn [keys map fst] in N. apply NoDup_remove_2 in N. apply N. apply in_or_app. now right. }
      assert (Fr' := Fr k (or_introl eq_refl)).
      destruct (IH l' _ _ _ _ F2' H) as (ys & Fy & E1 & E2).
      + rewrite (dict_set_fresh k _ acc Fk). unfold keys. rewrite map_app. cbn [map fst]. rewrite <- app_assoc. exact N.
      + intros k' I. destruct r as [|a r]; [apply Fr; now right|]. rewrite lookup_set. destruct (String.eqb_spec (jp_encode k) (jp_encode k')) as [E|_]; [|apply Fr; now right]. apply JpFacts.jp_encode_inj in E. subst. contradiction.
      + exists ((k, (JDict x, r)) :: ys). split; [constructor; [|exact Fy]; split; [reflexivity|]; split; [exact Sx|]; exists o, x; auto|]. rewrite E1, E2, (dict_set_fresh k _ acc Fk), <- app_assoc. split; [reflexivity|].
        cbn [path_routes flat_map snd fst]. destruct r as [|a r]; [reflexivity|]. rewrite (dict_set_fresh (jp_encode k) _ racc Fr'), <- app_assoc. reflexivity.
  Qed.
  Lemma convert_paths_x root cs pr es es1 k o es2 (acc : dict * routes) : es = (es1 ++ (k, o) :: es2)%list -> startswith "x-" k = true ->
    forall x, foldM (fun acc kv =>
             if startswith "x-" (fst kv) then Err SchemaError
             else
               x <- to_path_item deref normalized_ref (snd kv) root cs pr ;;
               Ok (dict_set (fst kv) (JDict (fst x)) (fst acc),
                   match snd x with [] => snd acc | r => dict_set (jp_encode (fst kv)) (RMap r) (snd acc) end)) es acc <> Ok x.
  Proof.
    intros -> Sx. match goal with |- forall x, foldM ?g _ _ <> _ => set (step := g) end. revert acc. induction es1 as [|[k1 o1] es1 IH]; intros acc x; cbn [List.app foldM].
    - unfold step at 1. cbn [fst]. rewrite Sx. cbn [bind]. discriminate.
    - destruct (step acc (k1, o1)); cbn [bind]; [apply IH|discriminate].
  Qed.

  (** ** the document *)
  Definition components (x : dict) : dict := subd "components" x.
  Lemma opt_dict_set_nil (k : string) (l : dict) ret : set_nonempty k l ret = opt_set k (some_dict l) ret. Proof. destruct l; reflexivity. Qed.
  Lemma to_openapi_ok d o x sec reloc : loaded (BCls "Swagger") (JDict d) o -> wf_json (JDict d) ->
    object_or_null (val d "info") -> (forall i, val d "info" = JDict i -> object_or_null (val i "contact") /\ object_or_null (val i "license")) ->
    object_or_null (val d "externalDocs") -> Forall (fun t => exists td, t = JDict td /\ object_or_null (val td "externalDocs")) (elements_of (val d "tags")) ->
    to_openapi deref normalized_ref o = Ok (x, sec, reloc) ->
    let cs := texts (val d "consumes") in let pr := texts (val d "produces") in
    exists url paths schemas ys resps secs,
      server_url o = Ok url /\
      lookup "openapi" x = Some (JStr "3.0.0") /\
      part_image info_image (val d "info") (lookup "info" x) /\
      lookup "servers" x = Some (JList [JDict [("url", JStr url)]]) /\
      part_image docs_image (val d "externalDocs") (lookup "externalDocs" x) /\
      (exists tags, lookup "tags" x = some_list tags /\ Forall2 (fun t t' => exists td td', t = JDict td /\ t' = JDict td' /\ tag_image td td') (elements_of (val d "tags")) tags) /\
      Forall2 (path_done url cs pr) (entries_of (val d "paths")) paths /\ lookup "paths" x = some_dict (map (fun y => (fst y, fst (snd y))) paths) /\
      each (BCls "Schema") (to_schema false) (entries_of (val d "definitions")) schemas /\ lookup "schemas" (components x) = some_dict schemas /\
      Forall2 global (entries_of (val d "parameters")) ys /\ lookup "parameters" (components x) = some_dict (as_doc (other_ones ys)) /\ lookup "requestBodies" (components x) = some_dict (as_doc (body_ones ys)) /\
      each (BCls "Response") (fun r => to_response deref r pr) (entries_of (val d "responses")) resps /\ lookup "responses" (components x) = some_dict resps /\
      each (BCls "SecurityScheme") to_security_scheme (entries_of (val d "securityDefinitions")) secs /\ lookup "securitySchemes" (components x) = some_dict secs /\
      (forall k, ~ In k ["schemas"; "parameters"; "requestBodies"; "responses"; "securitySchemes"] -> lookup k (components x) = None) /\
      (lookup "components" x = None <-> schemas = [] /\ ys = [] /\ resps = [] /\ secs = []) /\ (forall c, lookup "components" x = Some c -> c = JDict (components x)) /\
      (forall k, ~ In k ["openapi"; "info"; "servers"; "paths"; "tags"; "externalDocs"; "components"] -> lookup k x = None) /\
      (forall k, lookup k reloc = if String.eqb "securityDefinitions" k then match secs with [] => None | _ => Some (RStr "components/securitySchemes") end
                             else if String.eqb "responses" k then match resps with [] => None | _ => Some (RStr "components/responses") end
                             else if String.eqb "parameters" k then match ys with [] => None | _ => Some (RMap (dict_set "" (RStr "#/components/parameters") (as_routes (body_ones ys)))) end
                             else if String.eqb "definitions" k then match schemas with [] => None | _ => Some (RStr "components/schemas") end
                             else if String.eqb "paths" k then match path_routes paths with [] => None | r => Some (RMap r) end else None) /\
      NoDup (map fst reloc) /\
      (sec = match elements_of (val d "security") with [] => None | _ => sec end) /\ (elements_of (val d "security") <> [] -> exists so, sec = Some so /\ (exists b p es, so = OList b p es)).
  Proof.
    intros L W Hi Hi2 He Ht H cs pr. unfold to_openapi in H.
    (* info *)
    assert (Xi : exists e, part_image info_image (val d "info") e /\ exists ko, gattr o "info" = Ok ko /\ forall ret, (if truthy_obj ko then (y <- to_info ko ;; Ok (dict_set "info" (JDict y) ret)) else Ok ret) = Ok (opt_set "info" e ret)).
    { destruct (gattr_child "Swagger" d o "info" _ L eq_refl) as [[Hv G]|(Hv & ko & G & Lk & _)].
      - exists None. rewrite Hv. split; [split; [reflexivity|discriminate]|]. exists (OPrim JNull). split; [exact G|reflexivity].
      - destruct Hi as [Hi|(i & Hi)]; [contradiction|]. rewrite Hi in Lk. destruct (Hi2 i Hi) as [H1 H2]. destruct (info_ok i ko Lk H1 H2) as (x' & E' & Im). exists (Some (JDict x')). rewrite Hi. split; [split; [discriminate|intros v E0; injection E0 as <-; eauto]|].
        exists ko. split; [exact G|]. intros ret. rewrite (loaded_cls_truthy "Info" _ _ ltac:(discriminate) Lk), E'. reflexivity. }
    destruct Xi as (ei & Ii & ki & Gi & Ei). rewrite Gi in H. cbn [bind] in H. rewrite Ei in H. cbn [bind] in H. clear Gi Ei ki Hi Hi2.
    apply bind_ok in H as (url & Eu & H). rewrite Eu.
    destruct (child_strs "Swagger" d o "consumes" L eq_refl) as (cx & Gc & Sc & _). destruct (child_strs "Swagger" d o "produces" L eq_refl) as (px & Gp & Sp & _). rewrite Gc, Gp in H. cbn [bind] in H. rewrite Sc, Sp in H. fold cs pr in H. clear cx px Gc Gp Sc Sp.
    (* paths *)
    destruct (map_child "Swagger" d o "paths" (BCls "PathItem") L eq_refl) as (kp & Gp & Hp). rewrite Gp in H. cbn [bind] in H. apply bind_ok in H as ([ret1 rel1] & H1 & H).
    set (r0 := opt_set "info" ei [("openapi", JStr "3.0.0")]) in *.
    assert (Xp : exists paths, Forall2 (path_done url cs pr) (entries_of (val d "paths")) paths /\
      ret1 = opt_set "paths" (some_dict (map (fun y => (fst y, fst (snd y))) paths)) (dict_set "servers" (JList [JDict [("url", JStr url)]]) r0) /\
      rel1 = opt_route "paths" (match path_routes paths with [] => None | r => Some (RMap r) end) []).
    { destruct Hp as [[E T]|(es & Ne & T & E & F)]; rewrite T in H1.
      - injection H1 as <- <-. rewrite E. exists []. split; [constructor|split; reflexivity].
      - rewrite E in H1. cbn [bind] in H1. apply bind_ok in H1 as ([xs rs] & Ec & H1). unfold convert_paths in Ec. cbn [fst snd] in H1.
        destruct (convert_paths_ok url cs pr es _ [] [] xs rs F Ec (nodup_entries d "paths" W)) as (ys & Fy & -> & ->); [reflexivity|]. cbn [List.app] in *. exists ys. split; [exact Fy|]. injection H1 as <- <-. split.
        + destruct ys; [inversion Fy; congruence|reflexivity].
        + destruct (path_routes ys); reflexivity. }
    destruct Xp as (paths & Fp & -> & ->). clear H1 Hp Gp kp.
    (* security *)
    destruct (gattr o "security") as [so|] eqn:Gs; [|discriminate H]. cbn [bind] in H.
    (* tags *)
    apply bind_ok in H as (kt & Gt & H). apply bind_ok in H as (ret2 & H2 & H). set (r1 := opt_set "paths" _ _) in *.
    assert (Xt : exists tags, Forall2 (fun t t' => exists td td', t = JDict td /\ t' = JDict td' /\ tag_image td td') (elements_of (val d "tags")) tags /\ ret2 = opt_set "tags" (some_list tags) r1).
    { destruct (gattr_child "Swagger" d o "tags" _ L eq_refl) as [[Hv G]|(Hv & ko & G & Lk & _)]; rewrite G in Gt; injection Gt as <-.
      - cbn [truthy_obj truthy] in H2. injection H2 as <-. exists []. rewrite Hv. split; [constructor|reflexivity].
      - destruct (loaded_list _ _ _ Lk) as (l & p & es & El & -> & F). rewrite El in Ht |- *. cbn [elements_of] in *. destruct es as [|e es].
        + cbn [truthy_obj] in H2. injection H2 as <-. inversion F; subst. exists []. split; [constructor|reflexivity].
        + cbn [truthy_obj elems bind] in H2. apply bind_ok in H2 as (xs & Em & H2). injection H2 as <-. exists xs.
          assert (Fx : Forall2 (fun t t' => exists td td', t = JDict td /\ t' = JDict td' /\ tag_image td td') l xs).
          { clear -Ht F Em. revert l F Ht xs Em. induction (e :: es) as [|e0 es0 IH]; intros l F Ht xs Em; inversion F; subst; cbn [mapM] in Em; [injection Em as <-; constructor|].
            apply bind_ok in Em as (x0 & E0 & Em). apply bind_ok in Em as (xs0 & E1 & Em). injection Em as <-. inversion Ht as [|? ? (td & -> & Hx) Ht']; subst. constructor; [|now apply IH].
            destruct (tag_ok td e0 H2 Hx) as (td' & E' & Im). rewrite E' in E0. injection E0 as <-. eauto 6. }
          split; [exact Fx|]. destruct xs; [inversion Fx; subst; inversion F|reflexivity]. }
    destruct Xt as (tags & Ft & ->). clear H2 Gt kt Ht.
    (* externalDocs *)
    destruct (opt_part "Swagger" d o "externalDocs" "ExternalDocumentation" to_external_docs docs_image L eq_refl ltac:(discriminate) (fun x ko => external_docs_ok ko x) He) as (kd & ed & Gd & Ed & Id). rewrite Gd in H. cbn [bind] in H. rewrite Ed in H. cbn [bind] in H. clear Gd Ed kd He.
    set (r3 := opt_set "externalDocs" ed _) in *.
    destruct (map_child "Swagger" d o "definitions" (BCls "Schema") L eq_refl) as (k1 & G1 & M1). destruct (map_child "Swagger" d o "parameters" (BCls "Parameter") L eq_refl) as (k2 & G2 & M2).
    destruct (map_child "Swagger" d o "responses" (BCls "Response") L eq_refl) as (k3 & G3 & M3). destruct (map_child "Swagger" d o "securityDefinitions" (BCls "SecurityScheme") L eq_refl) as (k4 & G4 & M4).
    rewrite G1, G2, G3, G4 in H. cbn [bind] in H. clear G1 G2 G3 G4. set (rel := opt_route "paths" _ []) in *.
    apply bind_ok in H as ([c1 l1] & H1 & H). apply bind_ok in H as ([c2 l2] & H2 & H). apply bind_ok in H as ([c3 l3] & H3 & H). apply bind_ok in H as ([c4 l4] & H4 & H). cbn [fst snd] in *. injection H as Hx Hs Hl.
    assert (X1 : exists schemas, each (BCls "Schema") (to_schema false) (entries_of (val d "definitions")) schemas /\ c1 = opt_set "schemas" (some_dict schemas) [] /\ l1 = opt_route "definitions" (match schemas with [] => None | _ => Some (RStr "components/schemas") end) rel /\ truthy_obj k1 = match schemas with [] => false | _ => true end).
    { destruct M1 as [[E T]|(es & Ne & T & E & F)]; rewrite T in H1.
      - injection H1 as <- <-. rewrite E. exists []. split; [constructor|auto].
      - rewrite E in H1. cbn [bind] in H1. apply bind_ok in H1 as (xs & Ec & H1). injection H1 as <- <-. pose proof (convert_each_ok _ _ _ _ _ (nodup_entries d "definitions" W) F Ec) as Fe. exists xs. split; [exact Fe|].
        destruct xs; [inversion Fe; congruence|]. auto. }
    destruct X1 as (schemas & Fs & -> & -> & T1). clear H1 M1.
    assert (X2 : exists ys, Forall2 global (entries_of (val d "parameters")) ys /\ c2 = opt_set "requestBodies" (some_dict (as_doc (body_ones ys))) (opt_set "parameters" (some_dict (as_doc (other_ones ys))) (opt_set "schemas" (some_dict schemas) [])) /\
      l2 = opt_route "parameters" (match ys with [] => None | _ => Some (RMap (dict_set "" (RStr "#/components/parameters") (as_routes (body_ones ys)))) end) (opt_route "definitions" (match schemas with [] => None | _ => Some (RStr "components/schemas") end) rel) /\ truthy_obj k2 = match ys with [] => false | _ => true end).
    { destruct M2 as [[E T]|(es & Ne & T & E & F)]; rewrite T in H2.
      - injection H2 as <- <-. rewrite E. exists []. split; [constructor|auto].
      - rewrite E in H2. cbn [bind] in H2. apply bind_ok in H2 as ([[ps bs] rl] & Ec & H2). injection H2 as <- <-. unfold convert_global_params in Ec.
        assert (Nk : map fst es = keys (entries_of (val d "parameters"))). { clear -F. induction F as [|x0 e l es [E _] _ IH]; [reflexivity|]. cbn [map keys]. unfold keys in IH. congruence. }
        destruct (global_params es [] [] [] ps bs rl Ec) as (ys & Fy & E1 & E2 & E3); [rewrite Nk; exact (nodup_entries d "parameters" W)|auto|]. cbn [List.app] in *. subst ps bs rl. exists ys. split.
        { clear -F Fy. revert ys Fy. induction F as [|x0 e l es [E L] F IH]; intros ys Fy; inversion Fy as [|? y ? ys' (Ey & Ef) Fy']; subst; constructor; [|now apply IH]. split; [congruence|]. exists (snd e). auto. }
        split; [rewrite !opt_dict_set_nil; reflexivity|]. destruct ys; [inversion Fy; subst; inversion F; congruence|]. auto. }
    destruct X2 as (ys & Fy & -> & -> & T2). clear H2 M2.
    assert (X3 : exists resps, each (BCls "Response") (fun r => to_response deref r pr) (entries_of (val d "responses")) resps /\ c3 = opt_set "responses" (some_dict resps) (opt_set "requestBodies" (some_dict (as_doc (body_ones ys))) (opt_set "parameters" (some_dict (as_doc (other_ones ys))) (opt_set "schemas" (some_dict schemas) []))) /\
      l3 = opt_route "responses" (match resps with [] => None | _ => Some (RStr "components/responses") end) (opt_route "parameters" (match ys with [] => None | _ => Some (RMap (dict_set "" (RStr "#/components/parameters") (as_routes (body_ones ys)))) end) (opt_route "definitions" (match schemas with [] => None | _ => Some (RStr "components/schemas") end) rel)) /\ truthy_obj k3 = match resps with [] => false | _ => true end).
    { destruct M3 as [[E T]|(es & Ne & T & E & F)]; rewrite T in H3.
      - injection H3 as <- <-. rewrite E. exists []. split; [constructor|auto].
      - rewrite E in H3. cbn [bind] in H3. apply bind_ok in H3 as (xs & Ec & H3). injection H3 as <- <-. pose proof (convert_each_ok _ _ _ _ _ (nodup_entries d "responses" W) F Ec) as Fe. exists xs. split; [exact Fe|].
        destruct xs; [inversion Fe; congruence|]. auto. }
    destruct X3 as (resps & Fr & -> & -> & T3). clear H3 M3.
    set (l3 := opt_route "responses" _ _) in *. set (c3 := opt_set "responses" _ _) in *.
    assert (X4 : exists secs, each (BCls "SecurityScheme") to_security_scheme (entries_of (val d "securityDefinitions")) secs /\ c4 = opt_set "securitySchemes" (some_dict secs) c3 /\
      l4 = opt_route "securityDefinitions" (match secs with [] => None | _ => Some (RStr "components/securitySchemes") end) l3 /\ truthy_obj k4 = match secs with [] => false | _ => true end).
    { destruct M4 as [[E T]|(es & Ne & T & E & F)]; rewrite T in H4.
      - injection H4 as <- <-. rewrite E. exists []. split; [constructor|auto].
      - rewrite E in H4. cbn [bind] in H4. apply bind_ok in H4 as (xs & Ec & H4). injection H4 as <- <-. pose proof (convert_each_ok _ _ _ _ _ (nodup_entries d "securityDefinitions" W) F Ec) as Fe. exists xs. split; [exact Fe|].
        destruct xs; [inversion Fe; congruence|]. auto. }
    destruct X4 as (secs & Fc & -> & -> & T4). clear H4 M4. rewrite T1, T2, T3, T4 in Hx. clear T1 T2 T3 T4.
    (* lookups *)
    assert (P0 := lookup_opt_set_fresh "info" ei [("openapi", JStr "3.0.0")] eq_refl). fold r0 in P0.
    assert (P1 : forall k, lookup k (dict_set "servers" (JList [JDict [("url", JStr url)]]) r0) = if String.eqb "servers" k then Some (JList [JDict [("url", JStr url)]]) else lookup k r0) by (intros k; apply lookup_set).
    assert (P2 := lookup_opt_set_fresh "paths" (some_dict (map (fun y => (fst y, fst (snd y))) paths)) _ ltac:(rewrite P1, P0; reflexivity)). fold r1 in P2.
    assert (P3 := lookup_opt_set_fresh "tags" (some_list tags) r1 ltac:(rewrite P2, P1, P0; reflexivity)).
    assert (P4 := lookup_opt_set_fresh "externalDocs" ed (opt_set "tags" (some_list tags) r1) ltac:(rewrite P3, P2, P1, P0; reflexivity)). fold r3 in P4.
    set (full := opt_set "securitySchemes" (some_dict secs) c3) in *.
    assert (C1 := lookup_opt_set_fresh "schemas" (some_dict schemas) [] eq_refl).
    assert (C2 := lookup_opt_set_fresh "parameters" (some_dict (as_doc (other_ones ys))) _ ltac:(rewrite C1; reflexivity)).
    assert (C3 := lookup_opt_set_fresh "requestBodies" (some_dict (as_doc (body_ones ys))) _ ltac:(rewrite C2, C1; reflexivity)).
    assert (C4 := lookup_opt_set_fresh "responses" (some_dict resps) _ ltac:(rewrite C3, C2, C1; reflexivity)). fold c3 in C4.
    assert (C5 := lookup_opt_set_fresh "securitySchemes" (some_dict secs) c3 ltac:(rewrite C4, C3, C2, C1; reflexivity)). fold full in C5.
    set (any := match schemas with [] => false | _ => true end || match ys with [] => false | _ => true end || match resps with [] => false | _ => true end || match secs with [] => false | _ => true end) in *.
    assert (Px : forall k, lookup k x = if String.eqb "components" k then (if any then Some (JDict full) else None) else lookup k r3).
    { intros k. rewrite <- Hx. destruct any; [apply lookup_set|]. destruct (String.eqb_spec "components" k) as [<-|]; [|reflexivity]. rewrite P4, P3, P2, P1, P0. reflexivity. }
    assert (Cx : components x = if any then full else []). { unfold components, subd. rewrite Px. cbn [String.eqb Ascii.eqb Bool.eqb]. destruct any; reflexivity. }
    assert (Cl : forall k, lookup k (components x) = lookup k full).
    { intros k. rewrite Cx. destruct any eqn:Ea; [reflexivity|]. unfold any in Ea. apply orb_false_iff in Ea as [Ea E4]. apply orb_false_iff in Ea as [Ea E3]. apply orb_false_iff in Ea as [E1 E2].
      unfold full, c3. destruct schemas; [|discriminate]. destruct ys; [|discriminate]. destruct resps; [|discriminate]. destruct secs; [|discriminate]. reflexivity. }
    exists url, paths, schemas, ys, resps, secs. split; [reflexivity|].
    split; [rewrite Px, P4, P3, P2, P1, P0; reflexivity|]. split; [rewrite Px, P4, P3, P2, P1, P0; exact Ii|]. split; [rewrite Px, P4, P3, P2, P1; reflexivity|]. split; [rewrite Px, P4; exact Id|].
    split; [exists tags; rewrite Px, P4, P3; auto|]. split; [exact Fp|]. split; [rewrite Px, P4, P3, P2; reflexivity|]. split; [exact Fs|]. split; [rewrite Cl, C5, C4, C3, C2, C1; reflexivity|].
    split; [exact Fy|]. split; [rewrite Cl, C5, C4, C3, C2; reflexivity|]. split; [rewrite Cl, C5, C4, C3; reflexivity|]. split; [exact Fr|]. split; [rewrite Cl, C5, C4; reflexivity|]. split; [exact Fc|]. split; [rewrite Cl, C5; reflexivity|].
    split; [intros k Hk; rewrite Cl, C5, C4, C3, C2, C1; no_key k Hk; reflexivity|].
    split. { rewrite Px. cbn [String.eqb Ascii.eqb Bool.eqb]. unfold any. destruct schemas, ys, resps, secs; cbn; split; intros X; try discriminate; try (destruct X as (? & ? & ? & ?); discriminate); auto. }
    split. { intros c. rewrite Cx, Px. cbn [String.eqb Ascii.eqb Bool.eqb]. destruct any; intros X; [now injection X as <-|discriminate]. }
    split; [intros k Hk; rewrite Px, P4, P3, P2, P1, P0; no_key k Hk; cbn [lookup]; destruct (String.eqb_spec k "openapi") as [->|]; [destruct Hk; in_list|reflexivity]|].
    assert (R0 := fun k => lookup_opt_route "paths" (match path_routes paths with [] => None | r => Some (RMap r) end) [] k eq_refl). fold rel in R0.
    assert (R1 := fun k => lookup_opt_route "definitions" (match schemas with [] => None | _ => Some (RStr "components/schemas") end) rel k ltac:(rewrite R0; reflexivity)).
    assert (R2 := fun k => lookup_opt_route "parameters" (match ys with [] => None | _ => Some (RMap (dict_set "" (RStr "#/components/parameters") (as_routes (body_ones ys)))) end) _ k ltac:(rewrite R1, R0; reflexivity)).
    assert (R3 := fun k => lookup_opt_route "responses" (match resps with [] => None | _ => Some (RStr "components/responses") end) _ k ltac:(rewrite R2, R1, R0; reflexivity)). fold l3 in R3.
    assert (R4 := fun k => lookup_opt_route "securityDefinitions" (match secs with [] => None | _ => Some (RStr "components/securitySchemes") end) l3 k ltac:(rewrite R3, R2, R1, R0; reflexivity)).
    split. { intros k. rewrite <- Hl, R4, R3, R2, R1, R0. reflexivity. }
    split. { rewrite <- Hl. assert (Nr : forall k v (m : routes), NoDup (map fst m) -> NoDup (map fst (opt_route k v m))). { intros k [v|] m Nm; [|exact Nm]. cbn [opt_route]. exact (nodup_dict_set k v m Nm). }
      repeat apply Nr. constructor. }
    destruct (gattr_child "Swagger" d o "security" _ L eq_refl) as [[Hv G]|(Hv & ko & G & Lk & _)]; rewrite G in Gs; injection Gs as <-.
    - rewrite Hv. cbn [elements_of]. cbn [truthy_obj truthy] in Hs. split; [congruence|]. intros X; congruence.
    - destruct (loaded_list _ _ _ Lk) as (l & p & es & -> & -> & F). cbn [elements_of]. destruct F as [|a e l es La F]; cbn [truthy_obj] in Hs; [split; [congruence|intros X; congruence]|]. split; [reflexivity|]. intros _. eexists. split; [symmetry; exact Hs|]. eauto.
  Qed.
End Doc.
