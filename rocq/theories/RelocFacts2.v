(** Proofs about references into converted documents. *)
From Coq Require Import String Ascii List Bool Arith Lia.
From Verif Require Import PyStr PyStrFacts PyVal PyValFacts Jp SpecJp JpFacts NatDecFacts UrlLib Obj ObjFacts Classes_v2_0 TablesFacts SpecJson ShapeFacts DumpFacts SpecObj SpecSchema SpecConv SpecBody SpecOp SpecDoc Store SpecStore StoreFacts Conv20 ConvFacts SchemaFacts SchemaFacts2 ParamFacts BodyFacts BodyFacts2 ParamListFacts ParamListFacts2 OpFacts OpFacts2 PathFacts PathFacts2 DocFacts DocFacts2 RelocFacts.
Import ListNotations.
Open Scope string_scope. Open Scope nat_scope.

Lemma text_target_wf (m : routes) : NoDup (map fst m) -> (forall k t, In (k, t) m -> exists s, t = RStr s) -> wf_routes m.
Proof. intros N H. constructor; [exact N|]. intros k m' I. destruct (H _ _ I) as [s E]. discriminate. Qed.
Lemma nodup_map_inj {A B} (f : A -> B) l : (forall a b, f a = f b -> a = b) -> NoDup l -> NoDup (map f l).
Proof.
  intros Hf. induction 1 as [|x l Hn N IH]; [constructor|]. cbn [map]. constructor; [|exact IH]. intros H. apply in_map_iff in H as (y & E & Hy). apply Hf in E. now subst.
Qed.
Lemma filter_keys_nodup {A} (f : string * A -> bool) (l : list (string * A)) : NoDup (map fst l) -> NoDup (map fst (filter f l)).
Proof.
  induction l as [|x l IH]; [auto|]. cbn [map filter]. intros N. inversion N as [|? ? Hn N']; subst. destruct (f x); [|auto]. cbn [map]. constructor; [|auto]. intros H. apply Hn. apply in_map_iff in H as (y & E & Hy). apply filter_In in Hy as [Hy _]. rewrite <- E. now apply in_map.
Qed.

Section Reloc.
  Variables (deref : obj -> res obj) (normalized_ref : obj -> res json).

  (** the merged positions increase *)
  Lemma moved_increase : forall ps i cs kept body k b moved, convert_params deref ps i cs kept body = Ok (k, b, moved) -> NoDup moved /\ forall j, In j moved -> i <= j < i + length ps.
  Proof.
    induction ps as [|p ps IH]; intros i cs kept body k b moved H; cbn [convert_params] in H.
    - injection H as <- <- <-. split; [constructor|intros j []].
    - apply bind_ok in H as ([dd c] & _ & H). cbn [fst snd length] in *. destruct (is_body c).
      + apply bind_ok in H as ([[k1 b1] m1] & E & H). injection H as <- <- <-. destruct (IH _ _ _ _ _ _ _ E) as [N F]. split.
        * constructor; [|exact N]. intros X. apply F in X. lia.
        * intros j [<-|Hj]; [lia|]. apply F in Hj. lia.
      + destruct (IH _ _ _ _ _ _ _ H) as [N F]. split; [exact N|]. intros j Hj. apply F in Hj. lia.
  Qed.
  Definition moved_routes (moved : list nat) : routes := map (fun i => ("parameters/" ++ nat_dec i, RStr internal_body)) moved.
  Lemma item_routes o root cs pr x r : to_path_item deref normalized_ref o root cs pr = Ok (x, r) -> exists moved, r = moved_routes moved /\ NoDup moved.
  Proof.
    unfold to_path_item. intros H. apply bind_ok in H as (? & _ & H). apply bind_ok in H as (? & _ & H). apply bind_ok in H as (ps & _ & H). apply bind_ok in H as ([[k b] moved] & E & H). apply bind_ok in H as ([ops b'] & _ & H). injection H as _ <-.
    exists moved. split; [reflexivity|]. destruct (truthy_obj ps); [|injection E as _ _ <-; constructor]. apply bind_ok in E as (es & _ & E). now apply moved_increase in E as [N _].
  Qed.
  Lemma moved_wf moved : NoDup moved -> wf_routes (moved_routes moved).
  Proof.
    intros N. apply text_target_wf.
    - unfold moved_routes. rewrite map_map. cbn [fst]. apply nodup_map_inj; [|exact N]. intros a b E. apply sapp_inv_head in E. now apply nat_dec_inj.
    - intros k t H. apply in_map_iff in H as (i & E & _). injection E as _ <-. eauto.
  Qed.
  Lemma path_routes_keys root cs pr l ys : Forall2 (path_done deref normalized_ref root cs pr) l ys -> NoDup (keys l) -> NoDup (map fst (path_routes ys)) /\ forall k, In k (map fst (path_routes ys)) -> exists p, In p (keys l) /\ k = rfc_escape p.
  Proof.
    induction 1 as [|[k v] [k2 [y r]] l ys (E & _) F IH]; intros N; cbn [keys map fst snd] in *; [split; [constructor|intros k []]|]. subst k2. inversion N as [|? ? Hn N']; subst. destruct (IH N') as [N1 N2].
    unfold path_routes. cbn [flat_map snd fst]. fold (path_routes ys). destruct r as [|a r]; cbn [List.app map fst].
    - split; [exact N1|]. intros k' Hk. destruct (N2 k' Hk) as (p & Ip & ->). exists p. split; [now right|reflexivity].
    - split.
      + constructor; [|exact N1]. intros X. destruct (N2 _ X) as (p & Ip & Ep). rewrite rfc_encode in Ep. apply escape_inj in Ep. subst. contradiction.
      + intros k' [<-|Hk]; [exists k; split; [now left|apply rfc_encode]|]. destruct (N2 k' Hk) as (p & Ip & ->). exists p. split; [now right|reflexivity].
  Qed.
  Lemma path_routes_inner root cs pr l ys k t : Forall2 (path_done deref normalized_ref root cs pr) l ys -> In (k, t) (path_routes ys) -> exists moved, t = RMap (moved_routes moved) /\ NoDup moved.
  Proof.
    induction 1 as [|[k1 v] [k2 [y r]] l ys (E & _ & o & x & _ & Ex & _) F IH]; [intros []|]. unfold path_routes. cbn [flat_map snd fst] in *. fold (path_routes ys). destruct r as [|a r]; cbn [List.app]; [exact IH|].
    intros [H|H]; [|auto]. injection H as <- <-. destruct (item_routes _ _ _ _ _ _ Ex) as (moved & -> & N). eauto.
  Qed.
  Lemma path_routes_lookup root cs pr l ys p y r : Forall2 (path_done deref normalized_ref root cs pr) l ys -> NoDup (keys l) -> In (p, (y, r)) ys -> r <> [] -> lookup (rfc_escape p) (path_routes ys) = Some (RMap r).
  Proof.
    intros F N I Nr. destruct (path_routes_keys root cs pr l ys F N) as [N1 _]. apply lookup_nodup; [exact N1|]. unfold path_routes. apply in_flat_map. exists (p, (y, r)). split; [exact I|]. cbn [snd fst]. rewrite rfc_encode. destruct r; [congruence|now left].
  Qed.

  Lemma body_ones_nodup l ys : Forall2 (global deref) l ys -> NoDup (keys l) -> NoDup (map fst (body_ones ys)).
  Proof.
    intros F N. apply filter_keys_nodup. enough (map fst ys = keys l) as -> by exact N. clear N. unfold keys. induction F as [|x y l ys [E _] _ IH]; [reflexivity|]. cbn [map]. congruence.
  Qed.
  Definition param_routes (ys : list (string * (dict * pctx))) : routes := dict_set "" (RStr "#/components/parameters") (as_routes (body_ones ys)).
  Lemma param_routes_wf l ys : Forall2 (global deref) l ys -> NoDup (keys l) -> wf_routes (param_routes ys).
  Proof.
    intros F N. apply text_target_wf.
    - apply nodup_dict_set. unfold keys, as_routes. rewrite map_map. cbn [fst]. exact (body_ones_nodup l ys F N).
    - intros k t H. apply in_dict_set in H as [H|H]; [injection H as _ ->; eauto|]. apply in_map_iff in H as (y & E & _). injection E as _ <-. eauto.
  Qed.
  Lemma param_routes_lookup ys k : lookup k (param_routes ys) = if String.eqb "" k then Some (RStr "#/components/parameters") else match lookup k (body_ones ys) with Some _ => Some (RStr ("#/components/requestBodies/" ++ k)) | None => None end.
  Proof.
    unfold param_routes. rewrite DocFacts2.lookup_set. destruct (String.eqb_spec "" k) as [|Nk]; [reflexivity|]. unfold as_routes. induction (body_ones ys) as [|[k1 y] l IH]; [reflexivity|]. cbn [map lookup fst]. destruct (String.eqb_spec k k1) as [<-|]; [reflexivity|exact IH].
  Qed.

  (** the table of a converted document *)
  Record table (d x : dict) (reloc : routes) : Prop := {
    t_wf : wf_routes reloc;
    t_keys : forall k t, lookup k reloc = Some t -> In k sections }.
  Lemma document_table d o x sec reloc : loaded (BCls "Swagger") (JDict d) o -> document d -> to_openapi deref normalized_ref o = Ok (x, sec, reloc) -> table d x reloc.
  Proof.
    intros L (W & Hi & Hi2 & He & Ht) H.
    destruct (to_openapi_ok deref normalized_ref d o x sec reloc L W Hi Hi2 He Ht H) as (url & paths & schemas & ys & resps & secs & _ & _ & _ & _ & _ & _ & Fp & _ & _ & _ & Fy & _ & _ & _ & _ & _ & _ & _ & _ & _ & _ & Lr & Nr & _).
    split.
    - constructor; [exact Nr|]. intros k m' I. apply (lookup_nodup k reloc _ Nr) in I. rewrite Lr in I.
      destruct (String.eqb "securityDefinitions" k); [destruct secs; discriminate|]. destruct (String.eqb "responses" k); [destruct resps; discriminate|].
      destruct (String.eqb "parameters" k); [destruct ys as [|y ys]; [discriminate|]; injection I as <-; exact (param_routes_wf _ _ Fy (nodup_entries d "parameters" W))|].
      destruct (String.eqb "definitions" k); [destruct schemas; discriminate|]. destruct (String.eqb "paths" k); [|discriminate].
      assert (Ep : m' = path_routes paths) by (destruct (path_routes paths); [discriminate|injection I as <-; reflexivity]). subst m'.
      destruct (path_routes_keys _ _ _ _ _ Fp (nodup_entries d "paths" W)) as [N1 _]. constructor; [exact N1|]. intros k' m' I'. destruct (path_routes_inner _ _ _ _ _ _ _ Fp I') as (moved & E & N). injection E as ->. now apply moved_wf.
    - intros k t. rewrite Lr. unfold sections. destruct (String.eqb_spec "securityDefinitions" k) as [<-|]; [intros _; in_list|]. destruct (String.eqb_spec "responses" k) as [<-|]; [intros _; in_list|].
      destruct (String.eqb_spec "parameters" k) as [<-|]; [intros _; in_list|]. destruct (String.eqb_spec "definitions" k) as [<-|]; [intros _; in_list|]. destruct (String.eqb_spec "paths" k) as [<-|]; [intros _; in_list|discriminate].
  Qed.

  Lemma jget_dict_in d k v ts r : lookup k d = Some v -> jget v ts r -> jget (JDict d) (k :: ts) r.
  Proof. intros H J. econstructor; eauto. Qed.
  Lemma some_dict_lookup (l : dict) k v x : lookup k l = Some v -> x = some_dict l -> x = Some (JDict l).
  Proof. intros H ->. destruct l; [discriminate|reflexivity]. Qed.
  Lemma components_get (x : dict) (s n : string) (l : dict) v ts r : (forall c, lookup "components" x = Some c -> c = JDict (components x)) -> lookup s (components x) = some_dict l -> lookup n l = Some v -> jget v ts r ->
    jget (JDict x) ("components" :: s :: n :: ts) r.
  Proof.
    intros Hc Hs Hn J. pose proof (some_dict_lookup _ _ _ _ Hn Hs) as Hs'. destruct (lookup "components" x) as [c|] eqn:E.
    - apply (jget_dict_in x _ _ _ _ E). rewrite (Hc c eq_refl). apply (jget_dict_in _ _ _ _ _ Hs'). exact (jget_dict_in _ _ _ _ _ Hn J).
    - unfold components, subd in Hs'. rewrite E in Hs'. discriminate.
  Qed.

  (** definitions *)
  Lemma definition_reference d o x sec reloc n s ts r : loaded (BCls "Swagger") (JDict d) o -> document d -> to_openapi deref normalized_ref o = Ok (x, sec, reloc) ->
    lookup n (entries_of (val d "definitions")) = Some s -> schema_doc s -> subschema s ts r ->
    patch_jp (pointer ("definitions" :: n :: ts)) (at_root reloc) = Ok (pointer ("components" :: "schemas" :: n :: ts)) /\
    exists r', jget (JDict x) ("components" :: "schemas" :: n :: ts) r' /\ schema_image r r'.
  Proof.
    intros L D H Hn Sd Ss. destruct (document_table d o x sec reloc L D H) as [Tw Tk]. destruct D as (W & Hi & Hi2 & He & Ht).
    destruct (to_openapi_ok deref normalized_ref d o x sec reloc L W Hi Hi2 He Ht H) as (url & paths & schemas & ys & resps & secs & _ & _ & _ & _ & _ & _ & _ & _ & Fs & Ls & _ & _ & _ & _ & _ & _ & _ & _ & _ & Hc & _ & Lr & _).
    destruct (each_lookup _ _ _ _ _ _ Fs Hn) as (so & sx & Lso & Esx & Lsx). split.
    - apply (relocate_section reloc "definitions" "components" "schemas"); try assumption; try reflexivity; try discriminate; try (cbn; repeat split; discriminate); [in_list|].
      rewrite Lr. cbn [String.eqb Ascii.eqb Bool.eqb]. destruct schemas; [discriminate|reflexivity].
    - assert (Ws : wf_json s). { pose proof (wf_val d "definitions" W) as Wd. destruct (val d "definitions") as [| | | | | |l]; try discriminate. cbn [entries_of] in Hn. apply wf_dict in Wd as [_ Wd]. apply (Wd n s). now apply PyValFacts.lookup_In. }
      destruct (to_schema_image (osize so) s so Ws Sd Lso ltac:(lia)) as (d' & Ed & Im). unfold to_schema in Esx. rewrite Ed in Esx. injection Esx as <-.
      destruct (subschema_image _ _ _ Ss _ Im) as (r' & J & Ir). exists r'. split; [|exact Ir]. exact (components_get x "schemas" n schemas _ ts r' Hc Ls Lsx J).
  Qed.
  (** responses *)
  Lemma response_reference d o x sec reloc n q : loaded (BCls "Swagger") (JDict d) o -> document d -> to_openapi deref normalized_ref o = Ok (x, sec, reloc) ->
    lookup n (entries_of (val d "responses")) = Some (JDict q) -> is_reference q = false -> refers deref "Response" q q -> response_doc q ->
    (forall ts, patch_jp (pointer ("responses" :: n :: ts)) (at_root reloc) = Ok (pointer ("components" :: "responses" :: n :: ts))) /\
    exists y, jget (JDict x) ["components"; "responses"; n] (JDict y) /\ response_image (texts (val d "produces")) q y.
  Proof.
    intros L D H Hn Nr Rq Rd. destruct (document_table d o x sec reloc L D H) as [Tw Tk]. destruct D as (W & Hi & Hi2 & He & Ht).
    destruct (to_openapi_ok deref normalized_ref d o x sec reloc L W Hi Hi2 He Ht H) as (url & paths & schemas & ys & resps & secs & _ & _ & _ & _ & _ & _ & _ & _ & _ & _ & _ & _ & _ & Fr & Ls & _ & _ & _ & _ & Hc & _ & Lr & _).
    destruct (each_lookup _ _ _ _ _ _ Fr Hn) as (so & sx & Lso & Esx & Lsx). split.
    - intros ts. apply (relocate_section reloc "responses" "components" "responses"); try assumption; try reflexivity; try discriminate; try (cbn; repeat split; discriminate); [in_list|].
      rewrite Lr. cbn [String.eqb Ascii.eqb Bool.eqb]. destruct resps; [discriminate|reflexivity].
    - exists sx. split; [exact (components_get x "responses" n resps _ [] _ Hc Ls Lsx (jg_here _))|].
      assert (Wq : wf_json (JDict q)). { pose proof (wf_val d "responses" W) as Wd. destruct (val d "responses") as [| | | | | |l]; try discriminate. cbn [entries_of] in Hn. apply wf_dict in Wd as [_ Wd]. apply (Wd n). now apply PyValFacts.lookup_In. }
      assert (G : response_given deref q q so).
      { apply refers_response; [exact Rq|]. unfold loaded in *. destruct Lso as [pt Lso]. exists pt. rewrite construct_eq in *. cbn [select] in *. cbn [py_in bind]. unfold is_reference in Nr. rewrite Nr. exact Lso. }
      pose proof (to_response_ok deref q q so _ sx G Rd Wq Esx) as R. unfold response_result in R. rewrite Nr in R. exact R.
  Qed.
  (** security schemes *)
  Lemma scheme_reference d o x sec reloc n q : loaded (BCls "Swagger") (JDict d) o -> document d -> to_openapi deref normalized_ref o = Ok (x, sec, reloc) ->
    lookup n (entries_of (val d "securityDefinitions")) = Some (JDict q) ->
    (forall ts, patch_jp (pointer ("securityDefinitions" :: n :: ts)) (at_root reloc) = Ok (pointer ("components" :: "securitySchemes" :: n :: ts))) /\
    exists y, jget (JDict x) ["components"; "securitySchemes"; n] (JDict y) /\ scheme_image q y.
  Proof.
    intros L D H Hn. destruct (document_table d o x sec reloc L D H) as [Tw Tk]. destruct D as (W & Hi & Hi2 & He & Ht).
    destruct (to_openapi_ok deref normalized_ref d o x sec reloc L W Hi Hi2 He Ht H) as (url & paths & schemas & ys & resps & secs & _ & _ & _ & _ & _ & _ & _ & _ & _ & _ & _ & _ & _ & _ & _ & Fs & Ls & _ & _ & Hc & _ & Lr & _).
    destruct (each_lookup _ _ _ _ _ _ Fs Hn) as (so & sx & Lso & Esx & Lsx). split.
    - intros ts. apply (relocate_section reloc "securityDefinitions" "components" "securitySchemes"); try assumption; try reflexivity; try discriminate; try (cbn; repeat split; discriminate); [in_list|].
      rewrite Lr. cbn [String.eqb Ascii.eqb Bool.eqb]. destruct secs; [discriminate|reflexivity].
    - exists sx. split; [exact (components_get x "securitySchemes" n secs _ [] _ Hc Ls Lsx (jg_here _))|]. exact (scheme_ok q so sx Lso Esx).
  Qed.
End Reloc.
