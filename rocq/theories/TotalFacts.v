(** * Totality of the converters: which errors they can raise. *)
From Coq Require Import String Ascii List Bool Arith Lia.
From Verif Require Import PyStr PyVal PyValFacts Obj ObjFacts Classes_v2_0 SpecJson ShapeFacts DumpFacts SpecObj SpecSchema SpecConv SpecBody SpecOp SpecDoc Store Conv20 ConvFacts SchemaFacts SchemaFacts2 ParamFacts BodyFacts OpFacts.
Import ListNotations.
Open Scope string_scope. Open Scope nat_scope.

Lemma to_header_total h o : loaded (BCls "Header") (JDict h) o -> (val h "items" = JNull \/ items_doc (val h "items")) ->
  (exists x, to_header o = Ok x) \/ (to_header o = Err SchemaError /\ query_array_only (val h "collectionFormat")).
Proof.
  intros L Hi. unfold to_header. destruct (generate_fields_ok o (val h) ["description"]) as (fs & -> & Nf & F).
  { intros n [<-|[]]. exact (gfield_none_val "Header" h o "description" L eq_refl). }
  cbn [bind]. destruct (base_fields "Header" h o eq_refl eq_refl L) as (bs & -> & Nb & B). cbn [bind].
  destruct (items_of "Header" h o eq_refl L Hi) as (it & io & -> & Ei & X1 & X2). cbn [bind]. rewrite Ei. cbn [bind].
  rewrite (is_set_val "Header" h o _ L ltac:(discriminate)). cbn [bind]. unfold mem. destruct (lookup "collectionFormat" h) as [v|] eqn:Ec; [|eauto].
  rewrite (collection_format "Header" h o eq_refl L), Ec. cbn [bind]. rewrite (gfield_none_val "Header" h o "type" L eq_refl). cbn [bind].
  destruct (to_style_and_explode v (JStr "header") _) as [se|e] eqn:Es; cbn [bind]; [eauto|right]. pose proof (style_errors _ _ _ _ Es) as ->. split; [reflexivity|].
  apply style_raises in Es as [Q _]. unfold val. now rewrite Ec.
Qed.
Lemma fold_total {A} (f : A -> res dict) (P : string * A -> Prop) : forall es acc,
  Forall (fun kv => (exists x, f (snd kv) = Ok x) \/ (f (snd kv) = Err SchemaError /\ P kv)) es ->
  (exists xs, foldM (fun acc kv => x <- f (snd kv) ;; Ok (dict_set (fst kv) (JDict x) acc)) es acc = Ok xs) \/
  (foldM (fun acc kv => x <- f (snd kv) ;; Ok (dict_set (fst kv) (JDict x) acc)) es acc = Err SchemaError /\ exists kv, In kv es /\ P kv).
Proof.
  induction es as [|kv es IH]; intros acc H; [left; eexists; reflexivity|]. inversion H as [|? ? [(x & E)|[E Pk]] H']; subst; cbn [foldM]; rewrite E; cbn [bind].
  - destruct (IH (dict_set (fst kv) (JDict x) acc) H') as [X|(X & kv' & I & Pk)]; [now left|right; split; [exact X|exists kv'; split; [now right|exact Pk]]].
  - right. split; [reflexivity|]. exists kv. split; [now left|exact Pk].
Qed.
Section Resp.
  Variable deref : obj -> res obj.
  Local Notation response_given := (SpecGiven.response_given deref).
  Lemma to_response_total p q o pr : response_given p q o -> response_doc q -> wf_json (JDict q) ->
    (exists x, to_response deref o pr = Ok x) \/
    (to_response deref o pr = Err SchemaError /\ exists n h, lookup n (entries_of (val q "headers")) = Some (JDict h) /\ query_array_only (val h "collectionFormat")).
  Proof.
    intros (r & Dr & L & Rk & Hp) (Hs & Hh) W. unfold to_response.
    assert (Er : exists ref, gfield_none o "$ref" = Ok ref).
    { destruct (is_reference p) eqn:E.
      - eexists. exact (gfield_none_val "Reference" p o "$ref" Hp eq_refl).
      - destruct Hp as [-> ->]. eexists. exact (gfield_none_val "Response" p o "$ref" L eq_refl). }
    destruct Er as [ref ->]. cbn [bind]. rewrite Dr. cbn [bind].
    assert (Gs : exists sc, gattr r "schema" = Ok sc /\ ((val q "schema" = JNull /\ sc = OPrim JNull) \/
              (val q "schema" <> JNull /\ loaded (BCls "Schema") (val q "schema") sc /\ truthy_obj sc = true))).
    { destruct (gattr_child "Response" q r "schema" _ L eq_refl) as [[Hv G]|(Hv & ko & G & Lk & _)]; [exists (OPrim JNull); auto|]. exists ko. split; [exact G|]. right.
      split; [exact Hv|]. split; [exact Lk|]. now apply (loaded_cls_truthy "Schema" _ _ ltac:(discriminate) Lk). }
    destruct Gs as (sc & Eg & Cs). rewrite Eg.
    replace (if truthy ref then Ok sc else Ok (OPrim JNull)) with (Ok (if truthy ref then sc else OPrim JNull)) by (destruct (truthy ref); reflexivity). cbn [bind].
    destruct (truthy ref && _); [eauto|].
    destruct (generate_fields_ok r (val q) ["description"]) as (fs & -> & Nf & F).
    { intros n [<-|[]]. exact (gfield_none_val "Response" q r "description" L eq_refl). }
    cbn [bind].
    match goal with |- context [if truthy_obj sc then ?A else ?B] => assert (R : exists ret, (if truthy_obj sc then A else B) = Ok ret) end.
    { destruct Cs as [[Hv ->]|(Hv & Ls & T)]; [eexists; reflexivity|]. rewrite T. destruct Hs as [?|Hs]; [contradiction|]. pose proof (wf_val q "schema" W) as Ws. inversion Hs as [sd _ _ _ _ _ _ Ej]. rewrite <- Ej in *.
      rewrite (gfield_none_val "Schema" sd sc "type" Ls eq_refl). cbn [bind]. destruct (json_is_str "file" _); [eauto|].
      destruct (to_schema_image (osize sc) _ sc Ws Hs Ls (le_n _)) as (s' & Es & Im).
      match goal with |- context [foldM _ ?l []] => destruct (fold_content sc s' Es l []) as (ct & Eb & Fb) end. rewrite Eb. cbn [bind]. eauto. }
    destruct R as [ret ->]. cbn [bind].
    destruct (gattr_child "Response" q r "headers" _ L eq_refl) as [[Hv G]|(Hv & ko & G & Lk & _)]; rewrite G; cbn [bind]; [left; eexists; reflexivity|].
    destruct (loaded_map _ _ _ Lk) as (hd & pp & es & Ev & -> & F2). destruct Hh as [?|(hd' & Ev' & Fd)]; [contradiction|]. assert (hd' = hd) by congruence. subst hd'.
    destruct (truthy_obj (OMap _ pp es)); [|eauto]. cbn [entries bind].
    assert (Ft : Forall (fun kv => (exists x, to_header (snd kv) = Ok x) \/ (to_header (snd kv) = Err SchemaError /\ exists h, In (fst kv, JDict h) hd /\ query_array_only (val h "collectionFormat"))) es).
    { clear -F2 Fd. revert Fd. induction F2 as [|[k v] [k' o'] l m [E La] F2 IH]; intros Fd; [constructor|]. inversion Fd as [|? ? (h & Eh & Hi) Fd']; subst. cbn [fst snd] in *. subst. constructor.
      - cbn [fst snd]. destruct (to_header_total h o' La Hi) as [X|[X Q]]; [now left|]. right. split; [exact X|]. exists h. split; [now left|exact Q].
      - eapply Forall_impl; [|exact (IH Fd')]. intros kv [X|(X & h0 & I & Q)]; [now left|]. right. split; [exact X|]. exists h0. split; [now right|exact Q]. }
    destruct (fold_total to_header _ es [] Ft) as [(xs & E)|(E & kv & _ & h & I & Q)]; rewrite E; cbn [bind]; [eauto|]. right. split; [reflexivity|].
    exists (fst kv), h. split; [|exact Q]. rewrite Ev. cbn [entries_of]. pose proof (wf_val q "headers" W) as Wh. rewrite Ev in Wh. apply wf_dict in Wh as [Nd _].
    apply PyValFacts.lookup_nodup; assumption.
  Qed.
End Resp.
