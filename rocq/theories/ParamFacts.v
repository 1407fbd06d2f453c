(** Proofs about the conversion of parameters: style table, items, non-body parameters. *)
From Coq Require Import String Ascii List Bool Arith Lia.
From Verif Require Import PyStr PyStrFacts PyVal PyValFacts Jp UrlLib Obj ObjFacts Classes_v2_0 TablesFacts SpecJson ShapeFacts DumpFacts SpecObj SpecSchema SpecConv Store Conv20 ConvFacts SchemaFacts SchemaFacts2.
Import ListNotations.
Open Scope string_scope. Open Scope nat_scope.

(** ** the style table *)
Definition style_lookup (f i : string) : option string * option bool :=
  match find (fun r => String.eqb f (fst (fst r)) && String.eqb i (snd (fst r))) style_table with Some r => snd r | None => no_style end.
Lemma json_is_str_spec s j : json_is_str s j = true <-> j = JStr s.
Proof. unfold json_is_str. destruct j; try (split; discriminate). rewrite String.eqb_eq. split; congruence. Qed.
Lemma json_is_str_no s j : json_is_str s j = false <-> j <> JStr s.
Proof. rewrite <- json_is_str_spec. destruct (json_is_str s j); split; congruence. Qed.
Lemma json_is_str_str s t : json_is_str s (JStr t) = String.eqb s t. Proof. reflexivity. Qed.
Lemma style_raises f i t : to_style_and_explode f i t = Err SchemaError <-> query_array_only f /\ ~ (i = JStr "query" /\ t = JStr "array").
Proof.
  unfold to_style_and_explode, query_array_only.
  assert (Q : negb (json_is_str "query" i) || negb (json_is_str "array" t) = false <-> (i = JStr "query" /\ t = JStr "array")).
  { rewrite orb_false_iff, !negb_false_iff, !json_is_str_spec. reflexivity. }
  destruct (json_is_str "csv" f) eqn:E1; [apply json_is_str_spec in E1; subst; split; [|intros [[H|H] _]; discriminate H]; destruct (json_is_str "query" i), (json_is_str "path" i || json_is_str "header" i); discriminate|].
  destruct (json_is_str "ssv" f) eqn:E2.
  { apply json_is_str_spec in E2; subst. destruct (negb _ || negb _); split; intros H; try discriminate.
    - split; [now left|]. intros X. apply Q in X. discriminate.
    - reflexivity.
    - destruct H as [_ H]. destruct H. now apply Q. }
  destruct (json_is_str "pipes" f) eqn:E3.
  { apply json_is_str_spec in E3; subst. destruct (negb _ || negb _); split; intros H; try discriminate.
    - split; [now right|]. intros X. apply Q in X. discriminate.
    - reflexivity.
    - destruct H as [_ H]. destruct H. now apply Q. }
  apply json_is_str_no in E2, E3. split; [|intros [[H|H] _]; contradiction]. destruct (json_is_str "multi" f), (json_is_str "query" i); discriminate.
Qed.
Definition style_spec (f i : json) : option string * option bool :=
  match f, i with JStr f, JStr i => style_lookup f i | _, _ => no_style end.
Lemma style_result f i t se : to_style_and_explode f i t = Ok se -> se = style_spec f i.
Proof.
  unfold to_style_and_explode. intros H.
  destruct f as [| | | |f| |]; cbn [json_is_str] in H; try (injection H as <-; reflexivity).
  destruct (String.eqb_spec "csv" f) as [<-|N1].
  { destruct i as [| | | |i| |]; cbn [json_is_str orb] in H; try (injection H as <-; reflexivity). cbn [style_spec].
    destruct (String.eqb_spec "query" i) as [<-|M1]; [injection H as <-; reflexivity|].
    destruct (String.eqb_spec "path" i) as [<-|M2]; [injection H as <-; reflexivity|].
    destruct (String.eqb_spec "header" i) as [<-|M3]; [injection H as <-; reflexivity|]. injection H as <-.
    unfold style_lookup. cbn -[String.eqb]. apply not_eq_sym, String.eqb_neq in M1, M2, M3. rewrite M1, M2, M3. reflexivity. }
  destruct (String.eqb_spec "ssv" f) as [<-|N2].
  { destruct (negb _ || negb _) eqn:Q; [discriminate|]. injection H as <-. apply orb_false_iff in Q as [Q _]. apply negb_false_iff in Q. apply json_is_str_spec in Q. subst i. reflexivity. }
  destruct (String.eqb_spec "pipes" f) as [<-|N3].
  { destruct (negb _ || negb _) eqn:Q; [discriminate|]. injection H as <-. apply orb_false_iff in Q as [Q _]. apply negb_false_iff in Q. apply json_is_str_spec in Q. subst i. reflexivity. }
  destruct (String.eqb_spec "multi" f) as [<-|N4].
  { destruct i as [| | | |i| |]; cbn [json_is_str] in H; try (injection H as <-; reflexivity).
    destruct (String.eqb_spec "query" i) as [<-|M1]; injection H as <-; [reflexivity|].
    cbn [style_spec]. unfold style_lookup. cbn -[String.eqb]. apply not_eq_sym, String.eqb_neq in M1. rewrite M1. reflexivity. }
  injection H as <-. destruct i as [| | | |i| |]; try reflexivity. cbn [style_spec]. unfold style_lookup. cbn -[String.eqb].
  apply not_eq_sym, String.eqb_neq in N1, N2, N3, N4. rewrite N1, N2, N3, N4. reflexivity.
Qed.
Lemma style_errors f i t e : to_style_and_explode f i t = Err e -> e = SchemaError.
Proof.
  unfold to_style_and_explode. repeat match goal with |- context [if ?b then _ else _] => destruct b end; try discriminate; intros H; injection H as <-; reflexivity.
Qed.
Lemma style_total f i t : (exists se, to_style_and_explode f i t = Ok se) \/ to_style_and_explode f i t = Err SchemaError.
Proof. destruct (to_style_and_explode f i t) as [se|e] eqn:E; [left; eauto|right]. apply style_errors in E. now subst. Qed.
Lemma style_nonempty f i s b : style_spec f i = (Some s, b) -> truthy_str s = true.
Proof.
  unfold style_spec, style_lookup. destruct f, i; try discriminate. destruct (find _ _) as [r|] eqn:E; [|discriminate]. apply find_some in E as [E _].
  repeat (destruct E as [<-|E]; [intros H; injection H as <-; reflexivity|]). destruct E.
Qed.
Lemma put_style_lookup f i d k : lookup "style" d = None -> lookup "explode" d = None -> let se := style_spec f i in
  lookup k (put_style se d) = if String.eqb "style" k then option_map JStr (fst se) else if String.eqb "explode" k then option_map JBool (snd se) else lookup k d.
Proof.
  intros H1 H2 se. unfold put_style. destruct se as [st ex] eqn:E. cbn [fst snd].
  assert (A : lookup k (match st with Some s => if truthy_str s then dict_set "style" (JStr s) d else d | None => d end) =
              if String.eqb "style" k then option_map JStr st else lookup k d).
  { destruct st as [s|]; cbn [option_map].
    - unfold se in E. rewrite (style_nonempty _ _ _ _ E), lookup_dict_set, String.eqb_sym. reflexivity.
    - destruct (String.eqb_spec "style" k) as [<-|]; [exact H1|reflexivity]. }
  destruct ex as [b|]; cbn [option_map].
  - rewrite lookup_dict_set, A. rewrite (String.eqb_sym k). destruct (String.eqb_spec "explode" k) as [<-|]; reflexivity.
  - rewrite A. destruct (String.eqb_spec "style" k) as [<-|]; [reflexivity|]. destruct (String.eqb_spec "explode" k) as [<-|]; [exact H2|reflexivity].
Qed.

(** ** items *)
Lemma base_fields c d o : forallb (readable c) base_keywords = true -> forallb (fun k => negb (undeclared c k)) base_keywords = true -> loaded (BCls c) (JDict d) o ->
  exists fs, generate_fields o BASE_SCHEMA_FIELDS = Ok fs /\ NoDup (keys fs) /\ forall k, lookup k fs = if in_dec string_dec k base_keywords then non_null (val d k) else None.
Proof.
  intros R U L. rewrite forallb_forall in R, U. destruct (generate_fields_ok o (val d) BASE_SCHEMA_FIELDS) as (fs & E & N & F).
  - intros n Hn. rewrite (gfield_none_val c d o n L (R n Hn)). unfold fval. specialize (U n Hn). now rewrite (proj1 (negb_true_iff _) U).
  - exists fs. auto.
Qed.
Lemma items_image_of (d fs : dict) (x : option json) :
  (forall k, lookup k fs = if in_dec string_dec k base_keywords then non_null (val d k) else None) ->
  (val d "items" = JNull -> x = None) -> (val d "items" <> JNull -> exists s', x = Some s' /\ items_image (val d "items") s') ->
  items_image (JDict d) (JDict (opt_set "items" x fs)).
Proof.
  intros F X1 X2. assert (Fi : lookup "items" fs = None) by (rewrite F; reflexivity). pose proof (lookup_opt_set_fresh "items" x fs Fi) as G.
  constructor.
  - intros k Hk. rewrite G. assert (Nk : String.eqb "items" k = false) by (repeat (destruct Hk as [<-|Hk]; [reflexivity|]); destruct Hk).
    rewrite Nk, F. destruct (in_dec string_dec k base_keywords); [reflexivity|contradiction].
  - intros H. rewrite G. cbn. auto.
  - intros H. rewrite G. cbn. auto.
  - intros k Hk. rewrite G. destruct (String.eqb_spec "items" k) as [<-|Nk]; [destruct Hk; now left|]. rewrite F.
    destruct (in_dec string_dec k base_keywords) as [I|]; [destruct Hk; now right|reflexivity].
Qed.
Lemma from_items_image : forall n j o, items_doc j -> loaded (BCls "Items") j o -> osize o <= n ->
  exists d', from_items_n n o = Ok d' /\ items_image j (JDict d').
Proof.
  induction n as [|n IH]; intros j o S L Sz; [pose proof (osize_pos o); lia|]. inversion S as [d Hi Ej]; subst j. cbn [from_items_n].
  rewrite (gfield_none_val "Items" d o "$ref" L eq_refl). cbn [bind]. change (fval "Items" d "$ref") with JNull. cbn [truthy].
  destruct (base_fields "Items" d o eq_refl eq_refl L) as (fs & -> & Nf & F). cbn [bind].
  destruct (gattr_child "Items" d o "items" _ L eq_refl) as [[Hv G]|(Hv & ko & G & Lk & Sk)]; rewrite G; cbn [bind].
  - cbn [truthy_obj truthy]. exists fs. split; [reflexivity|]. apply (items_image_of d fs None F); [reflexivity|contradiction].
  - rewrite (loaded_cls_truthy "Items" _ _ ltac:(discriminate) Lk). destruct Hi as [?|Hi]; [contradiction|].
    destruct (IH _ _ Hi Lk ltac:(lia)) as (x & -> & Im). cbn [bind]. eexists. split; [reflexivity|].
    apply (items_image_of d fs (Some (JDict x)) F); [contradiction|eauto].
Qed.
(** the items of a parameter or header *)
Lemma items_of c d o : child_builder c "items" = Some (BCls "Items") -> loaded (BCls c) (JDict d) o -> (val d "items" = JNull \/ items_doc (val d "items")) ->
  exists x io, gattr o "items" = Ok io /\
    (forall ret : dict, (if truthy_obj io then (x <- from_items io ;; Ok (dict_set "items" (JDict x) ret)) else Ok ret) = Ok (opt_set "items" x ret)) /\
    (val d "items" = JNull -> x = None) /\ (val d "items" <> JNull -> exists s', x = Some s' /\ items_image (val d "items") s').
Proof.
  intros C L Hi. destruct (gattr_child c d o "items" _ L C) as [[Hv G]|(Hv & ko & G & Lk & Sk)].
  - exists None, (OPrim JNull). split; [exact G|]. split; [reflexivity|]. split; [reflexivity|contradiction].
  - destruct Hi as [?|Hi]; [contradiction|]. destruct (from_items_image (osize ko) _ _ Hi Lk (le_n _)) as (x & E & Im).
    exists (Some (JDict x)), ko. split; [exact G|]. rewrite (loaded_cls_truthy "Items" _ _ ltac:(discriminate) Lk). unfold from_items. rewrite E.
    split; [reflexivity|]. split; [contradiction|eauto].
Qed.
Lemma is_set_val c d o k : loaded (BCls c) (JDict d) o -> lookup c v20_table <> None -> is_set o k = Ok (mem k d).
Proof. intros L H. destruct (lookup c v20_table) as [cd|] eqn:E; [|contradiction]. destruct (loaded_obj c cd _ _ E L) as (p & kids & -> & _). reflexivity. Qed.
Lemma collection_format c d o : field_default c "collectionFormat" = Some (JStr "csv") -> loaded (BCls c) (JDict d) o ->
  gfield o "collectionFormat" = Ok (match lookup "collectionFormat" d with Some v => v | None => JStr "csv" end).
Proof. intros F L. unfold gfield. rewrite (gattr_field c d o _ _ L F). reflexivity. Qed.

Lemma style_of_spec q v : lookup "collectionFormat" q = Some v -> style_of q (val q "in") = style_spec v (val q "in").
Proof. unfold style_of, style_spec, style_lookup. intros ->. destruct v; reflexivity. Qed.

(** ** non-body parameters *)
Lemma to_parameter_ok q o p : loaded (BCls "Parameter") (JDict q) o -> param_doc q -> to_parameter o = Ok p -> param_image q p.
Proof.
  intros L (Hi & _ & _). unfold to_parameter.
  destruct (generate_fields_ok o (val q) ["description"; "required"; "allowEmptyValue"]) as (fs & -> & Nf & F).
  { intros n Hn. repeat (destruct Hn as [<-|Hn]; [match goal with |- gfield_none o ?n = _ => exact (gfield_none_val "Parameter" q o n L eq_refl) end|]). destruct Hn. }
  cbn [bind]. rewrite (gfield_none_val "Parameter" q o "type" L eq_refl), (gfield_none_val "Parameter" q o "in" L eq_refl). cbn [bind].
  change (fval "Parameter" q "type") with (val q "type"). change (fval "Parameter" q "in") with (val q "in").
  destruct (base_fields "Parameter" q o eq_refl eq_refl L) as (bs & -> & Nb & B). cbn [bind].
  rewrite (gfield_val "Parameter" q o "name" L eq_refl). cbn [bind].
  destruct (items_of "Parameter" q o eq_refl L Hi) as (x & io & -> & Ei & X1 & X2). cbn [bind]. rewrite Ei. cbn [bind]. clear Ei.
  pose proof (items_image_of q bs x B X1 X2) as Im. set (sch := opt_set "items" x bs) in *.
  set (ret1 := match sch with [] => fs | _ => dict_set "schema" (JDict sch) fs end).
  assert (R1 : forall k, lookup k ret1 = if String.eqb "schema" k then match sch with [] => None | _ => Some (JDict sch) end else lookup k fs).
  { intros k. unfold ret1. destruct sch.
    - destruct (String.eqb_spec "schema" k) as [<-|]; [rewrite F|]; reflexivity.
    - rewrite lookup_dict_set, String.eqb_sym. reflexivity. }
  set (ret2 := dict_set "in" (val q "in") (dict_set "name" (val q "name") ret1)).
  assert (R2 : forall k, lookup k ret2 = if String.eqb "in" k then Some (val q "in") else if String.eqb "name" k then Some (val q "name") else lookup k ret1).
  { intros k. unfold ret2. rewrite !lookup_dict_set. now rewrite (String.eqb_sym k "in"), (String.eqb_sym k "name"). }
  rewrite (is_set_val "Parameter" q o _ L ltac:(discriminate)). cbn [bind].
  intros H. assert (R3 : forall k, lookup k p = if String.eqb "style" k then option_map JStr (fst (style_of q (val q "in"))) else if String.eqb "explode" k then option_map JBool (snd (style_of q (val q "in"))) else lookup k ret2).
  { intros k. assert (S1 : lookup "style" ret2 = None) by (rewrite R2; cbn; rewrite R1; cbn; rewrite F; reflexivity).
    assert (S2 : lookup "explode" ret2 = None) by (rewrite R2; cbn; rewrite R1; cbn; rewrite F; reflexivity).
    unfold mem in H. destruct (lookup "collectionFormat" q) as [v|] eqn:Ec.
    - rewrite (collection_format "Parameter" q o eq_refl L), Ec in H. cbn [bind] in H. apply bind_ok in H as (se & E & H). injection H as <-. apply style_result in E. subst se.
      rewrite (style_of_spec q v Ec). now apply put_style_lookup.
    - injection H as <-. assert (Es : style_of q (val q "in") = no_style) by (unfold style_of; now rewrite Ec). rewrite Es. cbn [no_style fst snd option_map].
      destruct (String.eqb_spec "style" k) as [<-|]; [exact S1|]. destruct (String.eqb_spec "explode" k) as [<-|]; [exact S2|reflexivity]. }
  split; [|split; [|split; [|split; [|split]]]].
  - intros k Hk. rewrite R3, R2, R1, F. repeat (destruct Hk as [<-|Hk]; [reflexivity|]). destruct Hk.
  - intros k Hk. rewrite R3, R2. repeat (destruct Hk as [<-|Hk]; [reflexivity|]). destruct Hk.
  - rewrite R3, R2, R1. cbn [String.eqb Ascii.eqb Bool.eqb]. destruct sch as [|e sch'] eqn:Es; [|exact Im].
    inversion Im as [d0 s0 A1 A2 A3 A4]; subst. split.
    + intros k Hk. specialize (A1 k Hk). cbn [lookup] in A1. destruct (val q k); [reflexivity|discriminate A1..].
    + destruct (json_null_dec (val q "items")) as [E|E]; [exact E|]. destruct (A3 E) as (s' & E' & _). discriminate.
  - rewrite R3. reflexivity.
  - rewrite R3. reflexivity.
  - intros k Hk. rewrite R3, R2, R1, F.
    repeat match goal with |- context [String.eqb ?s k] => destruct (String.eqb_spec s k) as [<-|?]; [exfalso; apply Hk; in_list|] end.
    destruct (in_dec string_dec k _) as [I|]; [|reflexivity]. exfalso. apply Hk. repeat (destruct I as [<-|I]; [in_list|]). destruct I.
Qed.
Lemma to_parameter_total q o : loaded (BCls "Parameter") (JDict q) o -> param_doc q ->
  (exists p, to_parameter o = Ok p) \/ (to_parameter o = Err SchemaError /\ query_array_only (val q "collectionFormat") /\ ~ (val q "in" = JStr "query" /\ val q "type" = JStr "array")).
Proof.
  intros L (Hi & _ & _). unfold to_parameter.
  destruct (generate_fields_ok o (val q) ["description"; "required"; "allowEmptyValue"]) as (fs & -> & Nf & F).
  { intros n Hn. repeat (destruct Hn as [<-|Hn]; [match goal with |- gfield_none o ?n = _ => exact (gfield_none_val "Parameter" q o n L eq_refl) end|]). destruct Hn. }
  cbn [bind]. rewrite (gfield_none_val "Parameter" q o "type" L eq_refl), (gfield_none_val "Parameter" q o "in" L eq_refl). cbn [bind].
  change (fval "Parameter" q "type") with (val q "type"). change (fval "Parameter" q "in") with (val q "in").
  destruct (base_fields "Parameter" q o eq_refl eq_refl L) as (bs & -> & Nb & B). cbn [bind].
  rewrite (gfield_val "Parameter" q o "name" L eq_refl). cbn [bind].
  destruct (items_of "Parameter" q o eq_refl L Hi) as (x & io & -> & Ei & X1 & X2). cbn [bind]. rewrite Ei. cbn [bind]. clear Ei.
  rewrite (is_set_val "Parameter" q o _ L ltac:(discriminate)). cbn [bind]. unfold mem. destruct (lookup "collectionFormat" q) as [v|] eqn:Ec; [|left; eauto].
  rewrite (collection_format "Parameter" q o eq_refl L), Ec. cbn [bind].
  destruct (style_total v (val q "in") (val q "type")) as [[se ->]|E]; [left; cbn [bind]; eauto|]. rewrite E. right. split; [reflexivity|]. apply val_some in Ec. rewrite Ec. now apply style_raises in E.
Qed.
