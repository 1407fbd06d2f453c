(** * The results of the conversion to OpenAPI 3.0 can be loaded as OpenAPI 3.0 objects. *)
From Coq Require Import String Ascii List Bool Arith Lia.
From Verif Require Import PyStr PyStrFacts PyVal PyValFacts Jp UrlLib Obj ObjFacts Classes_v2_0 Classes_v3_0_0 TablesFacts SpecJson ShapeFacts SpecObj SpecSchema SpecConv SpecBody SpecOp SpecDoc Store Conv20 ConvFacts SchemaFacts SchemaFacts2 ParamFacts BodyFacts BodyFacts2 ParamListFacts ParamListFacts2 ParamListFacts3 OpFacts OpFacts2 PathFacts PathFacts2 DocFacts DocFacts2 TotalFacts SpecGiven SpecMigrate MigrateFacts MigrateFacts2 CompareFacts SpecInside.
Import ListNotations.
Open Scope string_scope. Open Scope nat_scope.

(** ** values inside values *)
Lemma refs_inside P j x : refs_in P j -> inside j x -> refs_in P x.
Proof.
  intros R Ix d v Id. apply (R d v). clear -Ix Id. induction Ix as [j|d' k v' x I' _ IH|l v' x I' _ IH]; [exact Id|exact (in_entry _ _ _ _ I' (IH Id))|exact (in_element _ _ _ I' (IH Id))].
Qed.
Lemma refs_val P d k : refs_in P (JDict d) -> refs_in P (val d k).
Proof.
  intros R. unfold val. destruct (lookup k d) as [v|] eqn:E; [|intros d' v Id; inversion Id]. apply (refs_inside P _ _ R). apply TablesFacts.lookup_In in E. exact (in_entry _ _ _ _ E (in_here _)).
Qed.
Lemma refs_entry P d k v : refs_in P (JDict d) -> In (k, v) d -> refs_in P v.
Proof. intros R E. apply (refs_inside P _ _ R). exact (in_entry _ _ _ _ E (in_here _)). Qed.
Lemma refs_element P l v : refs_in P (JList l) -> In v l -> refs_in P v.
Proof. intros R E. apply (refs_inside P _ _ R). exact (in_element _ _ _ E (in_here _)). Qed.
Lemma refs_own P d : refs_in P (JDict d) -> truthy (val d "$ref") = true -> P (val d "$ref").
Proof. intros R T. unfold val in *. destruct (lookup "$ref" d) as [v|] eqn:E; [|discriminate T]. exact (R d v (in_here _) E). Qed.
Lemma refs_mem P d : refs_in P (JDict d) -> is_reference d = true -> P (val d "$ref").
Proof. unfold is_reference, mem, val. intros R T. destruct (lookup "$ref" d) as [v|] eqn:E; [|discriminate T]. exact (R d v (in_here _) E). Qed.
Lemma refs_entries P d n k v : refs_in P (JDict d) -> lookup k (entries_of (val d n)) = Some v -> refs_in P v.
Proof.
  intros R L. pose proof (refs_val P d n R) as R'. destruct (val d n) as [| | | | | |e]; try discriminate L. apply TablesFacts.lookup_In in L. exact (refs_entry _ _ _ _ R' L).
Qed.
Lemma refs_any j : refs_in (fun _ => True) j. Proof. exact (fun _ _ _ _ => I). Qed.

(** ** shapes of converted values: like [shaped v30_table], but objects are dicts, some keys do not occur, and
    the "$ref" of Reference and path items is one for which [okref] holds *)
Definition unused : list (string * string) := [("MediaType", "examples"); ("Operation", "callbacks"); ("Components", "callbacks")].
Inductive tight (okref : string -> json -> Prop) : builder -> json -> Prop :=
| ti_str s : tight okref BStr (JStr s)
| ti_list b l : (forall x, In x l -> tight okref b x) -> tight okref (BListOf b) (JList l)
| ti_map b d : (forall k x, In (k, x) d -> tight okref b x) -> tight okref (BMapOf b) (JDict d)
| ti_object c cd d :
    lookup c v30_table = Some cd ->
    (forall ch v, In ch (c_children cd) -> lookup (ch_name ch) d = Some v -> v <> JNull -> tight okref (ch_builder ch) v) ->
    (forall ch, In ch (c_children cd) -> lookup (ch_name ch) d = None -> ch_required ch = false) ->
    (forall k, In (c, k) unused -> lookup k d = None) ->
    (forall v, In c ["Reference"; "PathItem"] -> lookup "$ref" d = Some v -> okref c v) ->
    tight okref (BCls c) (JDict d)
| ti_ref r b d v : lookup "$ref" d = Some v -> tight okref (BCls r) (JDict d) -> tight okref (BRefElse r b) (JDict d)
| ti_noref r b d : lookup "$ref" d = None -> tight okref b (JDict d) -> tight okref (BRefElse r b) (JDict d)
| ti_bool b v : tight okref (BBoolElse b) (JBool v)
| ti_nobool b j : (forall v, j <> JBool v) -> tight okref b j -> tight okref (BBoolElse b) j.
Lemma tight_shaped okref b j : tight okref b j -> shaped v30_table b j.
Proof.
  induction 1 as [s|b l _ IH|b d _ IH|c cd d L _ IH R _ _|r b d v L _ IH|r b d L _ IH|b v|b j N _ IH].
  - apply sh_str.
  - now apply sh_list.
  - now apply sh_map.
  - now apply sh_object with cd.
  - apply sh_ref; [now apply oc_dict with v|exact IH].
  - apply sh_noref; [exact I| |exact IH]. intros X. inversion X; congruence.
  - apply sh_bool.
  - now apply sh_nobool.
Qed.
Ltac kid L := cbn [ch_name ch_builder] in *; intros v L _.
Section Shapes.
Context {okref : string -> json -> Prop}.
Notation fits := (tight okref).
Notation good_refs := (refs_in (okref "Reference")).
Definition within (ks : list string) (d : dict) : Prop := forall k, ~ In k ks -> lookup k d = None.
Definition has (k : string) (ks : list string) : bool := existsb (String.eqb k) ks.
Lemma has_spec k ks : has k ks = true <-> In k ks.
Proof. unfold has. rewrite existsb_exists. split; [intros (x & I & E); apply String.eqb_eq in E; now subst|intros I; exists k; split; [exact I|apply String.eqb_refl]]. Qed.
Lemma has_not k ks : has k ks = false -> ~ In k ks.
Proof. intros H I. apply has_spec in I. congruence. Qed.
Definition kids_of30 (cd : classdef) (ks : list string) : list childdef := filter (fun ch => has (ch_name ch) ks) (c_children cd).
(** the keys of an object of class [c] are among [ks]: nothing to show about unused keys and references *)
Definition proper (c : string) (ks : list string) : bool :=
  forallb (fun ck => negb (String.eqb (fst ck) c) || negb (has (snd ck) ks)) unused && negb (String.eqb c "Reference" || String.eqb c "PathItem").
Lemma proper_unused c ks d : proper c ks = true -> within ks d -> forall k, In (c, k) unused -> lookup k d = None.
Proof.
  unfold proper. intros P O k Ik. apply andb_prop in P as [P _]. rewrite forallb_forall in P. specialize (P _ Ik). cbn [fst snd] in P. rewrite String.eqb_refl in P. cbn [negb orb] in P. apply O. apply has_not. now apply negb_true_iff.
Qed.
Lemma proper_ref c ks : proper c ks = true -> ~ In c ["Reference"; "PathItem"].
Proof. unfold proper. intros P Ic. apply andb_prop in P as [_ P]. cbn [In] in Ic. destruct Ic as [<-|[<-|[]]]; discriminate P. Qed.
Lemma fits_class' c cd ks d : lookup c v30_table = Some cd -> within ks d ->
  Forall (fun ch => forall v, lookup (ch_name ch) d = Some v -> v <> JNull -> fits (ch_builder ch) v) (kids_of30 cd ks) ->
  Forall (fun ch => lookup (ch_name ch) d <> None) (filter ch_required (c_children cd)) ->
  (forall k, In (c, k) unused -> lookup k d = None) -> (forall v, In c ["Reference"; "PathItem"] -> lookup "$ref" d = Some v -> okref c v) -> fits (BCls c) (JDict d).
Proof.
  intros Hc O F R U OR. apply ti_object with cd; [exact Hc| | |exact U|exact OR].
  - intros ch v I L N. rewrite Forall_forall in F. apply (F ch); [|exact L|exact N]. apply filter_In. split; [exact I|].
    destruct (has (ch_name ch) ks) eqn:E; [reflexivity|]. rewrite (O _ (has_not _ _ E)) in L. discriminate.
  - intros ch I L. destruct (ch_required ch) eqn:E; [|reflexivity]. rewrite Forall_forall in R. exfalso. apply (R ch); [|exact L]. now apply filter_In.
Qed.
Lemma fits_class c cd ks d : lookup c v30_table = Some cd -> proper c ks = true -> within ks d ->
  Forall (fun ch => forall v, lookup (ch_name ch) d = Some v -> v <> JNull -> fits (ch_builder ch) v) (kids_of30 cd ks) ->
  Forall (fun ch => lookup (ch_name ch) d <> None) (filter ch_required (c_children cd)) -> fits (BCls c) (JDict d).
Proof.
  intros Hc P O F R. apply (fits_class' c cd ks d Hc O F R); [exact (proper_unused c ks d P O)|]. intros v Ic. now elim (proper_ref c ks P).
Qed.
Lemma fits_leaf c cd ks d : lookup c v30_table = Some cd -> proper c ks = true -> within ks d -> kids_of30 cd ks = [] -> filter ch_required (c_children cd) = [] -> fits (BCls c) (JDict d).
Proof. intros Hc P O E R. apply (fits_class c cd ks d Hc P O); [rewrite E|rewrite R]; constructor. Qed.
Lemma fits_childless c cd j : lookup c v30_table = Some cd -> c_children cd = [] -> forallb (fun ck => negb (String.eqb (fst ck) c)) unused && negb (String.eqb c "Reference" || String.eqb c "PathItem") = true -> fits (BCls c) (JDict j).
Proof.
  intros Hc E P. apply andb_prop in P as [P Q]. apply ti_object with cd; [exact Hc| | | |]; rewrite ?E; [intros ? ? []|intros ? []| |].
  - intros k Ik. rewrite forallb_forall in P. specialize (P _ Ik). cbn [fst] in P. now rewrite String.eqb_refl in P.
  - intros v Ic. cbn [In] in Ic. destruct Ic as [<-|[<-|[]]]; discriminate Q.
Qed.
Lemma fits_noref r b ks d : within ks d -> has "$ref" ks = false -> fits b (JDict d) -> fits (BRefElse r b) (JDict d).
Proof. intros O E F. apply ti_noref; [exact (O _ (has_not _ _ E))|exact F]. Qed.
Lemma fits_ref b d v : lookup "$ref" d = Some v -> okref "Reference" v -> fits (BRefElse "Reference" b) (JDict d).
Proof.
  intros E G. apply ti_ref with v; [exact E|]. apply ti_object with v30_Reference; [reflexivity|intros ? ? []|intros ? []| |].
  - intros k Ik. cbn in Ik. destruct Ik as [X|[X|[X|[]]]]; discriminate X.
  - intros w _ L. congruence.
Qed.
Notation fits_schema := (fits (BRefElse "Reference" (BCls "Schema"))).

(** ** schemas *)
Lemma schema_fits : forall s', (forall s, schema_doc s -> good_refs s -> schema_image s s' -> fits_schema s') /\
  (forall l l', s' = JList l' -> Forall schema_doc l -> good_refs (JList l) -> Forall2 schema_image l l' -> forall x, In x l' -> fits_schema x) /\
  (forall p p', s' = JDict p' -> Forall (fun kv => schema_doc (snd kv)) p -> good_refs (JDict p) -> Forall2 (fun a b : string * json => fst a = fst b /\ schema_image (snd a) (snd b)) p p' -> forall k x, In (k, x) p' -> fits_schema x).
Proof.
  apply (json_part_ind (fun s' => _)). intros s' IH. split; [|split].
  - intros s D G H. inversion H as [d T|d T Ty|d d' T Ty Hc Hr1 Hr2 Hi1 Hi2 Ha1 Ha2 Hp1 Hp2 Hd1 Hd2 Hd3 Hdi Hx1 Hx2 He1 He2 Hk]; subst.
    + apply (fits_ref _ _ (val d "$ref")); [reflexivity|]. now apply refs_own.
    + apply (fits_noref _ _ ["type"; "format"]); [intros k N; cbn [lookup]; cbn [In] in N; destruct (String.eqb_spec k "type"); [now subst; tauto|]; destruct (String.eqb_spec k "format"); [subst; tauto|reflexivity]|reflexivity|].
      apply (fits_leaf _ v30_Schema ["type"; "format"]); [reflexivity|reflexivity| |reflexivity|reflexivity].
      intros k N; cbn [lookup]; cbn [In] in N; destruct (String.eqb_spec k "type"); [now subst; tauto|]; destruct (String.eqb_spec k "format"); [subst; tauto|reflexivity].
    + set (ks := (copied_keywords ++ other_keywords)%list) in *. assert (O : within ks d'). { intros k N. destruct (lookup k d') eqn:E; [|reflexivity]. destruct N. exact (Hk k _ E). }
      inversion D as [d0 D1 D2 D3 D4 D5 D6]; subst d0.
      assert (Pt : forall k x, lookup k d' = Some x -> part x (JDict d')). { intros k x E. exists k. now apply TablesFacts.lookup_In. }
      apply (fits_noref _ _ ks _ O eq_refl). apply (fits_class "Schema" v30_Schema ks d' eq_refl eq_refl O); [|constructor].
      change (kids_of30 v30_Schema ks) with [mk_child "discriminator" (BCls "Discriminator") false; mk_child "xml" (BCls "XML_") false; mk_child "externalDocs" (BCls "ExternalDocumentation") false; mk_child "allOf" (BListOf (BRefElse "Reference" (BCls "Schema"))) false;
         mk_child "items" (BRefElse "Reference" (BCls "Schema")) false; mk_child "properties" (BMapOf (BRefElse "Reference" (BCls "Schema"))) false; mk_child "additionalProperties" (BBoolElse (BRefElse "Reference" (BCls "Schema"))) false].
      repeat (apply Forall_cons; [kid L|]); [| | | | | | |apply Forall_nil].
      * rewrite Hdi in L. destruct (truthy (val d "discriminator")); [|discriminate]. injection L as <-. apply (fits_leaf _ v30_Discriminator ["propertyName"]); [reflexivity|reflexivity| |reflexivity|reflexivity].
        intros k N. cbn [lookup]. destruct (String.eqb_spec k "propertyName"); [subst; cbn in N; tauto|reflexivity].
      * destruct D5 as [D5|[x D5]]; [rewrite (Hx2 D5) in L; discriminate|]. destruct (Hx1 x D5) as (x' & E & _). assert (v = JDict x') by congruence. subst. now apply (fits_childless _ v30_XML).
      * destruct D6 as [D6|[x D6]]; [rewrite (He2 D6) in L; discriminate|]. destruct (He1 x D6) as (x' & E & _). assert (v = JDict x') by congruence. subst. now apply (fits_childless _ v30_ExternalDocumentation).
      * destruct D2 as [D2|(l & D2 & Fl)]; [rewrite Ha2 in L by (now left); discriminate|]. destruct l as [|a l]; [rewrite Ha2 in L by (now right); discriminate|]. destruct (Ha1 _ D2 ltac:(discriminate)) as (l' & E & F2). assert (v = JList l') by congruence. subst.
        pose proof (refs_val _ d "allOf" G) as G'. rewrite D2 in G'. apply ti_list. exact (proj1 (proj2 (IH _ (Pt _ _ L))) _ _ eq_refl Fl G' F2).
      * destruct D1 as [D1|D1]; [rewrite (Hi2 D1) in L; discriminate|]. assert (Ni : val d "items" <> JNull) by (intros Z; rewrite Z in D1; inversion D1). destruct (Hi1 Ni) as (x & E & Im). assert (v = x) by congruence. subst. exact (proj1 (IH _ (Pt _ _ L)) _ D1 (refs_val _ d "items" G) Im).
      * destruct D3 as [D3|(p & D3 & Fl)]; [rewrite Hp2 in L by (now left); discriminate|]. destruct p as [|a p]; [rewrite Hp2 in L by (now right); discriminate|]. destruct (Hp1 _ D3 ltac:(discriminate)) as (p' & E & F2). assert (v = JDict p') by congruence. subst.
        pose proof (refs_val _ d "properties" G) as G'. rewrite D3 in G'. apply ti_map. exact (proj2 (proj2 (IH _ (Pt _ _ L))) _ _ eq_refl Fl G' F2).
      * destruct D4 as [D4|[[b D4]|D4]]; [rewrite Hd3 in L by (now right); discriminate| |].
        -- destruct b; [rewrite Hd3 in L by (now left); discriminate|]. rewrite (Hd2 D4) in L. injection L as <-. apply ti_bool.
        -- assert (Xa : exists a, val d "additionalProperties" = JDict a) by (clear -D4; inversion D4; eauto). destruct Xa as [a Ea]. pose proof (refs_val _ d "additionalProperties" G) as G'. rewrite Ea in D4, G'. destruct (Hd1 a Ea) as (x & E & Im). assert (v = x) by congruence. subst. apply ti_nobool; [inversion Im; discriminate|]. exact (proj1 (IH _ (Pt _ _ L)) _ D4 G' Im).
  - intros l l' -> Fl G F2 x Ix. destruct (In_nth_error _ _ Ix) as [i Ei].
    assert (X : exists s, In s l /\ schema_image s x). { clear -F2 Ix. induction F2 as [|a b l l' R F2 IH]; [destruct Ix|]. destruct Ix as [<-|Ix]; [exists a; split; [now left|exact R]|]. destruct (IH Ix) as (s & I' & R'). exists s. split; [now right|exact R']. }
    destruct X as (s & Is & Im). rewrite Forall_forall in Fl. exact (proj1 (IH x Ix) s (Fl s Is) (refs_element _ _ _ G Is) Im).
  - intros p p' -> Fl G F2 k x Ix.
    assert (X : exists s, In s p /\ schema_image (snd s) x). { clear -F2 Ix. induction F2 as [|a b l l' [E R] F2 IH]; [destruct Ix|]. destruct Ix as [E0|Ix]; [subst b; exists a; split; [now left|exact R]|]. destruct (IH Ix) as (s & I' & R'). exists s. split; [now right|exact R']. }
    destruct X as (s & Is & Im). rewrite Forall_forall in Fl. apply (proj1 (IH x (ex_intro _ k Ix)) (snd s) (Fl s Is)); [|exact Im]. destruct s as [k' s]. exact (refs_entry _ _ _ _ G Is).
Qed.
Lemma schema_image_fits s s' : schema_doc s -> good_refs s -> schema_image s s' -> fits_schema s'.
Proof. exact (proj1 (schema_fits s') s). Qed.
Lemma items_image_fits : forall s' s, items_doc s -> items_image s s' -> fits_schema s'.
Proof.
  apply (json_part_ind (fun s' => forall s, items_doc s -> items_image s s' -> fits_schema s')). intros s' IH s D H. inversion H as [d d' H1 H2 H3 H4]; subst. inversion D as [d0 D1]; subst d0.
  set (ks := "items" :: base_keywords) in *. assert (O : within ks d') by exact H4.
  apply (fits_noref _ _ ks _ O eq_refl). apply (fits_class "Schema" v30_Schema ks d' eq_refl eq_refl O); [|constructor].
  change (kids_of30 v30_Schema ks) with [mk_child "items" (BRefElse "Reference" (BCls "Schema")) false]. apply Forall_cons; [|constructor]. kid L.
  destruct D1 as [D1|D1]; [rewrite (H2 D1) in L; discriminate|]. assert (Ni : val d "items" <> JNull) by (intros Z; rewrite Z in D1; inversion D1). destruct (H3 Ni) as (x & E & Im). assert (v = x) by congruence. subst.
  apply (IH x) with (val d "items"); [exists "items"; now apply TablesFacts.lookup_In|exact D1|exact Im].
Qed.
(** the schema of a parameter or header itself *)
Lemma own_schema_fits q s : (val q "items" = JNull \/ items_doc (val q "items")) -> items_image (JDict q) s -> fits_schema s.
Proof. intros D. apply items_image_fits. now constructor. Qed.
End Shapes.
