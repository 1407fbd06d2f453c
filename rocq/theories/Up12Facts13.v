(** Conversion of Swagger 1.2 objects: what is written in the resulting document. *)
From Coq Require Import String Ascii List Bool Arith ZArith Lia.
From Verif Require Import PyStr PyStrFacts PyVal PyValFacts Jp JpFacts Scope SpecUrl UrlLib UrlFacts Obj SpecObj SpecJson ObjFacts ShapeFacts TablesFacts SpecTables Classes_v1_2 Classes_v2_0 Scan PropertiesObjAux DumpFacts SpecInside SpecDoc SpecFollow
  Up12 SpecUp12 SpecOpen12 Up12Facts NumeralFacts Up12Facts2 Up12Facts3 Up12Facts4 Up12Facts5 Up12Facts6 Up12Facts7 Up12Facts8 Up12Facts9 Up12Facts10 Up12Facts11.
Import ListNotations.
Open Scope string_scope. Open Scope nat_scope.

(** ** values typed by the classes of 2.0, with a condition on every object and on every map *)
Inductive nice (P : string -> doc -> Prop) (Q : doc -> Prop) : builder -> json -> Prop :=
| ni_str s : nice P Q BStr (JStr s)
| ni_list b l : (forall x, In x l -> nice P Q b x) -> nice P Q (BListOf b) (JList l)
| ni_map b d : Q d -> (forall k x, In (k, x) d -> nice P Q b x) -> nice P Q (BMapOf b) (JDict d)
| ni_object c cd d : lookup c v20_table = Some cd -> P c d ->
    (forall ch v, In ch (c_children cd) -> lookup (ch_name ch) d = Some v -> v <> JNull -> nice P Q (ch_builder ch) v) ->
    (forall ch, In ch (c_children cd) -> ch_required ch = true -> lookup (ch_name ch) d <> None) -> nice P Q (BCls c) (JDict d)
| ni_noref r b d : lookup "$ref" d = None -> nice P Q b (JDict d) -> nice P Q (BRefElse r b) (JDict d).
Lemma nice_typed (P P' : string -> doc -> Prop) Q : (forall c d, P c d -> P' c d) -> forall b j, nice P Q b j -> SpecFollow.typed v20_table P' b j.
Proof. intros PP. induction 1; try (constructor; eauto; fail). eapply ty_object; eauto. Qed.
Definition child_of (c k : string) : Prop := exists cd ch, lookup c v20_table = Some cd /\ In ch (c_children cd) /\ ch_name ch = k.
Lemma child_ofb c cd k : lookup c v20_table = Some cd -> existsb (fun ch => String.eqb (ch_name ch) k) (c_children cd) = true -> child_of c k.
Proof. intros H E. apply existsb_exists in E as (ch & I & En). apply String.eqb_eq in En. exists cd, ch. auto. Qed.
Lemma no_refs_in R v : no_refs v -> refs_in R v.
Proof. intros N d r I L. rewrite (N d I) in L. discriminate. Qed.
Lemma nice_refs (P : string -> doc -> Prop) (Q : doc -> Prop) (R : json -> Prop) : (forall c d, P c d -> (forall v, lookup "$ref" d = Some v -> R v) /\ forall k v, lookup k d = Some v -> k <> "$ref" -> child_of c k \/ no_refs v) ->
  (forall c d v, P c d -> lookup "$ref" d = Some v -> no_refs v) ->
  (forall d, Q d -> lookup "$ref" d = None) -> forall b j, nice P Q b j -> wf_json j -> refs_in R j.
Proof.
  intros HP HR HQ. induction 1 as [s|b l H IH|b d Qd H IH|c cd d Hc Pc K IH Rq|r b d L H IH]; intros W.
  - intros d r I. inversion I.
  - intros d r I L. inversion I as [| |? v x Iv Ix]; subst. assert (Wv : wf_json v) by (exact (proj1 (wf_list _) W _ Iv)). exact (IH v Iv Wv d r Ix L).
  - intros d' r I L. inversion I as [|? k v x Iv Ix|]; subst; [rewrite (HQ _ Qd) in L; discriminate|]. assert (Wv : wf_json v) by (exact (proj2 (proj1 (wf_dict _) W) _ _ Iv)). exact (IH k v Iv Wv d' r Ix L).
  - intros d' r I L. destruct (HP _ _ Pc) as [H1 H2]. inversion I as [|? k v x Iv Ix|]; subst; [exact (H1 r L)|].
    apply wf_dict in W as [N W]. pose proof (lookup_nodup _ _ _ N Iv) as Lk.
    destruct (string_dec k "$ref") as [-> |Nk]; [exact (no_refs_in R v (HR _ _ _ Pc Lk) d' r Ix L)|].
    destruct (H2 k v Lk Nk) as [(cd' & ch & Hc' & Ic & <-)|B]; [|exact (no_refs_in R v B d' r Ix L)]. assert (cd' = cd) by congruence. subst cd'.
    assert (Nv : v <> JNull) by (intros ->; inversion Ix). exact (IH ch v Ic Lk Nv (W _ _ Iv) d' r Ix L).
  - exact (IH W).
Qed.

Lemma no_refs_null : no_refs JNull. Proof. intros x I. inversion I. Qed.
Lemma no_refs_str s : no_refs (JStr s). Proof. intros x I. inversion I. Qed.
Lemma no_refs_bool s : no_refs (JBool s). Proof. intros x I. inversion I. Qed.
Lemma no_refs_int s : no_refs (JInt s). Proof. intros x I. inversion I. Qed.
Lemma no_refs_float s : no_refs (JFloat s). Proof. intros x I. inversion I. Qed.
Lemma no_refs_list l : (forall v, In v l -> no_refs v) -> no_refs (JList l).
Proof. intros H x I. inversion I as [| |? v y Iv Iy]; subst. exact (H v Iv x Iy). Qed.

(** ** the parts of a 1.2 document *)
Definition W12 (P : string -> doc -> Prop) (c : string) (t : json) : Prop := SpecFollow.typed v12_table P (BCls c) t.
Lemma W12_dict P c t : W12 P c t -> exists d, t = JDict d. Proof. intros H. inversion H. eauto. Qed.
Lemma W12_child P c cd t ch : W12 P c t -> lookup c v12_table = Some cd -> In ch (c_children cd) -> get t (ch_name ch) = JNull \/ SpecFollow.typed v12_table P (ch_builder ch) (get t (ch_name ch)).
Proof.
  intros H E I. inversion H as [| | |c0 cd0 x Ec _ K _| | | |]; subst. assert (cd0 = cd) by congruence. subst cd0. unfold get. cbn [fields].
  destruct (lookup (ch_name ch) x) as [v|] eqn:L; [|now left]. destruct v; [now left|right; eapply K; eauto; discriminate..].
Qed.
Definition bare_all (ks : list string) (t : json) : Prop := forall k, In k ks -> no_refs (get t k).
Lemma W12_bare c cd t ks : W12 plain_fields c t -> lookup c v12_table = Some cd -> forallb (fun k => existsb (fun f => String.eqb (f_name f) k) (c_fields cd)) ks = true -> bare_all ks t.
Proof.
  intros H E F k I. rewrite forallb_forall in F. specialize (F k I). apply existsb_exists in F as (f & If & Ef). apply String.eqb_eq in Ef. subst k.
  inversion H as [| | |c0 cd0 x Ec Pf _ _| | | |]; subst. unfold get. cbn [fields]. destruct (lookup (f_name f) x) as [v|] eqn:L; [exact (Pf _ _ _ E If L)|apply no_refs_null].
Qed.
Lemma W12_elem P c cd t n c' x : W12 P c t -> lookup c v12_table = Some cd -> In (mk_child n (BListOf (BCls c')) false) (c_children cd) \/ In (mk_child n (BListOf (BCls c')) true) (c_children cd) ->
  In x (elements (get t n)) -> W12 P c' x.
Proof.
  intros H E I Ix. assert (G : get t n = JNull \/ SpecFollow.typed v12_table P (BListOf (BCls c')) (get t n)) by (destruct I as [I|I]; exact (W12_child _ _ _ _ _ H E I)).
  destruct G as [G|G]; [rewrite G in Ix; contradiction|]. revert G Ix. generalize (get t n). intros g G Ix. inversion G as [|b l Hl| | | | | |]; subst. exact (Hl x Ix).
Qed.
Lemma W12_entry P c cd t n b k x : W12 P c t -> lookup c v12_table = Some cd -> In (mk_child n (BMapOf b) false) (c_children cd) \/ In (mk_child n (BMapOf b) true) (c_children cd) ->
  In (k, x) (fields (get t n)) -> SpecFollow.typed v12_table P b x.
Proof.
  intros H E I Ix. assert (G : get t n = JNull \/ SpecFollow.typed v12_table P (BMapOf b) (get t n)) by (destruct I as [I|I]; exact (W12_child _ _ _ _ _ H E I)).
  destruct G as [G|G]; [rewrite G in Ix; contradiction|]. revert G Ix. generalize (get t n). intros g G Ix. inversion G as [| |b0 l Hl| | | | |]; subst. exact (Hl k x Ix).
Qed.
Lemma W12_sub P c cd t n c' : W12 P c t -> lookup c v12_table = Some cd -> In (mk_child n (BCls c') false) (c_children cd) \/ In (mk_child n (BCls c') true) (c_children cd) -> get t n = JNull \/ W12 P c' (get t n).
Proof. intros H E [I|I]; exact (W12_child _ _ _ _ _ H E I). Qed.
Lemma site_typed P ds s : Forall (fun nd => W12 P "ApiDeclaration" (snd nd)) ds -> In s (all_sites ds) -> W12 P "ApiDeclaration" (at_decl s) /\ W12 P "Operation" (at_op s).
Proof.
  intros F I. destruct (site_in _ _ I) as (u & d & api & Id & -> & Ia & Io). rewrite Forall_forall in F. pose proof (F _ Id) as Hd. cbn [snd] in Hd. split; [exact Hd|].
  assert (Ha : W12 P "Api" api) by (eapply W12_elem; [exact Hd|reflexivity| |exact Ia]; cbn; tauto).
  eapply W12_elem; [exact Ha|reflexivity| |exact Io]; cbn; tauto.
Qed.
Lemma model_typed P ds dm : Forall (fun nd => W12 P "ApiDeclaration" (snd nd)) ds -> In dm (all_models ds) -> W12 P "Model" (snd dm) /\ exists n, In (n, fst dm) ds.
Proof.
  intros F I. unfold all_models in I. apply in_flat_map in I as ([u d] & Id & I). apply in_map_iff in I as ([k m] & <- & I). cbn [fst snd] in *. rewrite Forall_forall in F. pose proof (F _ Id) as Hd. cbn [snd] in Hd.
  split; [|eauto]. eapply W12_entry; [exact Hd|reflexivity| |exact I]; cbn; tauto.
Qed.

(** ** the document *)
Section Nice.
  Variables (sep : string) (ld : json) (ds : list (string * json)) (Good : json -> Prop).
  Hypothesis GR : forall n, In n (definition_names sep ds) -> no_escape n -> Good (ref_to n).
  Notation Bare := (tidy12 sep ld ds /\ paths_ok ds).
  Definition nice_obj (c : string) (x : doc) : Prop :=
    (c = "PathItem" -> lookup "$ref" x = None) /\ (forall v, lookup "$ref" x = Some v -> Good v) /\
    (Bare -> forall k v, lookup k x = Some v -> k <> "$ref" -> child_of c k \/ no_refs v).
  Definition nice_map (d : doc) : Prop := Bare -> lookup "$ref" d = None.
  Notation nic := (nice nice_obj nice_map).
  Definition plain_in (cd : classdef) (ks : list string) : list string := filter (fun k => negb (String.eqb k "$ref") && negb (existsb (fun ch => String.eqb (ch_name ch) k) (c_children cd))) ks.
  Lemma nice_class c cd ks d : lookup c v20_table = Some cd -> forallb (fun ch => negb (ch_required ch)) (c_children cd) = true -> only_keys ks d ->
    (forall v, lookup "$ref" d = Some v -> c <> "PathItem" /\ Good v) ->
    Forall (fun ch => forall v, lookup (ch_name ch) d = Some v -> v <> JNull -> nic (ch_builder ch) v) (kids_in cd ks) ->
    (Bare -> Forall (fun k => forall v, lookup k d = Some v -> no_refs v) (plain_in cd ks)) -> nic (BCls c) (JDict d).
  Proof.
    intros Hc R O Hr F B. apply ni_object with cd; [exact Hc| | |].
    - split; [|split].
      + intros Ep. destruct (lookup "$ref" d) as [v|] eqn:L; [|reflexivity]. destruct (Hr v eq_refl) as [N _]. contradiction.
      + intros v L. exact (proj2 (Hr v L)).
      + intros Hb k v L Nk. destruct (existsb (fun ch => String.eqb (ch_name ch) k) (c_children cd)) eqn:E.
        * left. apply existsb_exists in E as (ch & Ic & En). apply String.eqb_eq in En. exists cd, ch. auto.
        * right. specialize (B Hb). rewrite Forall_forall in B. apply (B k); [|exact L]. apply filter_In. split; [|cbv beta; rewrite E; apply String.eqb_neq in Nk; rewrite Nk; reflexivity].
          destruct (in_dec string_dec k ks) as [I|I]; [exact I|]. rewrite (O k I) in L. discriminate.
    - intros ch v I L N. rewrite Forall_forall in F. apply (F ch); [|exact L|exact N]. apply filter_In. split; [exact I|].
      destruct (existsb (String.eqb (ch_name ch)) ks) eqn:E; [reflexivity|]. rewrite (O _ (not_in_eqb _ _ E)) in L. discriminate.
    - intros ch I Rq. rewrite forallb_forall in R. specialize (R ch I). rewrite Rq in R. discriminate.
  Qed.
  Lemma no_ref_key ks d : only_keys ks d -> existsb (String.eqb "$ref") ks = false -> lookup "$ref" d = None.
  Proof. intros O E. exact (O _ (not_in_eqb _ _ E)). Qed.
  Lemma texts_nice j : (exists l, j = JList l /\ Forall a_text l) -> nic (BListOf BStr) j.
  Proof. intros (l & -> & F). apply ni_list. intros x I. rewrite Forall_forall in F. destruct (F x I) as [s ->]. constructor. Qed.
  (** *** schemas *)
  Lemma ref_good decl t d : closed_type sep ds decl t -> good_refs t -> type_image sep (resource decl) t d -> forall v, lookup "$ref" d = Some v -> Good v.
  Proof.
    intros [Ct Cr] (_ & Gr & Gt) [_ Er] v L. rewrite Er in L. destruct (truthy (get t "type") && negb (is_primitive_name (get t "type"))) eqn:E.
    - apply andb_prop in E as [E1 E2]. destruct (Gt E1) as (n & En). rewrite En in *. injection L as <-. cbn [text]. destruct (Ct n eq_refl) as [-> |[I|[I Ne]]]; [discriminate E1| |now apply GR].
      exfalso. cbn [is_primitive_name] in E2. assert (X : existsb (String.eqb n) primitive_names = true) by (apply existsb_exists; exists n; split; [exact I|apply String.eqb_refl]). rewrite X in E2. discriminate.
    - destruct (truthy (get t "$ref")) eqn:E1; [|discriminate]. injection L as <-. destruct (Gr E1) as (n & En). rewrite En in *. cbn [text]. destruct (Cr n eq_refl) as [-> |[I Ne]]; [discriminate E1|now apply GR].
  Qed.
  Lemma type_bare t d : type_image sep "" t d \/ (exists scope, type_image sep scope t d) -> bare_all ["type"] t -> forall v, lookup "type" d = Some v -> no_refs v.
  Proof.
    intros H B v L. assert (E : lookup "type" d = (if is_primitive_name (get t "type") then Some (get t "type") else None)) by (destruct H as [[E _]|(scope & E & _)]; exact E).
    rewrite E in L. destruct (is_primitive_name _); [|discriminate]. injection L as <-. apply B. now left.
  Qed.
  Lemma bound_bare name t d : bound_image name t d -> forall v, lookup name d = Some v -> no_refs v.
  Proof.
    unfold bound_image. intros H v L. destruct (truthy (get t name)); [|congruence]. destruct H as (q & _ & [(_ & z & _ & E)|(_ & E)]); rewrite E in L; injection L as <-; [apply no_refs_int|apply no_refs_float].
  Qed.
  Lemma given_bare t k k' d ks : lookup k' d = given t k -> bare_all ks t -> In k ks -> forall v, lookup k' d = Some v -> no_refs v.
  Proof. intros E B I v L. rewrite E in L. assert (v = get t k) by (unfold get, given in *; now rewrite L). subst v. exact (B k I). Qed.
  Lemma get_bare t k k' d ks : lookup k' d = Some (get t k) -> bare_all ks t -> In k ks -> forall v, lookup k' d = Some v -> no_refs v.
  Proof. intros E B I v L. rewrite E in L. injection L as <-. exact (B k I). Qed.
  Definition data_keys : list string := ["type"; "format"; "defaultValue"; "uniqueItems"; "enum"].
  Definition bare_data (t : json) : Prop := bare_all data_keys t /\ (get t "items" = JNull \/ bare_all ["type"; "format"] (get t "items")).
  Lemma schema_nice decl t d ks : datatype_image sep (resource decl) t d -> only_keys ks d -> ks = datatype_keys \/ ks = "description" :: datatype_keys ->
    good_datatype t -> closed_datatype sep ds decl t -> (Bare -> bare_data t) -> (Bare -> forall v, lookup "description" d = Some v -> no_refs v) -> nic (BCls "Schema") (JDict d).
  Proof.
    intros (Ti & Hf & Hd & B1 & B2 & Hu & He & It) O Hk (Gr & _ & _ & Gi) [Ct Ci] Bd Bde.
    eapply (nice_class "Schema" v20_Schema ks); [reflexivity|reflexivity|exact O|intros v L; split; [discriminate|exact (ref_good _ _ _ Ct Gr Ti v L)]| |].
    - assert (K : kids_in v20_Schema ks = [mk_child "items" (BCls "Schema") false]) by (destruct Hk; subst ks; reflexivity).
      rewrite K. constructor; [|constructor]. cbn [ch_name ch_builder]. intros v L _.
      destruct (get t "items") as [| | | | | |i0] eqn:Ei; [rewrite It in L; discriminate| | | | | |]; destruct It as (i & Li & Iti & Ifi & Oi); rewrite Li in L; injection L as <-;
        (destruct Gi as [Gi|Gi]; [discriminate|]); (destruct Ci as [Ci|Ci]; [discriminate|]); rewrite <- Ei in *.
      all: eapply (nice_class "Schema" v20_Schema _ i); [reflexivity|reflexivity|exact Oi|intros v L; split; [discriminate|exact (ref_good _ _ _ Ci Gi Iti v L)]|constructor|].
      all: intros Hb; destruct (Bd Hb) as [_ [Z|Bi]]; [congruence|]; vm_compute (plain_in _ _); repeat apply Forall_cons; [| |constructor].
      all: try (apply (type_bare (get t "items")); [right; eauto|intros k [<-|[]]; apply Bi; cbn; tauto]).
      all: apply (get_bare (get t "items") "format" _ _ _ Ifi Bi); cbn; tauto.
    - intros Hb. destruct (Bd Hb) as [Bt _]. 
      assert (X : Forall (fun k => forall v, lookup k d = Some v -> no_refs v) ["type"; "format"; "default"; "minimum"; "maximum"; "uniqueItems"; "enum"]).
      { repeat apply Forall_cons; [| | | | | | |constructor].
        - apply (type_bare t); [right; eauto|intros k [<-|[]]; apply Bt; cbn; tauto].
        - apply (given_bare t "format" _ _ data_keys Hf Bt); cbn; tauto.
        - apply (given_bare t "defaultValue" _ _ data_keys Hd Bt); cbn; tauto.
        - exact (bound_bare _ _ _ B1).
        - exact (bound_bare _ _ _ B2).
        - apply (get_bare t "uniqueItems" _ _ data_keys Hu Bt); cbn; tauto.
        - apply (get_bare t "enum" _ _ data_keys He Bt); cbn; tauto. }
      destruct Hk; subst ks; [exact X|]. change (plain_in v20_Schema ("description" :: datatype_keys)) with ("description" :: ["type"; "format"; "default"; "minimum"; "maximum"; "uniqueItems"; "enum"]). constructor; [exact (Bde Hb)|exact X].
  Qed.
  Lemma items_nice i ks : only_keys ks i -> existsb (String.eqb "items") ks = false -> existsb (String.eqb "$ref") ks = false -> (Bare -> Forall (fun k => forall v, lookup k i = Some v -> no_refs v) ks) -> nic (BCls "Items") (JDict i).
  Proof.
    intros O E E' B. eapply (nice_class "Items" v20_Items ks i); [reflexivity|reflexivity|exact O|intros v L; rewrite (no_ref_key _ _ O E') in L; discriminate| |].
    - unfold kids_in. cbn [c_children v20_Items filter ch_name]. rewrite E. constructor.
    - intros Hb. specialize (B Hb). rewrite Forall_forall in B |- *. intros k I. apply filter_In in I as [I _]. exact (B k I).
  Qed.
  (** *** parameters *)
  Lemma place_bare p : no_refs (get p "paramType") -> no_refs (place (get p "paramType")).
  Proof. intros B. unfold place. destruct (get p "paramType") as [| | | |s| |]; try exact B. repeat (destruct s as [|[[] [] [] [] [] [] [] []] s]; try exact B). all: apply no_refs_str. Qed.
  Definition parameter_keys : list string := ["name"; "required"; "description"; "paramType"; "type"; "format"; "defaultValue"; "uniqueItems"; "enum"].
  Lemma parameter_data p : W12 plain_fields "Parameter" p -> bare_all parameter_keys p /\ bare_data p.
  Proof.
    intros W. split; [exact (W12_bare _ _ _ parameter_keys W eq_refl eq_refl)|]. split; [exact (W12_bare _ _ _ data_keys W eq_refl eq_refl)|].
    destruct (W12_sub _ _ _ _ "items" "Items" W eq_refl) as [Z|Wi]; [cbn; tauto|now left|right]. exact (W12_bare _ _ _ ["type"; "format"] Wi eq_refl eq_refl).
  Qed.
  Ltac bare_from E B := first [apply (given_bare _ _ _ _ _ E B); cbn; tauto|apply (get_bare _ _ _ _ _ E B); cbn; tauto].
  Lemma parameter_nice decl p d : parameter_image sep (resource decl) p d -> good_parameter p -> (get p "paramType" = JStr "body" -> closed_datatype sep ds decl p) ->
    (Bare -> W12 plain_fields "Parameter" p) -> nic (BRefElse "Reference" (BCls "Parameter")) (JDict d).
  Proof.
    intros (Hn & Hr & Hde & Hin & H) (_ & _ & G) Cl W.
    assert (B0 : Bare -> bare_all parameter_keys p) by (intros Hb; exact (proj1 (parameter_data _ (W Hb)))).
    assert (BI : Bare -> forall v, lookup "in" d = Some v -> no_refs v). { intros Hb v L. rewrite Hin in L. injection L as <-. apply place_bare. apply (B0 Hb). cbn. tauto. }
    assert (BC : Bare -> Forall (fun k => forall v, lookup k d = Some v -> no_refs v) ["name"; "required"; "description"; "in"]).
    { intros Hb. pose proof (B0 Hb) as B. repeat apply Forall_cons; [bare_from Hn B|bare_from Hr B|bare_from Hde B|exact (BI Hb)|constructor]. }
    destruct (match get p "paramType" with JStr "body" => true | _ => false end) eqn:Eb.
    - assert (Ep : get p "paramType" = JStr "body").
      { clear -Eb. destruct (get p "paramType") as [| | | |s| |]; try discriminate Eb. f_equal. revert Eb. repeat (destruct s as [|[[] [] [] [] [] [] [] []] s]; try discriminate; try reflexivity). }
      destruct H as ((s & Ls & Is & Os) & O). apply ni_noref; [eapply no_ref_key; [exact O|reflexivity]|].
      eapply (nice_class "Parameter" v20_Parameter _ d); [reflexivity|reflexivity|exact O|intros v L; rewrite (no_ref_key _ _ O eq_refl) in L; discriminate| |].
      + vm_compute (kids_in _ _). constructor; [|constructor]. cbn [ch_name ch_builder]. intros v L _. rewrite Ls in L. injection L as <-.
        eapply schema_nice; [exact Is|exact Os|now left|exact G|exact (Cl Ep)| |].
        * intros Hb. exact (proj2 (parameter_data _ (W Hb))).
        * intros Hb v L. rewrite (Os "description") in L; [discriminate|]. vm_compute. intros X. repeat (destruct X as [X|X]; [discriminate|]). destruct X.
      + exact BC.
    - destruct H as (_ & H). destruct (match get p "allowMultiple" with JBool true => true | _ => false end && is_null (get p "items")).
      + destruct H as (Ht & Hcf & Hu & Hd & (i & Li & (_ & _ & Hit & Hif) & Hie & Oi) & O). apply ni_noref; [eapply no_ref_key; [exact O|reflexivity]|].
        eapply (nice_class "Parameter" v20_Parameter _ d); [reflexivity|reflexivity|exact O|intros v L; rewrite (no_ref_key _ _ O eq_refl) in L; discriminate| |].
        * vm_compute (kids_in _ _). constructor; [|constructor]. cbn [ch_name ch_builder]. intros v L _. rewrite Li in L. injection L as <-.
          eapply items_nice; [exact Oi|reflexivity|reflexivity|]. intros Hb. pose proof (B0 Hb) as B. repeat apply Forall_cons; [bare_from Hit B|bare_from Hif B|bare_from Hie B|constructor].
        * intros Hb. pose proof (B0 Hb) as B. pose proof (BC Hb) as B4. inversion_clear B4 as [|? ? X1 B5]. inversion_clear B5 as [|? ? X2 B6]. inversion_clear B6 as [|? ? X3 _]. vm_compute (plain_in _ _).
          repeat apply Forall_cons; [exact X1|exact X2|exact X3|exact (BI Hb)| | |bare_from Hu B| |constructor].
          -- intros v L. rewrite Ht in L. injection L as <-. apply no_refs_str.
          -- intros v L. rewrite Hcf in L. injection L as <-. apply no_refs_str.
          -- intros v L. rewrite Hd in L. unfold given in L. destruct (lookup "defaultValue" (fields p)) as [w|] eqn:Ew; [|discriminate]. cbn [option_map] in L. injection L as <-. apply no_refs_list. intros x [<-|[]].
             assert (Q : get p "defaultValue" = w) by (unfold get; now rewrite Ew). rewrite <- Q. apply B. cbn. tauto.
      + destruct H as ((t & Ht0 & Ht) & Hf & Hd & B1 & B2 & He & H).
        assert (BT : forall v, lookup "type" d = Some v -> no_refs v) by (intros v L; rewrite Ht in L; injection L as <-; apply no_refs_str).
        destruct (is_null (get p "items")) eqn:Ei.
        * apply ni_noref; [eapply no_ref_key; [exact H|reflexivity]|]. eapply (nice_class "Parameter" v20_Parameter _ d); [reflexivity|reflexivity|exact H|intros v L; rewrite (no_ref_key _ _ H eq_refl) in L; discriminate|constructor|].
          intros Hb. pose proof (B0 Hb) as B. pose proof (BC Hb) as B4. inversion_clear B4 as [|? ? X1 B5]. inversion_clear B5 as [|? ? X2 B6]. inversion_clear B6 as [|? ? X3 _]. vm_compute (plain_in _ _).
          repeat apply Forall_cons; [exact X1|exact X2|exact X3|exact (BI Hb)|exact BT|bare_from Hf B|bare_from Hd B|exact (bound_bare _ _ _ B1)|exact (bound_bare _ _ _ B2)|bare_from He B|constructor].
        * destruct H as (Hcf & Hu & (i & Li & (_ & _ & Hit & Hif) & Oi) & O). apply ni_noref; [eapply no_ref_key; [exact O|reflexivity]|].
          eapply (nice_class "Parameter" v20_Parameter _ d); [reflexivity|reflexivity|exact O|intros v L; rewrite (no_ref_key _ _ O eq_refl) in L; discriminate| |].
          -- vm_compute (kids_in _ _). constructor; [|constructor]. cbn [ch_name ch_builder]. intros v L _. rewrite Li in L. injection L as <-.
             eapply items_nice; [exact Oi|reflexivity|reflexivity|]. intros Hb. destruct (parameter_data _ (W Hb)) as [_ [_ [Z|B]]]; [rewrite Z in Ei; discriminate Ei|]. repeat apply Forall_cons; [bare_from Hit B|bare_from Hif B|constructor].
          -- intros Hb. pose proof (B0 Hb) as B. pose proof (BC Hb) as B4. inversion_clear B4 as [|? ? X1 B5]. inversion_clear B5 as [|? ? X2 B6]. inversion_clear B6 as [|? ? X3 _]. vm_compute (plain_in _ _).
             repeat apply Forall_cons; [exact X1|exact X2|exact X3|exact (BI Hb)|exact BT|bare_from Hf B|bare_from Hd B|exact (bound_bare _ _ _ B1)|exact (bound_bare _ _ _ B2)|bare_from He B| |bare_from Hu B|constructor].
             intros v L. rewrite Hcf in L. injection L as <-. apply no_refs_str.
  Qed.
  (** *** operations *)
  Definition operation_fields : list string := ["nickname"; "summary"; "notes"].
  Lemma operation_data o : W12 plain_fields "Operation" o -> bare_all operation_fields o /\ bare_data o /\ forall p, In p (elements (get o "parameters")) -> W12 plain_fields "Parameter" p.
  Proof.
    intros W. split; [exact (W12_bare _ _ _ operation_fields W eq_refl eq_refl)|]. split.
    - split; [exact (W12_bare _ _ _ data_keys W eq_refl eq_refl)|].
      destruct (W12_sub _ _ _ _ "items" "Items" W eq_refl) as [Z|Wi]; [cbn; tauto|now left|right]. exact (W12_bare _ _ _ ["type"; "format"] Wi eq_refl eq_refl).
    - intros p I. eapply (W12_elem _ _ _ _ "parameters" "Parameter"); [exact W|reflexivity|cbn; tauto|exact I].
  Qed.
  Lemma requirements_nice j : truthy j = true -> good_requirements j -> (Bare -> given j "$ref" = None) -> nic (BListOf (BMapOf (BListOf BStr))) (JList (requirements j)).
  Proof.
    intros T G B. specialize (G T). apply ni_list. intros x I. unfold requirements in I. apply in_map_iff in I as ([n v] & <- & I). rewrite Forall_forall in G. specialize (G _ I). cbn [fst snd] in *.
    apply ni_map.
    - intros Hb. specialize (B Hb). unfold given in B. apply PyValFacts.lookup_none in B. cbn [lookup]. destruct (String.eqb_spec "$ref" n) as [<-|_]; [|reflexivity]. exfalso. apply B. apply in_map_iff. exists ("$ref", v). auto.
    - intros k x [E|[]]. injection E as <- <-. apply texts_nice. eexists. split; [reflexivity|]. rewrite Forall_forall in *. intros y Iy. apply in_map_iff in Iy as (e & <- & Ie). exact (proj2 (G e Ie)).
  Qed.
  Lemma operation_nice s d : operation_image sep s d -> good_operation (at_op s) -> good_declaration (at_decl s) -> closed_operation sep ds (at_decl s) (at_op s) ->
    (Bare -> W12 plain_fields "Operation" (at_op s) /\ given (inherited s "authorizations") "$ref" = None) -> nic (BCls "Operation") (JDict d).
  Proof.
    intros (Ht & Hid & Hsu & Hde & Hdp & Hc & Hp & (ps & Hps & Fps) & Hs & (r & Hr & Hrd & Or & Hsc) & O) (_ & _ & (pl & Epl & Gpl) & Gc & Gp & Ga & Gt) (_ & _ & _ & Gdc & Gdp & Gda & _) [Cv Cp] W.
    eapply (nice_class "Operation" v20_Operation _ d); [reflexivity|reflexivity|exact O|intros v L; rewrite (no_ref_key _ _ O eq_refl) in L; discriminate| |].
    - vm_compute (kids_in _ _). repeat (apply Forall_cons); cbn [ch_name ch_builder]; [| | | | | |apply Forall_nil]; intros v L _.
      + rewrite Ht in L. unfold some_if in L. destruct (negb _); [|discriminate]. injection L as <-. apply texts_nice. eexists. split; [reflexivity|]. constructor; [now eexists|constructor].
      + rewrite Hc in L. unfold some_if in L. destruct (truthy (inherited s "consumes")) eqn:T; [|discriminate]. injection L as <-. apply texts_nice. revert T. apply (inherited_good texts_or_none); assumption.
      + rewrite Hp in L. unfold some_if in L. destruct (truthy (inherited s "produces")) eqn:T; [|discriminate]. injection L as <-. apply texts_nice. revert T. apply (inherited_good texts_or_none); assumption.
      + rewrite Hps in L. injection L as <-. apply ni_list. intros x I. apply in_map_iff in I as (pd & <- & I). destruct (Forall2_in_right _ _ _ _ Fps I) as (pj & Ij & Hi).
        eapply parameter_nice; [exact Hi| |exact (Cp pj Ij)|].
        * rewrite Epl in Ij. cbn [elements] in Ij. rewrite Forall_forall in Gpl. exact (Gpl _ Ij).
        * intros Hb. exact (proj2 (proj2 (operation_data _ (proj1 (W Hb)))) pj Ij).
      + rewrite Hr in L. injection L as <-. apply ni_map; [intros _; reflexivity|]. intros k x [E|[]]. injection E as <- <-. apply ni_noref; [eapply no_ref_key; [exact Or|reflexivity]|].
        eapply (nice_class "Response" v20_Response _ r); [reflexivity|reflexivity|exact Or|intros v L; rewrite (no_ref_key _ _ Or eq_refl) in L; discriminate| |].
        * vm_compute (kids_in _ _). constructor; [|constructor]. cbn [ch_name ch_builder]. intros v L _.
          destruct (match get (at_op s) "type" with JStr "void" => true | _ => false end) eqn:Ev; [rewrite Hsc in L; discriminate|]. destruct Hsc as (sd & Lsd & Is & Os). rewrite Lsd in L. injection L as <-.
          assert (Nv : get (at_op s) "type" <> JStr "void") by (intros Z; rewrite Z in Ev; discriminate).
          destruct Gt as [Gt|Gt]; [contradiction|]. destruct Cv as [Cv|Cv]; [contradiction|].
          eapply schema_nice; [exact Is|exact Os|now left|exact Gt|exact Cv| |].
          -- intros Hb. exact (proj1 (proj2 (operation_data _ (proj1 (W Hb))))).
          -- intros Hb v L. rewrite (Os "description") in L; [discriminate|]. vm_compute. intros X. repeat (destruct X as [X|X]; [discriminate|]). destruct X.
        * intros _. vm_compute (plain_in _ _). constructor; [|constructor]. intros v L. rewrite Hrd in L. injection L as <-. apply no_refs_str.
      + rewrite Hs in L. unfold some_if in L. destruct (truthy (inherited s "authorizations")) eqn:T; [|discriminate]. injection L as <-. apply requirements_nice; [exact T| |exact (fun Hb => proj2 (W Hb))]. apply (inherited_good good_requirements); assumption.
    - intros Hb. destruct (operation_data _ (proj1 (W Hb))) as [B _]. vm_compute (plain_in _ _). repeat apply Forall_cons; [bare_from Hid B|bare_from Hsu B|bare_from Hde B| |constructor].
      intros v L. rewrite Hdp in L. injection L as <-. apply no_refs_bool.
  Qed.
  (** *** security schemes *)
  Lemma scheme_type_bare j : no_refs j -> no_refs (scheme_type j).
  Proof. intros B. unfold scheme_type. destruct j as [| | | |s| |]; try exact B. repeat (destruct s as [|[[] [] [] [] [] [] [] []] s]; try exact B). all: apply no_refs_str. Qed.
  Lemma chain_bare a : W12 plain_fields "Authorization" a -> no_refs (first_of a ["grantTypes"; "implicit"; "loginEndpoint"; "url"]) /\ no_refs (first_of a ["grantTypes"; "authorization_code"; "tokenEndpoint"; "url"]).
  Proof.
    intros W. unfold first_of. cbn [fold_left].
    assert (Z : forall k, get JNull k = JNull) by reflexivity.
    destruct (W12_sub _ _ _ _ "grantTypes" "GrantTypes" W eq_refl) as [E|Wg]; [cbn; tauto|rewrite E, !Z; split; apply no_refs_null|]. split.
    - destruct (W12_sub _ _ _ _ "implicit" "Implicit" Wg eq_refl) as [E|Wi]; [cbn; tauto|rewrite E, !Z; apply no_refs_null|].
      destruct (W12_sub _ _ _ _ "loginEndpoint" "LoginEndpoint" Wi eq_refl) as [E|We]; [cbn; tauto|rewrite E, !Z; apply no_refs_null|].
      apply (W12_bare _ _ _ ["url"] We eq_refl eq_refl). now left.
    - destruct (W12_sub _ _ _ _ "authorization_code" "AuthorizationCode" Wg eq_refl) as [E|Wi]; [cbn; tauto|rewrite E, !Z; apply no_refs_null|].
      destruct (W12_sub _ _ _ _ "tokenEndpoint" "TokenEndpoint" Wi eq_refl) as [E|We]; [cbn; tauto|rewrite E, !Z; apply no_refs_null|].
      apply (W12_bare _ _ _ ["url"] We eq_refl eq_refl). now left.
  Qed.
  Lemma some_if_bare b j v : some_if b j = Some v -> no_refs j -> no_refs v.
  Proof. unfold some_if. destruct b; [|discriminate]. intros E B. injection E as <-. exact B. Qed.
  Lemma security_nice a d : security_image a d -> good_authorization a -> (Bare -> W12 plain_fields "Authorization" a /\ forall e, In e (elements (get a "scopes")) -> get e "scope" <> JStr "$ref") -> nic (BCls "SecurityScheme") (JDict d).
  Proof.
    intros (Hty & (ss & Ls & N & Hs) & Hau & Hto & Hfl & Hna & Hin & O) (_ & G & _) W. eapply (nice_class "SecurityScheme" v20_SecurityScheme _ d); [reflexivity|reflexivity|exact O|intros v L; rewrite (no_ref_key _ _ O eq_refl) in L; discriminate| |].
    - vm_compute (kids_in _ _). apply Forall_cons; [|apply Forall_nil]. cbn [ch_name ch_builder]. intros v L _. rewrite Ls in L. injection L as <-. apply ni_map.
      + intros Hb. rewrite Hs. destruct (last_such _ _) as [e|] eqn:E; [|reflexivity]. exfalso. apply last_such_in in E as [Ie Ee]. apply String.eqb_eq in Ee. rewrite Forall_forall in G. destruct (G _ Ie) as (_ & (t & Et) & _).
        apply (proj2 (W Hb) e Ie). rewrite Et in *. cbn [text] in Ee. now subst t.
      + intros k x I. pose proof (lookup_nodup _ _ _ N I) as L. rewrite Hs in L. destruct (last_such _ _) as [e|] eqn:E; [|discriminate]. cbn [option_map] in L. injection L as <-. apply last_such_in in E as [Ie _].
        rewrite Forall_forall in G. destruct (G _ Ie) as (_ & _ & (t & ->)). constructor.
    - intros Hb. destruct (W Hb) as [Wa _]. pose proof (W12_bare _ _ _ ["type"; "passAs"; "keyname"] Wa eq_refl eq_refl) as B. destruct (chain_bare _ Wa) as [C1 C2]. vm_compute (plain_in _ _).
      repeat apply Forall_cons; [| | | | | |constructor]; intros v L.
      + rewrite Hty in L. injection L as <-. apply scheme_type_bare, B. cbn. tauto.
      + rewrite Hau in L. exact (some_if_bare _ _ _ L C1).
      + rewrite Hto in L. exact (some_if_bare _ _ _ L C2).
      + rewrite Hfl in L. match type of L with (if ?b then _ else _) = _ => destruct b end; [|discriminate]. match type of L with (if ?b then _ else _) = _ => destruct b end; [inversion L; apply no_refs_str|]. exact (some_if_bare _ _ _ L (no_refs_str _)).
      + rewrite Hna in L. apply (some_if_bare _ _ _ L), B. cbn. tauto.
      + rewrite Hin in L. apply (some_if_bare _ _ _ L), B. cbn. tauto.
  Qed.
  (** *** info *)
  Lemma info_nice d : info_image ld d -> (Bare -> W12 plain_fields "ResourceListing" ld) -> nic (BCls "Info") (JDict d).
  Proof.
    intros (Hv & Ht & Hd & Hs & C & L & O) W.
    assert (BI : Bare -> bare_all ["title"; "description"; "termsOfServiceUrl"; "contact"; "license"; "licenseUrl"] (get ld "info")).
    { intros Hb. destruct (W12_sub _ _ _ _ "info" "Info" (W Hb) eq_refl) as [E|Wi]; [cbn; tauto|rewrite E; intros k _; apply no_refs_null|]. exact (W12_bare _ _ _ ["title"; "description"; "termsOfServiceUrl"; "contact"; "license"; "licenseUrl"] Wi eq_refl eq_refl). }
    eapply (nice_class "Info" v20_Info _ d); [reflexivity|reflexivity|exact O|intros v E; rewrite (no_ref_key _ _ O eq_refl) in E; discriminate| |].
    - vm_compute (kids_in _ _). repeat apply Forall_cons; [| |apply Forall_nil]; cbn [ch_name ch_builder]; intros v E _.
      + rewrite C in E. unfold some_if in E. destruct (truthy (get (get ld "info") "contact")); [|discriminate]. injection E as <-.
        eapply (nice_class "Contact" v20_Contact ["email"]); [reflexivity|reflexivity| |intros v E; discriminate|constructor|].
        * intros k N. cbn [lookup]. destruct (String.eqb_spec k "email"); [subst; exfalso; apply N; now left|reflexivity].
        * intros Hb. vm_compute (plain_in _ _). constructor; [|constructor]. intros v E. cbn in E. injection E as <-. apply (BI Hb). cbn. tauto.
      + destruct (_ || _); [|rewrite L in E; discriminate]. destruct L as (l & El & Ln & Lu & Ol). rewrite El in E. injection E as <-.
        eapply (nice_class "License" v20_License _ l); [reflexivity|reflexivity|exact Ol|intros v E; rewrite (no_ref_key _ _ Ol eq_refl) in E; discriminate|constructor|].
        intros Hb. vm_compute (plain_in _ _). repeat apply Forall_cons; [| |constructor]; intros v E; [rewrite Ln in E|rewrite Lu in E]; apply (some_if_bare _ _ _ E), (BI Hb); cbn; tauto.
    - intros Hb. vm_compute (plain_in _ _). repeat apply Forall_cons; [| | | |constructor]; intros v E.
      + rewrite Hv in E. injection E as <-. apply (W12_bare _ _ _ ["apiVersion"] (W Hb) eq_refl eq_refl). now left.
      + rewrite Ht in E. apply (some_if_bare _ _ _ E), (BI Hb). cbn. tauto.
      + rewrite Hd in E. apply (some_if_bare _ _ _ E), (BI Hb). cbn. tauto.
      + rewrite Hs in E. apply (some_if_bare _ _ _ E), (BI Hb). cbn. tauto.
  Qed.
  (** *** definitions *)
  Lemma property_data p : W12 plain_fields "Property" p -> bare_all ["description"] p /\ bare_data p.
  Proof.
    intros W. split; [exact (W12_bare _ _ _ ["description"] W eq_refl eq_refl)|]. split; [exact (W12_bare _ _ _ data_keys W eq_refl eq_refl)|].
    destruct (W12_sub _ _ _ _ "items" "Items" W eq_refl) as [Z|Wi]; [cbn; tauto|now left|right]. exact (W12_bare _ _ _ ["type"; "format"] Wi eq_refl eq_refl).
  Qed.
  Lemma given_in j k v : given j k = Some v -> In (k, v) (fields j) /\ get j k = v.
  Proof. unfold given, get. intros E. rewrite E. split; [exact (PyValFacts.lookup_In _ _ _ E)|reflexivity]. Qed.
  Lemma super_in n ms x : In x (supertypes sep n ms) -> exists dm, In dm ms /\ names_in (get (snd dm) "subTypes") <> [] /\ x = JDict [("$ref", ref_to (model_name sep dm))].
  Proof.
    unfold supertypes. intros I. apply in_flat_map in I as (dm & Id & I). apply in_flat_map in I as (t & It & I). destruct (String.eqb t n); [|contradiction]. destruct I as [<-|[]]. exists dm. split; [exact Id|]. split; [|reflexivity].
    intros Z. unfold subtype_names in It. rewrite Z in It. contradiction.
  Qed.
  Lemma definition_nice n x : definition_image sep n (all_models ds) x -> wf_json (JDict x) -> Forall (fun d => good_declaration (snd d)) ds ->
    closed12 sep ds -> nic (BCls "Schema") (JDict x).
  Proof.
    intros (Hp & Hk & Ha & O) WF Gd [_ Cl].
    assert (Gm : forall dm, In dm (all_models ds) -> good_model (snd dm)).
    { intros dm I. unfold all_models in I. apply in_flat_map in I as ([u d] & Id & I). apply in_map_iff in I as ([k m] & <- & I). cbn [fst snd] in *. rewrite Forall_forall in Gd. destruct (Gd _ Id) as (_ & _ & _ & _ & _ & _ & _ & (mods & Em & Fm)). cbn [snd] in Em. rewrite Em in I. cbn [fields] in I. rewrite Forall_forall in Fm. exact (Fm _ I). }
    eapply (nice_class "Schema" v20_Schema _ x); [reflexivity|reflexivity|exact O|intros v L; rewrite (no_ref_key _ _ O eq_refl) in L; discriminate| |].
    - vm_compute (kids_in _ _). repeat apply Forall_cons; [| |apply Forall_nil]; cbn [ch_name ch_builder]; intros v L _.
      + rewrite Ha in L. unfold list_if_any in L. destruct (supertypes sep n (all_models ds)) as [|y ys] eqn:E; [discriminate|]. injection L as <-. rewrite <- E. apply ni_list. intros z I. destruct (super_in _ _ _ I) as (dm & Id & Ne & ->).
        eapply (nice_class "Schema" v20_Schema ["$ref"]); [reflexivity|reflexivity| | |constructor|intros _; constructor].
        * intros k N. cbn [lookup]. destruct (String.eqb_spec k "$ref"); [subst; exfalso; apply N; now left|reflexivity].
        * intros v L. cbn in L. injection L as <-. split; [discriminate|]. apply GR; [|exact (proj2 (Cl _ Id) Ne)]. apply in_or_app. left. apply in_map. exact Id.
      + destruct (existsb _ (all_models ds)); [|rewrite Hp in L; discriminate]. destruct Hp as (props & Lp & Hp). rewrite Lp in L. injection L as <-.
        assert (N : NoDup (keys props)). { pose proof (proj2 (proj1 (wf_dict _) WF) _ _ (PyValFacts.lookup_In _ _ _ Lp)) as Wp. exact (proj1 (proj1 (wf_dict _) Wp)). }
        apply ni_map.
        * intros (( _ & _ & _ & Tp & _) & _). specialize (Hp "$ref"). destruct (last_giving sep n (fun dm => given (get (snd dm) "properties") "$ref") (all_models ds)) as [dm|] eqn:E; [|exact Hp]. exfalso. unfold last_giving in E. apply last_such_in in E as [Id E]. rewrite (Tp _ Id), andb_false_r in E. discriminate.
        * intros k y I. specialize (Hp k). pose proof (lookup_nodup _ _ _ N I) as L. destruct (last_giving sep n (fun dm => given (get (snd dm) "properties") k) (all_models ds)) as [dm|] eqn:E; [|congruence].
          unfold last_giving in E. apply last_such_in in E as [Id E]. destruct (given (get (snd dm) "properties") k) as [pj|] eqn:Ep; [|rewrite andb_false_r in E; discriminate]. destruct (given_in _ _ _ Ep) as [Ip Eg]. rewrite Eg in Hp.
          destruct Hp as (p & Lp' & pd & -> & Hi & Hde & Op). rewrite Lp' in L. injection L as <-.
          assert (B : Bare -> bare_all ["description"] pj /\ bare_data pj).
          { intros ((_ & Tm & _) & _). apply property_data. destruct (model_typed _ _ _ Tm Id) as [Wm _]. eapply (W12_entry _ _ _ _ "properties"); [exact Wm|reflexivity|cbn; tauto|exact Ip]. }
          eapply schema_nice; [exact Hi|exact Op|now right| |exact (proj1 (Cl _ Id) _ _ Ip)|exact (fun Hb => proj2 (B Hb))|].
          -- destruct (Gm _ Id) as (_ & _ & (pl & Epl & Fpl) & _). rewrite Epl in Ip. cbn [fields] in Ip. rewrite Forall_forall in Fpl. exact (Fpl _ Ip).
          -- intros Hb v L. rewrite Hde in L. injection L as <-. apply (proj1 (B Hb)). now left.
    - intros ((_ & Tm & _) & _). vm_compute (plain_in _ _).
      assert (Q : forall k, In k ["required"; "discriminator"; "description"] -> forall v, lookup k x = Some v -> no_refs v).
      { intros k I v L. rewrite (Hk k I) in L. destruct (last_giving _ _ _ _) as [dm|] eqn:E; [|discriminate]. unfold last_giving in E. apply last_such_in in E as [Id _]. destruct (model_typed _ _ _ Tm Id) as [Wm _].
        destruct (given_in _ _ _ L) as [_ Eg]. rewrite <- Eg. exact (W12_bare _ _ _ ["required"; "discriminator"; "description"] Wm eq_refl eq_refl k I). }
      repeat apply Forall_cons; [| | |constructor]; apply Q; cbn; tauto.
  Qed.
  (** *** paths *)
  Definition table_all (R : string -> doc -> Prop) (t : path_table) : Prop := forall p ms m d, In (p, ms) t -> In (m, d) ms -> R m d.
  Lemma put_site_all R t s d : table_all R t -> R (method_of s) d -> table_all R (put_site t (s, d)).
  Proof.
    intros T V p ms m x I J. unfold put_site, add_operation in I. cbn [fst snd] in I. apply in_set in I as [E|I]; [|exact (T _ _ _ _ I J)]. assert (Em := f_equal snd E). cbn [snd] in Em. subst ms.
    apply in_set in J as [E'|J]; [assert (E1 := f_equal fst E'); assert (E2 := f_equal snd E'); cbn [fst snd] in *; subst; exact V|].
    destruct (lookup (full_path s) t) as [ms|] eqn:L; [|contradiction]. exact (T _ _ _ _ (PyValFacts.lookup_In _ _ _ L) J).
  Qed.
  Lemma fold_sites_all R sites specs : Forall2 (fun s d => R (method_of s) d) sites specs -> forall t, table_all R t -> table_all R (fold_left put_site (combine sites specs) t).
  Proof. induction 1 as [|s d sites specs V F IH]; intros t T; [exact T|]. cbn [combine fold_left]. apply IH. now apply put_site_all. Qed.
  Lemma strip_all R t host t' : table_all R t -> strip_host t = Ok (host, t') -> table_all R t'.
  Proof.
    intros T H. unfold strip_host in H. destruct (drop_slash _) as [c|]; [|discriminate]. cbn [bind] in H. destruct (truthy_str c); apply Ok_inj in H; assert (E := f_equal snd H); cbn [snd] in E; subst t'; [|exact T].
    set (n := String.length _). clearbody n. intros p ms m d I J.
    assert (Q : forall l acc, (forall p ms, In (p, ms) l -> In (p, ms) t) -> (forall p ms, In (p, ms) acc -> exists q, In (q, ms) t) ->
              forall p ms, In (p, ms) (fold_left (fun acc kv => dict_set (sdrop n (fst kv)) (snd kv) acc) l acc) -> exists q, In (q, ms) t).
    { induction l as [|[k v] l IH]; intros acc Hl Ha q qs; [apply Ha|]. cbn [fold_left fst snd]. apply IH; [intros; apply Hl; now right|]. intros p' ms' I'. apply in_set in I' as [E|I']; [|eapply Ha; exact I'].
      assert (E2 := f_equal snd E). cbn [snd] in E2. subst ms'. exists k. apply Hl. now left. }
    destruct (Q t [] (fun _ _ x => x) (fun _ _ x => match x with end) _ _ I) as (q & Iq). exact (T _ _ _ _ Iq J).
  Qed.
  Lemma path_item_nice t p ms : table_all (fun m d => In m verbs /\ nic (BCls "Operation") (JDict d)) t -> In (p, ms) t -> nic (BCls "PathItem") (in_dict ms).
  Proof.
    intros T I. unfold in_dict.
    assert (V' : forall k d, lookup k ms = Some d -> existsb (String.eqb k) verbs = true). { intros k d E. destruct (T _ _ _ _ I (PyValFacts.lookup_In _ _ _ E)) as [V _]. apply existsb_exists. exists k. split; [exact V|apply String.eqb_refl]. }
    assert (NR : lookup "$ref" (map (fun kv => (fst kv, JDict (snd kv))) ms) = None). { rewrite lookup_map_snd. destruct (lookup "$ref" ms) as [d|] eqn:E; [|reflexivity]. specialize (V' _ _ E). discriminate. }
    apply ni_object with v20_PathItem; [reflexivity| | |].
    - split; [intros _; exact NR|]. split; [intros v L; rewrite NR in L; discriminate|]. intros _ k v L _. left. rewrite lookup_map_snd in L. destruct (lookup k ms) as [d|] eqn:E; [|discriminate]. specialize (V' _ _ E).
      apply existsb_exists in V' as (k' & Ik & Ek). apply String.eqb_eq in Ek. subst k'. exists v20_PathItem. cbn [In verbs] in Ik.
      assert (Q : existsb (fun ch => String.eqb (ch_name ch) k) (c_children v20_PathItem) = true) by (repeat (destruct Ik as [<-|Ik]; [reflexivity|]); destruct Ik).
      apply existsb_exists in Q as (ch & Ic & En). apply String.eqb_eq in En. exists ch. auto.
    - intros ch v Ic L N. rewrite lookup_map_snd in L. destruct (lookup (ch_name ch) ms) as [d|] eqn:E; [|discriminate]. cbn [option_map] in L. injection L as <-.
      destruct (T _ _ _ _ I (PyValFacts.lookup_In _ _ _ E)) as [_ F]. specialize (V' _ _ E).
      assert (B : ch_builder ch = BCls "Operation"); [|rewrite B; exact F].
      assert (Q : forallb (fun ch => match ch_builder ch with BCls "Operation" => true | _ => negb (existsb (String.eqb (ch_name ch)) verbs) end) (c_children v20_PathItem) = true) by reflexivity.
      rewrite forallb_forall in Q. specialize (Q _ Ic). rewrite V' in Q. cbn [negb] in Q. clear -Q. destruct (ch_builder ch) as [c| | | | |]; try discriminate. f_equal. revert Q.
      repeat (destruct c as [|[[] [] [] [] [] [] [] []] c]; try discriminate; try reflexivity).
    - intros ch Ic Rq. assert (Q : forallb (fun ch => negb (ch_required ch)) (c_children v20_PathItem) = true) by reflexivity. rewrite forallb_forall in Q. specialize (Q _ Ic). cbv beta in Q. rewrite Rq in Q. discriminate.
  Qed.
  Lemma nice_dict_map {A} b (f : A -> json) (d : list (string * A)) : (Bare -> lookup "$ref" d = None) -> (forall k x, In (k, x) d -> nic b (f x)) -> nic (BMapOf b) (JDict (map (fun kv => (fst kv, f (snd kv))) d)).
  Proof.
    intros B H. apply ni_map; [intros Hb; rewrite lookup_map_snd, (B Hb); reflexivity|]. intros k x I. apply in_map_iff in I as ([k' a] & E & I). injection E as <- <-. exact (H _ _ I).
  Qed.
  (** *** the whole document *)
  Lemma swagger_nice s d : good12 ld ds -> distinct12 ld ds -> closed12 sep ds -> state_ok sep ld ds s -> swagger_spec s = Ok d -> wf_json (JDict d) -> nic (BCls "Swagger") (JDict d).
  Proof.
    intros G [W _] Cl (Hi & Etag & Nd & Dok & (specs & Fs & Ep) & (Nsec & S1 & S2)) H WD. pose proof H as H0. unfold swagger_spec in H. apply bind_ok in H as ([host t] & Hs & H). apply Ok_inj in H.
    assert (T : table_all (fun m d => In m verbs /\ nic (BCls "Operation") (JDict d)) t).
    { eapply strip_all; [|exact Hs]. rewrite Ep. apply fold_sites_all; [|intros ? ? ? ? []]. clear Ep. assert (Q : forall x, In x (all_sites ds) -> In x (all_sites ds)) by auto. revert Q Fs. generalize (all_sites ds) at 1 3 4. intros l Q Fs.
      induction Fs as [|x y l specs Hx F IH]; constructor; [|apply IH; intros; apply Q; now right]. pose proof (Q x (or_introl eq_refl)) as Ix. destruct (sites_good _ _ _ G Ix) as (Go & Gd & V). split; [exact V|].
      eapply operation_nice; [exact Hx|exact Go|exact Gd|exact (proj1 Cl _ Ix)|]. intros ((_ & Tm & _ & _ & _ & Ta) & _). split; [|exact (Ta _ Ix)]. exact (proj2 (site_typed _ _ _ Tm Ix)). }
    assert (WDk : forall k v, lookup k d = Some v -> wf_json v) by (intros k v L; exact (proj2 (proj1 (wf_dict _) WD) _ _ (PyValFacts.lookup_In _ _ _ L))).
    assert (D : forall n x, In (n, x) (s_defs s) -> nic (BCls "Schema") (JDict x)).
    { intros n x I. pose proof (lookup_nodup _ _ _ Nd I) as L. specialize (Dok n). destruct (_ || _); [|congruence]. destruct Dok as (x' & L' & Im). assert (x' = x) by congruence. subst x'. eapply definition_nice; [exact Im| |exact (proj2 G)|exact Cl].
      assert (Wd : wf_json (in_dict (s_defs s))) by (apply (WDk "definitions"); subst d; reflexivity). unfold in_dict in Wd. apply wf_dict in Wd as [_ Wd]. apply (Wd n). apply in_map_iff. exists (n, x). auto. }
    assert (SF : forall n x, In (n, x) (s_secs s) -> nic (BCls "SecurityScheme") (JDict x)).
    { intros n x I. pose proof (lookup_nodup _ _ _ Nsec I) as L. destruct (S2 n) as (n' & v & Iv & ->); [congruence|]. destruct (S1 _ _ Iv) as (x' & L' & Im). assert (x' = x) by congruence. subst x'.
      eapply security_nice; [exact Im| |].
      - destruct G as [(_ & _ & _ & _ & Ga) _]. rewrite Forall_forall in Ga. exact (Ga _ Iv).
      - intros ((Tl & _ & _ & _ & Ta & _) & _). split; [|exact (proj2 (Ta _ _ Iv))]. eapply (W12_entry _ _ _ _ "authorizations"); [exact Tl|reflexivity|cbn; tauto|exact Iv]. }
    apply ni_object with v20_Swagger; [reflexivity| | |].
    - subst d. split; [discriminate|]. split; [intros v L; discriminate L|]. intros _ k v L _. cbn [lookup] in L.
      repeat (match type of L with (if String.eqb k ?s then _ else _) = _ => destruct (String.eqb_spec k s) as [-> |?] end;
        [first [right; injection L as <-; apply no_refs_str|left; apply (child_ofb "Swagger" v20_Swagger); reflexivity]|]). discriminate.
    - intros ch v Ic L _. subst d. cbn [c_children v20_Swagger] in Ic.
      repeat (destruct Ic as [<-|Ic]; [cbn [ch_name ch_builder lookup String.eqb Ascii.eqb Bool.eqb] in *; try (injection L as <-)|]); [| | | | | | | | | | | |contradiction].
      + apply info_nice; [exact Hi|]. intros ((Tl & _) & _). exact Tl.
      + apply texts_nice. eexists. split; [reflexivity|]. repeat constructor; eexists; reflexivity.
      + apply ni_list. intros x [].
      + apply ni_list. intros x [].
      + apply nice_dict_map; [|intros k x I; eapply path_item_nice; [exact T|exact I]]. intros (_ & (c & c' & h & pre & Hc & Ht & Hsp & Hk)).
        assert (Kt : forall k, In k (keys (s_paths s)) <-> In k (map full_path (all_sites ds))) by (intros k; rewrite Ep; apply site_keys_same with sep; exact Fs).
        destruct (strip_host_ok (s_paths s) c c' h pre) as (_ & t' & Et & Nt & Lt); [| |exact Ht|exact Hsp|].
        * rewrite Ep. apply fold_site_nodup. constructor.
        * eapply common_prefix_same; [|exact Hc]. intros k. symmetry. apply Kt.
        * assert (E2 : t' = t) by (assert (X := eq_trans (eq_sym Hs) Et); apply Ok_inj in X; exact (eq_sym (f_equal snd X))). subst t'.
          destruct (lookup "$ref" t) as [ms|] eqn:E; [|reflexivity]. exfalso. rewrite Lt in E. assert (I : In (pre ++ "$ref") (map full_path (all_sites ds))) by (apply Kt; apply in_map_iff; exists (pre ++ "$ref", ms); split; [reflexivity|exact (PyValFacts.lookup_In _ _ _ E)]).
          apply in_map_iff in I as (si & Ei & Isi). exact (proj1 (Hk _ _ Isi Ei) eq_refl).
      + apply nice_dict_map; [|exact D]. intros ((_ & _ & Tn & _) & _). specialize (Dok "$ref"). destruct (_ || _) eqn:E; [|exact Dok]. exfalso. apply Tn. apply in_or_app. apply orb_prop in E as [E|E].
        * left. apply existsb_exists in E as (dm & Id & Ed). apply String.eqb_eq in Ed. rewrite <- Ed. now apply in_map.
        * right. apply existsb_exists in E as (dm & Id & Ed). apply in_flat_map. exists dm. split; [exact Id|]. apply existsb_exists in Ed as (q & Iq & Eq). apply String.eqb_eq in Eq. now subst q.
      + apply ni_map; [intros _; reflexivity|intros k x []].
      + apply ni_map; [intros _; reflexivity|intros k x []].
      + apply nice_dict_map; [|exact SF]. intros ((_ & _ & _ & _ & Ta & _) & _). destruct (lookup "$ref" (s_secs s)) as [x|] eqn:E; [|reflexivity]. exfalso. destruct (S2 "$ref") as (n & v & Iv & En); [congruence|]. change "$ref" with (jp_encode "$ref") in En. apply jp_encode_inj in En. subst n. exact (proj1 (Ta _ _ Iv) eq_refl).
      + apply ni_list. intros x [].
      + apply ni_list. intros x I. apply in_map_iff in I as (n & <- & _). eapply (nice_class "Tag" v20_Tag ["name"]); [reflexivity|reflexivity| |intros v L; discriminate L|vm_compute; constructor|].
        * intros k N. cbn [lookup]. destruct (String.eqb_spec k "name"); [subst; exfalso; apply N; now left|reflexivity].
        * intros _. vm_compute (plain_in _ _). constructor; [|constructor]. intros v L. cbn in L. injection L as <-. apply no_refs_str.
      + discriminate.
    - intros ch Ic Rq. assert (Q : forallb (fun ch => negb (ch_required ch)) (c_children v20_Swagger) = true) by reflexivity. rewrite forallb_forall in Q. specialize (Q _ Ic). cbv beta in Q. rewrite Rq in Q. discriminate.
  Qed.
End Nice.
