(** Conversion of Swagger 1.2 objects: the resulting document is a Swagger 2.0 document which refers to itself only. *)
From Coq Require Import String Ascii List Bool Arith ZArith Lia.
From Verif Require Import PyStr PyStrFacts PyVal PyValFacts Jp JpFacts Scope SpecUrl UrlLib UrlFacts Urls Obj SpecObj SpecJson ObjFacts ShapeFacts TablesFacts SpecTables Classes_v1_2 Classes_v2_0 Scan PropertiesObjAux DumpFacts ResolveFacts RelocFacts SpecStore SpecInside SpecSchema SpecConv SpecBody SpecOp SpecDoc SpecGiven SpecMigrate SpecWhole SpecFollow
  SpecScan SpecLocal SpecOpen WfFacts WfFacts12 FollowFacts FollowFacts2 FollowFacts3
  Up12 SpecUp12 SpecOpen12 Up12Facts NumeralFacts Up12Facts2 Up12Facts3 Up12Facts4 Up12Facts5 Up12Facts6 Up12Facts7 Up12Facts8 Up12Facts9 Up12Facts10 Up12Facts11 Up12Facts13.
Import ListNotations.
Open Scope string_scope. Open Scope nat_scope.
Notation within := SpecObj.within (only parsing).

(** a document every object of which refers to targets only *)
Definition object_refers (d : doc) (c : string) (x : doc) : Prop :=
  (c = "PathItem" -> lookup "$ref" x = None) /\ forall v, lookup "$ref" x = Some v -> exists us, v = JStr (pointer us) /\ target d us.
Lemma typed_mono T (P P' : string -> doc -> Prop) : (forall c d, P c d -> P' c d) -> forall b j, SpecFollow.typed T P b j -> SpecFollow.typed T P' b j.
Proof. intros PP. induction 1; try (constructor; eauto; fail). all: econstructor; eauto. Qed.
Lemma contained_typed d base root : construct v20_table (JDict d) (BCls "Swagger") (Some base) [] = Ok root ->
  SpecFollow.typed v20_table (object_refers d) (BCls "Swagger") (JDict d) -> self_contained "2.0" root.
Proof.
  intros C Ty. assert (SD : swagger_doc d) by (apply (typed_mono _ (object_refers d)); [intros c x [H _]; exact H|exact Ty]).
  intros ts c p s kids W Ic. pose proof (typed_within _ ts root _ (typed_built _ _ _ _ _ C eq_refl Ty) W) as (T & HR & _). inversion T as [| | |c0 cd x Ec [PI PR] _ _| | | |]; subst. exists x. split; [reflexivity|].
  destruct (lookup "$ref" x) as [v|] eqn:L.
  - split; [intros ->; discriminate (PI eq_refl)|]. destruct (PR v eq_refl) as (us0 & -> & Tg). exists us0. split; [reflexivity|]. split; [exact (target_ne d _ Tg)|exact (target_object id id "" d base root C SD _ Tg)].
  - intros Z. destruct (HR Z) as (x' & v & E & Lv). injection E as <-. congruence.
Qed.

Definition target_ref (d : doc) (v : json) : Prop := exists us, v = JStr (pointer us) /\ target d us.
Lemma ref_pointer n : no_escape n -> ref_to n = JStr (pointer ["definitions"; n]).
Proof. intros E. unfold ref_to. rewrite pointer_tail. unfold tail_of. cbn [map String.concat]. rewrite (no_escape_same n E). cbn. rewrite ?sapp_nil_r. reflexivity. Qed.
Section Converted.
  Variables (sep : string) (ld : json) (ds : list (string * json)) (listing : obj) (apis : list (string * obj)) (root : obj).
  Hypothesis AM : app_made ld ds listing apis.
  Hypothesis GD : good12 ld ds.
  Hypothesis DI : distinct12 ld ds.
  Hypothesis CL : closed12 sep ds.
  Hypothesis UP : upgrade12 sep listing apis = Ok root.
  Lemma converted : exists d s, document_of root = JDict d /\ construct v20_table (JDict d) (BCls "Swagger") (Some "#") [] = Ok root /\ wf_json (JDict d) /\ state_ok sep ld ds s /\ swagger_spec s = Ok d.
  Proof.
    destruct (upgrade_document _ _ _ _ UP) as (d & Hd & Ed). destruct (upgrade_state sep ld ds listing apis d AM DI Hd) as (s & St & Hs). exists d, s. split; [exact Ed|]. split.
    - unfold upgrade12 in UP. rewrite Hd in UP. exact UP.
    - split; [|auto]. destruct AM as [[p Cl] Fa], DI as [Wl Wd].
      assert (W : okp wfd (upgrade12_spec sep listing apis)).
      { apply upgrade12_spec_wf; [exact (construct_wf _ _ Wl _ _ _ Cl)|]. intros [k o] I. cbn [snd]. destruct (Forall2_in_right _ _ _ _ Fa I) as ([n j] & Ij & _ & (q & Cj)). cbn [snd] in *.
        rewrite Forall_forall in Wd. exact (construct_wf _ _ (Wd _ Ij) _ _ _ Cj). }
      exact (W d Hd).
  Qed.
  Lemma converted_doc : exists d, document_of root = JDict d /\ construct v20_table (JDict d) (BCls "Swagger") (Some "#") [] = Ok root /\ wf_json (JDict d) /\
    swagger_doc d /\ SpecFollow.typed v20_table (object_refers d) (BCls "Swagger") (JDict d) /\ (tidy12 sep ld ds -> paths_ok ds -> refers_to_targets d).
  Proof.
    destruct converted as (d & s & Ed & C & W & St & Hs). exists d. split; [exact Ed|]. split; [exact C|]. split; [exact W|].
    assert (GR : forall n, In n (definition_names sep ds) -> no_escape n -> target_ref d (ref_to n)).
    { intros n I Ne. exists ["definitions"; n]. split; [exact (ref_pointer n Ne)|]. destruct (definitions_final _ _ _ _ _ _ AM DI UP) as [_ F]. specialize (F n). rewrite Ed in F.
      assert (Q : existsb (fun dm => String.eqb (model_name sep dm) n) (all_models ds) || existsb (fun dm => existsb (String.eqb n) (subtype_names sep dm)) (all_models ds) = true).
      { apply orb_true_iff. apply in_app_or in I as [I|I].
        - left. apply in_map_iff in I as (dm & <- & I). apply existsb_exists. exists dm. split; [exact I|apply String.eqb_refl].
        - right. apply in_flat_map in I as (dm & Id & I). apply existsb_exists. exists dm. split; [exact Id|]. apply existsb_exists. exists n. split; [exact I|apply String.eqb_refl]. }
      rewrite Q in F. destruct F as (x & Gx & _). apply tg_definition with (s := JDict x) (r := JDict x); [exact Gx|constructor]. }
    pose proof (swagger_nice sep ld ds (target_ref d) GR s d GD DI CL St Hs W) as N.
    assert (T : SpecFollow.typed v20_table (object_refers d) (BCls "Swagger") (JDict d)) by (eapply nice_typed; [|exact N]; intros c x (H1 & H2 & _); split; assumption).
    split; [|split; [exact T|]].
    - apply (typed_mono _ (object_refers d)); [intros c x [H _]; exact H|exact T].
    - intros Ti Pa. eapply nice_refs; [| | |exact N|exact W].
      + intros c x (_ & H2 & H3). split; [exact H2|]. exact (H3 (conj Ti Pa)).
      + intros c x v (_ & H2 & _) L. destruct (H2 v L) as (us & -> & _). apply no_refs_str.
      + intros x H. exact (H (conj Ti Pa)).
  Qed.
End Converted.
