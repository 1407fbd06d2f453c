(** * When a document can be opened at OpenAPI 3.0. *)
From Coq Require Import String Ascii List Bool Arith Lia.
From Verif Require Import PyStr PyStrFacts PyVal PyValFacts Jp UrlLib Obj ObjFacts Classes_v2_0 Classes_v3_0_0 TablesFacts SpecJson ShapeFacts SpecObj SpecSchema SpecConv SpecBody SpecOp SpecDoc Store Conv20 Up30 ConvFacts SchemaFacts SchemaFacts2 ParamFacts BodyFacts BodyFacts2 ParamListFacts ParamListFacts2 ParamListFacts3 OpFacts OpFacts2 PathFacts PathFacts2 DocFacts DocFacts2 TotalFacts SpecGiven SpecMigrate MigrateFacts MigrateFacts2 CompareFacts SpecInside Shape30Facts Shape30Facts2 Shape30Facts3 Shape30Facts4 Up30Facts.
Import ListNotations.
Open Scope string_scope. Open Scope nat_scope.

Notation fits := (shaped v30_table).
Lemma fits_kid c cd d ch v : fits (BCls c) (JDict d) -> lookup c v30_table = Some cd -> In ch (c_children cd) -> lookup (ch_name ch) d = Some v -> v <> JNull -> fits (ch_builder ch) v.
Proof. intros F Hc I L N. inversion F as [| | |c0 cd0 d0 Hc0 H1 H2|c0 cd0 j0 Hc0 H1 H2| | | |]; subst; [|now elim (H1 d)]. assert (cd0 = cd) by congruence. subst. eauto. Qed.
Lemma fits_required c cd d ch : fits (BCls c) (JDict d) -> lookup c v30_table = Some cd -> In ch (c_children cd) -> ch_required ch = true -> lookup (ch_name ch) d <> None.
Proof. intros F Hc I R L. inversion F as [| | |c0 cd0 d0 Hc0 H1 H2|c0 cd0 j0 Hc0 H1 H2| | | |]; subst; [|now elim (H1 d)]. assert (cd0 = cd) by congruence. subst. specialize (H2 ch I L). congruence. Qed.
Lemma scheme_needs s x : scheme_image s x -> fits (BRefElse "Reference" (BCls "SecurityScheme")) (JDict x) -> flow_loads s.
Proof.
  intros (_ & _ & _ & H4 & O) F Et f Hf If. assert (Fs : fits (BCls "SecurityScheme") (JDict x)).
  { inversion F as [| | | | |r b j Oc Fr|r b j Sr Oc Fs| |]; subst; [|exact Fs]. exfalso. inversion Oc as [d' v L| |]; subst. rewrite O in L; [discriminate|]. cbn [In]. intuition discriminate. }
  rewrite Et in H4. cbn [is_text String.eqb Ascii.eqb Bool.eqb] in H4. destruct H4 as (fl & Lf & f' & d & Hf' & -> & _ & Sc & _). assert (f' = f) by congruence. subst f'.
  assert (Ff : fits (BCls "OAuthFlows") (JDict [(f, JDict d)])) by (apply (fits_kid "SecurityScheme" v30_SecurityScheme x (mk_child "flows" (BCls "OAuthFlows") false) _ Fs eq_refl); [cbn; tauto|exact Lf|discriminate]).
  assert (Fd : fits (BCls "OAuthFlow") (JDict d)).
  { assert (Lf' : lookup f [(f, JDict d)] = Some (JDict d)) by (cbn [lookup]; now rewrite String.eqb_refl).
    cbn [In] in If. repeat (destruct If as [<-|If]; [match goal with H : lookup ?k _ = Some _ |- _ => apply (fits_kid "OAuthFlows" v30_OAuthFlows _ (mk_child k (BCls "OAuthFlow") false) (JDict d) Ff eq_refl); [cbn; tauto|reflexivity|discriminate] end|]). destruct If. }
  pose proof (fits_required "OAuthFlow" v30_OAuthFlow d (mk_child "scopes" (BMapOf BStr) true) Fd eq_refl ltac:(cbn; tauto) eq_refl) as Ns. cbn [ch_name] in Ns. rewrite Sc in Ns.
  destruct (val s "scopes") as [| | | | | |[|kv l]]; try (now elim Ns). eauto.
Qed.
Section Go.
  Variables (deref : obj -> res obj) (normalized_ref : obj -> res json).
  Lemma openapi_needs d o x reloc sec n s : loaded (BCls "Swagger") (JDict d) o -> document d -> to_openapi deref normalized_ref o = Ok (x, sec, reloc) -> fits (BCls "OpenApi") (JDict x) ->
    lookup n (entries_of (val d "securityDefinitions")) = Some (JDict s) -> flow_loads s.
  Proof.
    intros L (W & Hi & Hil & He & Ht) H F Ln.
    destruct (to_openapi_ok deref normalized_ref d o x sec reloc L W Hi Hil He Ht H) as (url & paths & schemas & ys & resps & secs & _ & _ & _ & _ & _ & _ & _ & _ & _ & _ & _ & _ & _ & _ & _ & X14 & X15 & _ & X17 & X18 & _).
    destruct (each_lookup _ _ _ _ _ _ X14 Ln) as (so & sx & Ls & Es & Lx).
    destruct secs as [|y secs]; [discriminate|]. cbn [some_dict] in X15.
    destruct (lookup "components" x) as [c|] eqn:Ec; [|apply proj1 in X17; destruct (X17 eq_refl) as (_ & _ & _ & Z); discriminate]. pose proof (X18 c eq_refl) as ->.
    pose proof (fits_kid "OpenApi" v30_OpenApi x (mk_child "components" (BCls "Components") false) _ F eq_refl ltac:(cbn; tauto) Ec ltac:(discriminate)) as Fc. cbn [ch_builder] in Fc.
    pose proof (fits_kid "Components" v30_Components _ (mk_child "securitySchemes" (BMapOf (BRefElse "Reference" (BCls "SecurityScheme"))) false) _ Fc eq_refl ltac:(cbn; tauto) X15 ltac:(discriminate)) as Fm. cbn [ch_builder] in Fm.
    inversion Fm as [| |b d0 Fe| | | | | |]; subst. apply TablesFacts.lookup_In in Lx. exact (scheme_needs s sx (scheme_ok s so sx Ls Es) (Fe _ _ Lx)).
  Qed.
  Lemma swagger_upgrade d o url jp : loaded (BCls "Swagger") (JDict d) o -> upgrade30 deref normalized_ref o url jp =
    (x <- to_openapi deref normalized_ref o ;; let '(d', sec, reloc) := x in r <- construct v30_table (JDict (with_security d' sec)) (BCls "OpenApi") (Some jp) [] ;; Ok (r, reloc)).
  Proof. intros L. destruct (loaded_obj "Swagger" v20_Swagger (JDict d) o eq_refl L) as (p & kids & -> & _). reflexivity. Qed.
  Theorem opens_iff path_ok d o url jp : loaded (BCls "Swagger") (JDict d) o -> migratable deref normalized_ref path_ok d -> (forall k ps ops, path_ok k ps ops -> good_path k ps ops) -> expressible_globals d ->
    ((exists r, upgrade30 deref normalized_ref o url jp = Ok r) <->
     elements_of (val d "security") = [] /\ (forall n s, lookup n (entries_of (val d "securityDefinitions")) = Some (JDict s) -> flow_loads s)).
  Proof.
    intros L M Gp Eg. destruct (openapi_outcome deref normalized_ref path_ok d o L M) as [[[[x sec] reloc] E]|[_ N]]; [|exfalso; apply N; auto]. pose proof M as ((W & Hi & Hil & He & Ht) & _).
    assert (S0 : elements_of (val d "security") = [] -> sec = None).
    { intros Z. destruct (to_openapi_ok deref normalized_ref d o x sec reloc L W Hi Hil He Ht E) as (url' & paths & schemas & ys & resps & secs & _ & _ & _ & _ & _ & _ & _ & _ & _ & _ & _ & _ & _ & _ & _ & _ & _ & _ & _ & _ & _ & _ & _ & X & _). now rewrite Z in X. }
    split.
    - intros [r H]. assert (Z : elements_of (val d "security") = []). { destruct (elements_of (val d "security")) eqn:Z; [reflexivity|]. exfalso. apply (security_not_migrated deref normalized_ref d o url jp L) with r; [congruence|exact H]. }
      split; [exact Z|]. intros n s Ln. rewrite (swagger_upgrade d o url jp L), E in H. cbn [bind] in H. rewrite (S0 Z) in H. cbn [with_security] in H. apply bind_ok in H as (ro & Er & _).
      apply (openapi_needs d o x reloc sec n s L (proj1 M) E); [|exact Ln]. apply (construct_shaped v30_table _ _ (Some jp)). eauto.
    - intros [Z Fl]. rewrite (swagger_upgrade d o url jp L), E. cbn [bind]. rewrite (S0 Z). cbn [with_security].
      destruct (proj2 (construct_shaped v30_table (JDict x) (BCls "OpenApi") (Some jp)) (tight_shaped _ _ _ (openapi_fits (okref := fun _ _ => True) deref normalized_ref path_ok d o x reloc sec L M Fl (refs_any _) ltac:(intros; split; apply Forall_forall; intros; split; try apply Forall_forall; intros; try split; apply refs_any) (fun _ _ _ _ _ => I) E))) as [r ->]. cbn [bind]. eauto.
  Qed.
End Go.
