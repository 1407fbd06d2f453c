(** Swagger 1.2 applications open at 2.0 and at 3.0.0. *)
From Coq Require Import String Ascii List Bool Arith Lia.
From Verif Require Import PyStr PyStrFacts PyVal PyValFacts Jp JpFacts UrlLib Urls SpecUrl UrlFacts UrlFacts2 Obj ObjFacts ShapeFacts Classes_v1_2 Classes_v2_0 Classes_v3_0_0 SpecJson SpecObj SpecScan TablesFacts DumpFacts ResolveFacts Scan
  PropertiesObjAux PropertiesScanAux Store StoreFacts App SpecApp AppFacts AppFacts2 AppFacts4 AppFacts5 Main SpecDoc SpecRefs SpecLocal SpecOpen SpecStore WfFacts RefFacts RewriteFacts RewriteFacts2 RewriteFacts3 LocalFacts LocalFacts2
  SpecSchema SpecConv SpecBody SpecOp SpecGiven SpecMigrate SpecWhole SpecInside Conv20 Up30 ConvFacts WholeFacts SpecFollow Follow FollowFacts FollowFacts2 FollowFacts3 Up12 SpecUp12 SpecOpen12 Up12Facts Up12Facts7 Up12Facts8 Up12Facts9 Up12Facts11 Up12Facts12 Up12Facts13 Up12Facts14 Up12Facts15 Up12Facts16 Whole Open12Facts SpecTables.
Import ListNotations.
Open Scope string_scope. Open Scope nat_scope.

Lemma through_1220 : versions_through known3 "1.2" "2.0" = Ok ["1.2"; "2.0"]. Proof. vm_compute. reflexivity. Qed.
Lemma through_1230 : versions_through known3 "1.2" "3.0.0" = Ok ["1.2"; "2.0"; "3.0.0"]. Proof. vm_compute. reflexivity. Qed.
Lemma no_sites : all_sites [] = []. Proof. reflexivity. Qed.

Section Whole12.
  Variables (path2url abspath : string -> string) (app_url : string) (fetch : string -> res json) (merge_fuel f : nat) (sep : string)
    (from20 : sobj -> string -> string -> override -> res (sobj * routes)).
  Variables (us uh up uq : string) (d : list (string * json)) (ds : list (string * json)).
  Hypothesis CU : clean_url us uh up uq.
  Notation url := (abs_url us uh up uq).
  Hypothesis FE : fetch url = Ok (JDict d).
  Hypothesis DE : SpecApp.declares d (JStr "1.2").
  Hypothesis AP : application fetch url d ds.
  Hypothesis WR : written (JDict d) ds.
  Hypothesis GD : good12 (JDict d) ds.
  Hypothesis DI : distinct12 (JDict d) ds.
  Hypothesis PX : exists c, c <> "" /\ common_prefix (map full_path (all_sites ds)) c.
  Let upgrade := modules path2url abspath app_url merge_fuel (conversion12 sep) from20.
  Let prepare := fun (o : sobj) (_ : string) => Ok o.
  Let ask := resolve_obj path2url abspath app_url known3 fetch upgrade prepare (Datatypes.S f).
  Notation opening V := (open_document path2url abspath app_url known3 fetch upgrade prepare V (Datatypes.S f) url (fresh_app known3)).

  Lemma ds_ne : ds <> [].
  Proof. destruct PX as (c & Nc & CP). intros E. rewrite E in CP. exact (no_longest (ex_intro _ c CP)). Qed.
  Lemma load12 : exists listing apis last, app_made (JDict d) ds listing apis /\ last <> url /\ (exists kids, listing = OObj "ResourceListing" (Some url) (JDict d) kids) /\
    load_obj path2url abspath fetch url None false (fresh_app known3) = (st12 us uh up uq last (mk_sobj "1.2" listing apis) [] [] [EParse url "#"], Ok (mk_sobj "1.2" listing apis)).
  Proof.
    destruct WR as [WL WDs]. destruct AP as (names & LI & ND & F2).
    destruct (proj2 (construct_shaped v12_table (JDict d) (BCls "ResourceListing") (Some url)) (typed_shaped_in _ _ _ _ WL)) as (listing & C).
    destruct (resource_paths_of d (Some url) listing names C LI) as (ps & RP & FP).
    destruct (apis_loaded fetch url ps names ds FP ND F2 WDs [] url) as (apis & FA & LA); [reflexivity|]. cbn [List.app] in LA.
    assert (NN : names <> []) by (intros E; pose proof ds_ne as Q; rewrite E in F2; inversion F2 as [H1 H2|]; apply Q; symmetry; assumption).
    destruct (last_in url url names NN) as (n & In_ & EL). exists listing, apis, (last_url url url names). split; [split; [exists (Some url); exact C|exact FA]|].
    split. { rewrite EL. destruct (Forall2_in_left _ _ _ _ F2 In_) as (nd & _ & _ & H & _). exact H. }
    destruct (construct_cls_obj _ _ _ _ _ C) as (kids & EK). split; [exists kids; exact EK|].
    assert (DV : doc_version (JDict d) = Ok (Some (JStr "1.2"))) by (apply doc_version_declares; exact DE).
    unfold load_obj, bindm at 1, lift at 1. rewrite FE. unfold bindm at 1, lift at 1. rewrite DV. unfold bindm at 1, lift at 1. rewrite (split_url path2url abspath us uh up uq CU).
    change (version_key (Some (JStr "1.2"))) with (Some "1.2"). cbv iota.
    unfold bindm at 1, get_obj at 1. cbn [a_store fresh_app]. change (store_get so_resolve (new_store known3) url "#" "1.2") with (@Ok (option sobj) None). cbv iota.
    unfold bindm at 1, get_under at 1. cbn [a_store fresh_app]. change (store_get_under (new_store known3) url "#" "1.2" false) with (new_store known3 : store sobj, @Ok (option (list (string * sobj))) None). cbv iota.
    unfold bindm at 1, emit at 1. cbv iota. unfold bindm at 1, lift at 1.
    assert (P : parse fetch (JDict d) url url (Some (JStr "1.2")) (overrides None) None = Ok (mk_sobj "1.2" listing apis, "1.2", last_url url url names)).
    { unfold parse. change (String.eqb "1.2" "1.2") with true. cbv iota. rewrite C. cbn [bind]. rewrite RP. cbn [bind]. unfold load_apis. cbv zeta. unfold decl_url in LA. cbv zeta in LA. rewrite LA. reflexivity. }
    rewrite P. cbv iota. subst listing. set (o := mk_sobj "1.2" (OObj "ResourceListing" (Some url) (JDict d) kids) apis). change (so_truthy o) with true. cbv iota.
    unfold bindm at 1, set_obj at 1, store_set at 1. change (so_base o) with true. cbv iota. change (is_root o) with true. cbv iota. reflexivity.
  Qed.

  Hypothesis CL : closed12 sep ds.
  (** ** opening at 2.0 *)
  Lemma listing_open : exists listing apis root dd last, app_made (JDict d) ds listing apis /\ upgrade12 sep listing apis = Ok root /\ last <> url /\
    (exists kids, listing = OObj "ResourceListing" (Some url) (JDict d) kids) /\ document_of root = JDict dd /\ wf_json (JDict dd) /\
    construct v20_table (JDict dd) (BCls "Swagger") (Some "#") [] = Ok root /\ self_contained "2.0" root /\ swagger_doc dd /\ SpecFollow.typed v20_table (object_refers dd) (BCls "Swagger") (JDict dd) /\
    (tidy12 sep (JDict d) ds -> paths_ok ds -> refers_to_targets dd) /\ (exists s, swagger_spec s = Ok dd) /\
    load_obj path2url abspath fetch url None false (fresh_app known3) = (st12 us uh up uq last (mk_sobj "1.2" listing apis) [] [] [EParse url "#"], Ok (mk_sobj "1.2" listing apis)).
  Proof.
    destruct load12 as (listing & apis & last & AM & NL & EK & LD). destruct (proj2 (proj1 (upgrade_iff sep (JDict d) ds listing apis AM GD DI)) PX) as (root & UP).
    destruct (converted_doc sep (JDict d) ds listing apis root AM GD DI CL UP) as (dd & Ed & C & W & SD & TY & RT).
    destruct (converted sep (JDict d) ds listing apis root AM DI UP) as (d2 & s & Ed2 & _ & _ & _ & Hs). assert (d2 = dd) by congruence. subst d2.
    exists listing, apis, root, dd, last. repeat (split; [first [assumption|exact (contained_typed dd "#" root C TY)|exists s; exact Hs]|]). exact LD.
  Qed.
  Theorem opens_12_20 : exists listing apis a root, app_made (JDict d) ds listing apis /\ upgrade12 sep listing apis = Ok root /\ opening "2.0" = (a, Ok (mk_sobj "2.0" root [])) /\ self_contained "2.0" root.
  Proof.
    destruct listing_open as (listing & apis & root & dd & last & AM & UP & NL & (kids & EK) & Ed & W & C & SC & _ & _ & _ & _ & LD). set (o12 := mk_sobj "1.2" listing apis) in *.
    assert (B12 : so_base o12 = true) by (unfold o12; rewrite EK; reflexivity). assert (F12 : conversion12 sep o12 = Ok (mk_sobj "2.0" root [])) by (unfold conversion12, o12; cbn [so_obj so_apis]; rewrite UP; reflexivity).
    assert (R1 := round12 path2url abspath app_url fetch merge_fuel f (conversion12 sep) from20 us uh up uq last o12 NL B12 [EParse url "#"]).
    assert (R2 := round20_12 path2url abspath app_url fetch merge_fuel f (conversion12 sep) from20 us uh up uq CU last o12 NL dd root W C SC eq_refl F12 [EParse url "#"]). fold upgrade prepare ask in R1, R2.
    assert (OP : exists a, opening "2.0" = (a, Ok (mk_sobj "2.0" root []))).
    { unfold open_document, bindm. rewrite LD. eapply (migrate_run path2url abspath app_url fetch merge_fuel f (conversion12 sep) from20 us uh up uq CU); [right; left; reflexivity| |exact through_1220|].
      - unfold swagger_version, o12. cbn [so_obj]. rewrite EK. reflexivity.
      - fold upgrade prepare ask. cbn [rounds]. rewrite R1, R2. reflexivity. }
    destruct OP as (a & OP). exists listing, apis, a, root. auto.
  Qed.
End Whole12.

Theorem opens_12_30 (path2url abspath : string -> string) (app_url : string) (fetch : string -> res json) (merge_fuel f : nat) (sep : string) (us uh up uq : string) (d ds : list (string * json)) :
  clean_url us uh up uq -> fetch (abs_url us uh up uq) = Ok (JDict d) -> SpecApp.declares d (JStr "1.2") -> application fetch (abs_url us uh up uq) d ds -> written (JDict d) ds -> good12 (JDict d) ds -> distinct12 (JDict d) ds ->
  (exists c, c <> "" /\ common_prefix (map full_path (all_sites ds)) c) -> closed12 sep ds -> tidy12 sep (JDict d) ds -> expressible12 (JDict d) ds -> paths_ok ds ->
  let url := abs_url us uh up uq in
  exists listing apis root a x reloc root30 u,
    app_made (JDict d) ds listing apis /\ upgrade12 sep listing apis = Ok root /\
    to_openapi (deref_in path2url abspath url root) (normalized_in url) root = Ok (x, None, reloc) /\ construct v30_table (JDict x) (BCls "OpenApi") (Some "#") [] = Ok root30 /\
    open_document path2url abspath app_url known3 fetch (modules path2url abspath app_url merge_fuel (conversion12 sep) (conversion_in path2url abspath)) (fun o _ => Ok o)
      "3.0.0" (Datatypes.S f) url (fresh_app known3) = (a, Ok (mk_sobj "3.0.0" (rewrite_refs u root30) [])) /\
    self_contained "3.0.0" (rewrite_refs u root30).
Proof.
  intros CU FE DE AP WR GD DI PX CL TI EX PO url. subst url. set (url := abs_url us uh up uq) in *.
  destruct (listing_open path2url abspath fetch sep us uh up uq d ds CU FE DE AP WR GD DI PX CL) as (listing & apis & root & dd & last & AM & UP & NL & (kids & EK) & Ed & W & C & SC & SD & TY & RTI & MD & LD).
  assert (RT := RTI TI PO). exists listing, apis, root.
  assert (WF : well_formed dd) by exact (converted_well_formed sep (JDict d) ds listing apis root AM GD DI CL UP EX PO dd Ed W TY MD).
  assert (EG : expressible_globals dd) by exact (globals_ok sep (JDict d) ds listing apis root AM DI UP EX dd Ed MD).
  assert (FL : forall n s, lookup n (entries_of (val dd "securityDefinitions")) = Some (JDict s) -> flow_loads s) by (intros n s; exact (flows_ok sep (JDict d) ds listing apis root AM DI UP EX dd Ed n s)).
  destruct (names_ok dd MD) as [SN NS].
  pose proof (migrates path2url abspath us uh up uq CU dd "#" root C SD WF) as MG. pose proof MG as ((WD & _) & _).
  assert (DW : forall o y, wf_obj o -> deref_in path2url abspath url root o = Ok y -> wf_obj y).
  { intros o y. apply FollowFacts2.deref_wf. exact (WfFacts.construct_wf v20_table (JDict dd) WD (BCls "Swagger") (Some "#") root C). }
  assert (NT : forall o n, normalized_in url o = Ok n -> exists s, n = JStr s).
  { intros o n. unfold normalized_in. destruct (normalized v20_table url o) as [[s|]|]; cbn [bind]; intros H; [|discriminate|discriminate]. exists s. now apply Up12Facts.Ok_inj in H. }
  destruct (whole_converted _ _ dd url "#" root C SC MG EG NS FL RT DW NT) as (x & reloc & root30 & E & Wx & T & C30 & U).
  destruct (whole_references _ _ dd "#" root C MG SN x reloc root30 E T C30) as (UM & NM & R).
  set (o12 := mk_sobj "1.2" listing apis) in *. set (from20 := conversion_in path2url abspath).
  assert (B12 : so_base o12 = true) by (unfold o12; rewrite EK; reflexivity). assert (F12 : conversion12 sep o12 = Ok (mk_sobj "2.0" root [])) by (unfold conversion12, o12; cbn [so_obj so_apis]; rewrite UP; reflexivity).
  assert (F20 : from20 (mk_sobj "2.0" root []) url "#" [] = Ok (mk_sobj "3.0.0" root30 [], reloc)) by (unfold from20, conversion_in, conversion20; cbn [so_obj]; unfold url in *; rewrite U; reflexivity).
  assert (R1 := round12 path2url abspath app_url fetch merge_fuel f (conversion12 sep) from20 us uh up uq last o12 NL B12 [EParse url "#"]).
  assert (R2 := round20_12 path2url abspath app_url fetch merge_fuel f (conversion12 sep) from20 us uh up uq CU last o12 NL dd root W C SC eq_refl F12 [EParse url "#"]).
  destruct (round30_12 path2url abspath app_url fetch merge_fuel f (conversion12 sep) from20 us uh up uq CU last o12 NL root (JDict x) root30 reloc F20 Wx C30 UM NM R [EParse url "#"]) as (a3 & u & jp' & R3 & SC3 & _).
  assert (OP : exists a, open_document path2url abspath app_url known3 fetch (modules path2url abspath app_url merge_fuel (conversion12 sep) from20) (fun o _ => Ok o)
      "3.0.0" (Datatypes.S f) url (fresh_app known3) = (a, Ok (mk_sobj "3.0.0" (rewrite_refs u root30) []))).
  { unfold open_document, bindm. fold url in LD. rewrite LD. eapply (migrate_run path2url abspath app_url fetch merge_fuel f (conversion12 sep) from20 us uh up uq CU); [right; right; left; reflexivity| |exact through_1230|].
    - unfold swagger_version, o12. cbn [so_obj]. rewrite EK. reflexivity.
    - cbn [rounds]. rewrite R1, R2. rewrite R3. reflexivity. }
  destruct OP as (a & OP). exists a, x, reloc, root30, u. auto 8.
Qed.
