(** Opening a document returns its conversion: the conversions of the library. *)
From Coq Require Import String Ascii List Bool Arith Lia.
From Verif Require Import PyStr PyStrFacts PyVal PyValFacts Jp UrlLib Urls Obj ObjFacts SpecJson SpecObj
  Classes_v1_2 Classes_v2_0 Classes_v3_0_0 Store SpecStore StoreFacts Scan App SpecApp AppFacts AppFacts2 AppFacts4 AppFacts5 Main SpecOpen RewriteFacts OpenFacts CleanFacts WfFacts WfFacts12 Up12.
Import ListNotations.
Open Scope string_scope. Open Scope nat_scope.

(** ** the real conversions, without preparation *)
From Verif Require Import SpecGiven Conv20 ConvFacts ShapeFacts SpecConv SpecSchema SpecOp SpecDoc Up30 Up30Facts Whole TablesFacts DocFacts2 ObjFacts.
Lemma upgrade30_document deref nr o url jp r rs p d : construct v20_table (JDict d) (BCls "Swagger") p [] = Ok o ->
  upgrade30 deref nr o url jp = Ok (r, rs) -> exists x, to_openapi deref nr o = Ok (x, None, rs) /\ construct v30_table (JDict x) (BCls "OpenApi") (Some jp) [] = Ok r.
Proof.
  intros C0 H. destruct (construct_class _ _ _ _ _ _ C0) as (p0 & kids & ->).
  set (o := OObj "Swagger" p0 (JDict d) kids) in *. change (upgrade30 deref nr o url jp) with (x <- to_openapi deref nr o ;; let '(dd, sec, reloc) := x in r <- construct v30_table (JDict (with_security dd sec)) (BCls "OpenApi") (Some jp) [] ;; Ok (r, reloc)) in H.
  destruct (to_openapi deref nr o) as [[[dd sec] reloc]|] eqn:Ho; [|discriminate]. cbn [bind] in H.
  destruct (construct _ _ _ _ _) as [oo|] eqn:C in H; [|discriminate]. cbn [bind] in H. injection H as -> ->. destruct sec as [so|]; [|eauto]. exfalso. cbn [with_security] in C.
  destruct (attr_kid v30_table "OpenApi" v30_OpenApi _ _ r (mk_child "security" (BListOf (BMapOf (BListOf BStr))) false) v30_well_declared eq_refl ltac:(cbn; tauto) C) as [[Hv _]|(_ & ko & _ & Hk)];
    cbn [ch_name ch_builder] in *; unfold val in *; rewrite lookup_set, String.eqb_refl in *; [discriminate|].
  assert (S : shaped v30_table (BListOf (BMapOf (BListOf BStr))) not_a_list) by (eapply construct_shaped; eexists; exact Hk). inversion S.
Qed.
Lemma upgrade12_document sep listing apis r : upgrade12 sep listing apis = Ok r ->
  exists x, upgrade12_spec sep listing apis = Ok x /\ construct v20_table (JDict x) (BCls "Swagger") (Some "#") [] = Ok r.
Proof. unfold upgrade12. destruct (upgrade12_spec sep listing apis) as [x|]; [|discriminate]. cbn [bind]. eauto. Qed.

Lemma no_ref_child T : forallb (fun c => forallb (fun ch => negb (String.eqb (ch_name ch) "$ref")) (c_children (snd c))) T = true ->
  forall c cd ch, lookup c T = Some cd -> In ch (c_children cd) -> ch_name ch <> "$ref".
Proof.
  intros H c cd ch L I E. rewrite forallb_forall in H. apply PyValFacts.lookup_In in L. specialize (H _ L). cbn [snd] in H. rewrite forallb_forall in H. specialize (H _ I).
  rewrite E in H. discriminate H.
Qed.
(** a rewritten object is made from a rewritten document *)
Lemma written_document j c p x y : wf_json j -> construct v30_table j (BCls c) p [] = Ok (so_obj x) -> written x y ->
  exists j', same_but_refs j j' /\ construct v30_table j' (BCls c) p [] = Ok (so_obj y).
Proof.
  intros W C [u ->]. destruct (construct_rewrite v30_table u v30_well_declared (no_ref_child v30_table ltac:(vm_compute; reflexivity)) j W _ _ _ C) as (C' & SB & _). eauto.
Qed.

Lemma handed_all from12 from20 url jp o calls o' :
  handed_on (fun w x y => exists mid rs (where_ : string), stepped written from12 from20 url jp w x mid rs /\ Ok mid = Ok y) o calls o' ->
  all_steps written from12 from20 url jp (map fst calls) o o'.
Proof. induction 1 as [o|o o1 o2 w calls (mid & rs & wh & ST & E) HO IH]; [constructor|]. injection E as ->. econstructor; eauto. Qed.
Section Plain.
  Variables (path2url abspath : string -> string) (app_url : string) (fuel merge_fuel : nat) (fetch : string -> res json).
  Variables (from12 : sobj -> res sobj) (from20 : sobj -> string -> string -> override -> res (sobj * routes)).
  Notation upgrade := (modules path2url abspath app_url merge_fuel from12 from20).
  Notation prepare := (fun (o : sobj) (_ : string) => @Ok sobj o).
  Notation opened to jref := (open_document path2url abspath app_url three fetch upgrade prepare to fuel jref (fresh_app three)).
  Lemma plain to jref url jp d v a o' x vs : In to three -> strict_version v = Ok x -> versions_through three v to = Ok vs ->
    fetch jref = Ok (JDict d) -> declares d (JStr v) -> split path2url abspath jref = Ok (url, jp) -> opened to jref = (a, Ok o') ->
    exists o, made_from fetch jref d v o /\ all_steps written from12 from20 url jp vs o o'.
  Proof.
    intros I SV VT F DE S O. destruct (open_returns _ _ _ _ _ _ _ _ _ _ _ _ _ _ _ _ _ _ three_ascending F DE S O) as (o & calls & MF & ST & HO & _).
    exists o. split; [exact MF|]. apply handed_all in HO. rewrite (through_three v to x vs I SV VT _ ST) in HO. exact HO.
  Qed.
  Lemma steps20 v o o' rs url jp : v = "1.2" \/ v = "2.0" -> stepped written from12 from20 url jp v o o' rs ->
    (v = "1.2" /\ o' = o) \/ (v = "2.0" /\ v = so_version o /\ o' = o) \/ (v = "2.0" /\ so_version o = "1.2" /\ from12 o = Ok o' /\ so_version o' = "2.0").
  Proof.
    intros HV H. inversion H as [x|x E|x y E|x y E|x y z rr ov E]; subst; [now left|right; left; auto|destruct HV as [HV|HV]; discriminate HV|right; right; auto|destruct HV as [HV|HV]; discriminate HV].
  Qed.
  Lemma open_same20 jref url jp d a o' : fetch jref = Ok (JDict d) -> declares d (JStr "2.0") -> split path2url abspath jref = Ok (url, jp) ->
    opened "2.0" jref = (a, Ok o') -> made_from fetch jref d "2.0" o'.
  Proof.
    intros F DE S O. assert (X : exists o, made_from fetch jref d "2.0" o /\ all_steps written from12 from20 url jp ["2.0"] o o').
    { eapply plain; try exact F; try exact DE; try exact S; try exact O; try (vm_compute; reflexivity); cbn; auto. }
    destruct X as (o & MF & A). inversion A as [|? ? ? o1 ? rs ST A']; subst. inversion A'; subst.
    destruct (steps20 _ _ _ _ _ _ (or_intror eq_refl) ST) as [(E & _)|[(_ & _ & ->)|(_ & E & _)]]; [discriminate E|exact MF|]. destruct MF as (V & _). rewrite V in E. discriminate E.
  Qed.
  Lemma open_same30 jref url jp d a o' : fetch jref = Ok (JDict d) -> declares d (JStr "3.0.0") -> split path2url abspath jref = Ok (url, jp) ->
    opened "3.0.0" jref = (a, Ok o') -> exists o, made_from fetch jref d "3.0.0" o /\ written o o'.
  Proof.
    intros F DE S O. assert (X : exists o, made_from fetch jref d "3.0.0" o /\ all_steps written from12 from20 url jp ["3.0.0"] o o').
    { eapply plain; try exact F; try exact DE; try exact S; try exact O; try (vm_compute; reflexivity); cbn; auto. }
    destruct X as (o & MF & A). inversion A as [|? ? ? o1 ? rs ST A']; subst. inversion A'; subst. exists o. split; [exact MF|]. destruct MF as (V & _).
    inversion ST; subst; [assumption|congruence].
  Qed.
  Lemma open_12_20 jref url jp d a o' : fetch jref = Ok (JDict d) -> declares d (JStr "1.2") -> split path2url abspath jref = Ok (url, jp) ->
    opened "2.0" jref = (a, Ok o') -> exists o, made_from fetch jref d "1.2" o /\ from12 o = Ok o'.
  Proof.
    intros F DE S O. assert (X : exists o, made_from fetch jref d "1.2" o /\ all_steps written from12 from20 url jp ["1.2"; "2.0"] o o').
    { eapply plain; try exact F; try exact DE; try exact S; try exact O; try (vm_compute; reflexivity); cbn; auto. }
    destruct X as (o & MF & A). inversion A as [|? ? ? o1 ? rs1 ST1 A1]; subst. inversion A1 as [|? ? ? o2 ? rs2 ST2 A2]; subst. inversion A2; subst. destruct MF as (V & MF).
    assert (o1 = o) by (destruct (steps20 _ _ _ _ _ _ (or_introl eq_refl) ST1) as [(_ & ->)|[(_ & _ & ->)|(E & _)]]; [reflexivity|reflexivity|discriminate E]). subst o1.
    destruct (steps20 _ _ _ _ _ _ (or_intror eq_refl) ST2) as [(E & _)|[(_ & E & _)|(_ & E & FR & _)]]; [discriminate E|rewrite V in E; discriminate E|].
    exists o. split; [split; assumption|exact FR].
  Qed.

  (** the last step, with the state before it *)
  Lemma rounds_last ask url jref v vs : forall o jp from a a' calls o', rounds upgrade prepare ask url jref (vs ++ [v])%list o jp from a = (a', calls, Ok o') ->
    exists a1 calls1 o1 jp1 from1 jp', rounds upgrade prepare ask url jref vs o jp from a = (a1, calls1, Ok o1) /\ round upgrade prepare ask url jref o1 jp1 from1 v a1 = (a', Ok (o', jp')).
  Proof.
    induction vs as [|w vs IH]; intros o jp from a a' calls o' H; cbn [List.app rounds] in H.
    - destruct (round _ _ _ _ _ _ _ _ _ a) as [a1 [[o1 jp1]|e]] eqn:RO; [|discriminate H]. injection H as <- <- <-. exists a, [], o, jp, from, jp1. split; [reflexivity|exact RO].
    - destruct (round _ _ _ _ _ _ _ _ _ a) as [a1 [[o1 jp1]|e]] eqn:RO; [|discriminate H].
      destruct (rounds _ _ _ _ _ _ _ _ _ a1) as [[a2 t] r] eqn:R2 in H. injection H as <- <- ->. apply IH in R2 as (a3 & calls3 & o3 & jp3 & from3 & jp' & H1 & H2).
      cbn [rounds]. rewrite RO, H1. do 6 eexists. split; [reflexivity|exact H2].
  Qed.
  Lemma round_run ask url jref o jp from v a a' o' jp' m : upgrade v = Some m -> round upgrade prepare ask url jref o jp from v a = (a', Ok (o', jp')) ->
    exists a1 rs, run ask (m o jref) a = (a1, Ok (o', rs)).
  Proof.
    unfold round. intros ->. unfold bindm at 1. destruct (run ask (m o jref) a) as [a1 [[mid reloc]|e]]; [|discriminate]. unfold bindm, put_routes, relocate, set_obj, lift, ret.
    destruct (store_update_routes (a_store a1) url v [(jp, RMap reloc)]) as [s [[]|e]]; [|intros H; discriminate H].
    destruct (store_relocate _ url jp from (Some v)) as [jp1|e]; [|intros H; discriminate H].
    destruct (store_set so_base _ mid url jp1 v) as [s2|e] eqn:S; [|intros H; discriminate H].
    intros H. injection H as _ <- _. eauto.
  Qed.
  Lemma open_last jref url jp d v vs a o' : v = "1.2" /\ vs = ["1.2"; "2.0"] \/ v = "2.0" /\ vs = ["2.0"] ->
    (forall j d p, split path2url abspath j = Ok (url, p) -> fetch j = Ok (JDict d) -> ~ declares d (JStr "3.0.0")) ->
    fetch jref = Ok (JDict d) -> declares d (JStr v) -> split path2url abspath jref = Ok (url, jp) -> opened "3.0.0" jref = (a, Ok o') ->
    exists o o2 a2 a3 rs, made_from fetch jref d v o /\ all_steps written from12 from20 url jp vs o o2 /\ clean url a2 /\
      run (resolve_obj path2url abspath app_url three fetch upgrade prepare fuel) (upgrade300 path2url abspath app_url merge_fuel from20 o2 jref) a2 = (a3, Ok (o', rs)).
  Proof.
    intros HV NO30 F DE S O. unfold open_document, bindm in O.
    assert (CL := keeps_load path2url abspath fetch url NO30 jref None false (fun q E => match E with end) (fresh_app three) (fresh_clean url)).
    destruct (load_obj path2url abspath fetch jref None false (fresh_app three)) as [a1 [o|e]] eqn:L; [|discriminate O]. cbn [fst] in CL.
    assert (MF := fresh_load _ _ _ _ _ _ _ _ _ _ _ F DE S L). assert (SV := made_version _ _ _ _ _ MF).
    unfold App.migrate_obj, migrate_traced in O. change (negb (str_in "3.0.0" three)) with false in O. cbv iota in O. rewrite SV in O. cbn [bind] in O.
    assert (VT : versions_through three v "3.0.0" = Ok (vs ++ ["3.0.0"])%list) by (destruct HV as [[-> ->]|[-> ->]]; vm_compute; reflexivity).
    rewrite VT, S in O. cbn [bind] in O. destruct (rounds _ _ _ _ _ _ _ _ _ a1) as [[a2 t] [r|e]] eqn:RO in O; [|discriminate O].
    assert (r = o') by (injection O; intros; congruence). subst r. apply rounds_last in RO as (a3 & calls3 & o3 & jp3 & from3 & jp' & H1 & H2).
    destruct (round_run _ _ _ _ _ _ "3.0.0" _ _ _ _ (upgrade300 path2url abspath app_url merge_fuel from20) eq_refl H2) as (a4 & rs & RR). exists o, o3, a3, a4, rs. split; [exact MF|].
    assert (HVS : forall w, In w vs -> w = "1.2" \/ w = "2.0") by (intros w I; destruct HV as [[_ ->]|[_ ->]]; cbn in I; intuition).
    assert (K := keeps_rounds path2url abspath app_url merge_fuel from12 from20 url _ (keeps_resolve path2url abspath app_url fetch merge_fuel from12 from20 url NO30 fuel) url jref vs HVS o jp v a1 CL).
    rewrite H1 in K. cbn [fst] in K. split; [|split; [exact K|exact RR]].
    destruct (rounds_ok _ _ _ _ _ _ _ _ _ _ _ _ _ H1) as (MV & HO & _). rewrite <- MV.
    clear -HO S. induction HO as [o|o o1 o2 w calls (m & b & c & mid & rs & wh & UP & RU & PR) HO IH]; [constructor|]. injection PR as ->. econstructor; [|exact IH]. eapply module_stepped; eauto.
  Qed.
  Lemma last_converted o2 url jp jref a2 a3 o' rs : so_version o2 = "2.0" -> clean url a2 -> split path2url abspath jref = Ok (url, jp) ->
    run (resolve_obj path2url abspath app_url three fetch upgrade prepare fuel) (upgrade300 path2url abspath app_url merge_fuel from20 o2 jref) a2 = (a3, Ok (o', rs)) ->
    exists o1, from20 o2 url jp [] = Ok (o1, rs) /\ so_version o1 = "3.0.0" /\ written o1 o'.
  Proof.
    intros V C S RR. apply upgrade300_returns in RR as (u & j & S' & H). rewrite S in S'. injection S' as <- <-.
    destruct H as [(_ & found & o1 & rs' & GU & FR & V1 & -> & W)|(V1 & _)]; [|congruence]. rewrite (clean_overrides _ _ _ _ C GU) in FR. eauto.
  Qed.
  Lemma open_20_30 jref url jp d a o' : (forall j d p, split path2url abspath j = Ok (url, p) -> fetch j = Ok (JDict d) -> ~ declares d (JStr "3.0.0")) ->
    fetch jref = Ok (JDict d) -> declares d (JStr "2.0") -> split path2url abspath jref = Ok (url, jp) ->
    opened "3.0.0" jref = (a, Ok o') -> exists o o1 rs, made_from fetch jref d "2.0" o /\ from20 o url jp [] = Ok (o1, rs) /\ so_version o1 = "3.0.0" /\ written o1 o'.
  Proof.
    intros NO F DE S O. destruct (open_last _ _ _ _ _ ["2.0"] _ _ (or_intror (conj eq_refl eq_refl)) NO F DE S O) as (o & o2 & a2 & a3 & rs & MF & A & C & RR).
    inversion A as [|? ? ? o1 ? rs1 ST1 A1]; subst. inversion A1; subst. destruct MF as (V & MF).
    assert (o2 = o) by (destruct (steps20 _ _ _ _ _ _ (or_intror eq_refl) ST1) as [(E & _)|[(_ & _ & ->)|(_ & E & _)]]; [discriminate E|reflexivity|rewrite V in E; discriminate E]). subst o2.
    destruct (last_converted _ _ _ _ _ _ _ _ V C S RR) as (o1 & FR & V1 & W). exists o, o1, rs. split; [split; assumption|auto].
  Qed.
  Lemma open_12_30 jref url jp d a o' : (forall j d p, split path2url abspath j = Ok (url, p) -> fetch j = Ok (JDict d) -> ~ declares d (JStr "3.0.0")) ->
    fetch jref = Ok (JDict d) -> declares d (JStr "1.2") -> split path2url abspath jref = Ok (url, jp) ->
    opened "3.0.0" jref = (a, Ok o') -> exists o mid o1 rs, made_from fetch jref d "1.2" o /\ from12 o = Ok mid /\ from20 mid url jp [] = Ok (o1, rs) /\ so_version o1 = "3.0.0" /\ written o1 o'.
  Proof.
    intros NO F DE S O. destruct (open_last _ _ _ _ _ ["1.2"; "2.0"] _ _ (or_introl (conj eq_refl eq_refl)) NO F DE S O) as (o & o2 & a2 & a3 & rs & MF & A & C & RR).
    inversion A as [|? ? ? o1 ? rs1 ST1 A1]; subst. inversion A1 as [|? ? ? o3 ? rs2 ST2 A2]; subst. inversion A2; subst. destruct MF as (V & MF).
    assert (o1 = o) by (destruct (steps20 _ _ _ _ _ _ (or_introl eq_refl) ST1) as [(_ & ->)|[(_ & _ & ->)|(E & _)]]; [reflexivity|reflexivity|discriminate E]). subst o1.
    destruct (steps20 _ _ _ _ _ _ (or_intror eq_refl) ST2) as [(E & _)|[(_ & E & _)|(_ & E & FR & V2)]]; [discriminate E|rewrite V in E; discriminate E|].
    destruct (last_converted _ _ _ _ _ _ _ _ V2 C S RR) as (o1 & FR2 & V1 & W). exists o, o2, o1, rs. split; [split; assumption|auto].
  Qed.
End Plain.
Section Real.
  Variables (path2url abspath : string -> string) (app_url : string) (fuel merge_fuel : nat) (fetch : string -> res json).
  Variables (sep : string) (deref : obj -> res obj) (nr : obj -> res json).
  Notation opened to jref := (open_document path2url abspath app_url three fetch (modules path2url abspath app_url merge_fuel (conversion12 sep) (conversion20 deref nr)) (fun o _ => Ok o) to fuel jref (fresh_app three)).
  Hypothesis DR : forall o x, wf_obj o -> deref o = Ok x -> wf_obj x.
  Hypothesis NR : forall o n, wf_obj o -> nr o = Ok n -> wf_json n.
  Lemma converted_document o url jp o1 rs o' p d : wf_json (JDict d) -> construct v20_table (JDict d) (BCls "Swagger") p [] = Ok (so_obj o) -> conversion20 deref nr o url jp [] = Ok (o1, rs) -> written o1 o' ->
    exists x, to_openapi deref nr (so_obj o) = Ok (x, None, rs) /\ so_version o' = "3.0.0" /\
      exists x', same_but_refs (JDict x) x' /\ construct v30_table x' (BCls "OpenApi") (Some jp) [] = Ok (so_obj o').
  Proof.
    intros WD C FR W. unfold conversion20 in FR. change (upgrade30_over deref nr (so_obj o) url jp []) with (upgrade30 deref nr (so_obj o) url jp) in FR.
    destruct (upgrade30 deref nr (so_obj o) url jp) as [[r rs']|] eqn:U; [|discriminate FR]. injection FR as <- <-.
    destruct (upgrade30_document _ _ _ _ _ _ _ _ _ C U) as (x & T & CX). exists x. split; [exact T|]. split; [destruct W as [u ->]; reflexivity|].
    pose proof (to_openapi_wf deref nr DR NR _ _ _ _ (construct_wf v20_table _ WD _ _ _ C) T) as WX. exact (written_document (JDict x) "OpenApi" (Some jp) (mk_sobj "3.0.0" r []) o' WX CX W).
  Qed.
  Theorem real_20_30 jref url jp d a o' : (forall j d p, split path2url abspath j = Ok (url, p) -> fetch j = Ok (JDict d) -> ~ declares d (JStr "3.0.0")) ->
    fetch jref = Ok (JDict d) -> wf_json (JDict d) -> declares d (JStr "2.0") -> split path2url abspath jref = Ok (url, jp) ->
    opened "3.0.0" jref = (a, Ok o') -> exists root x rs, construct v20_table (JDict d) (BCls "Swagger") (Some jref) [] = Ok root /\
      to_openapi deref nr root = Ok (x, None, rs) /\ so_version o' = "3.0.0" /\
      exists x', same_but_refs (JDict x) x' /\ construct v30_table x' (BCls "OpenApi") (Some jp) [] = Ok (so_obj o').
  Proof.
    intros NO F WF DE S O. destruct (open_20_30 _ _ _ _ _ _ _ _ _ _ _ _ _ _ NO F DE S O) as (o & o1 & rs & (V & C & _) & FR & _ & W).
    destruct (converted_document _ _ _ _ _ _ _ _ WF C FR W) as (x & T & V' & X). exists (so_obj o), x, rs. auto.
  Qed.
  Theorem real_12_20 jref url jp d a o' : fetch jref = Ok (JDict d) -> declares d (JStr "1.2") -> split path2url abspath jref = Ok (url, jp) ->
    opened "2.0" jref = (a, Ok o') -> exists l x, made_from fetch jref d "1.2" l /\
      upgrade12_spec sep (so_obj l) (so_apis l) = Ok x /\ construct v20_table (JDict x) (BCls "Swagger") (Some "#") [] = Ok (so_obj o') /\ so_version o' = "2.0".
  Proof.
    intros F DE S O. destruct (open_12_20 _ _ _ _ _ _ _ _ _ _ _ _ _ _ F DE S O) as (o & MF & FR).
    unfold conversion12 in FR. destruct (upgrade12 sep (so_obj o) (so_apis o)) as [r|] eqn:U; [|discriminate FR]. injection FR as <-.
    destruct (upgrade12_document _ _ _ _ U) as (x & T & CX). exists o, x. auto.
  Qed.
  Theorem real_12_30 jref url jp d a o' : (forall j d p, split path2url abspath j = Ok (url, p) -> fetch j = Ok (JDict d) -> ~ declares d (JStr "3.0.0")) ->
    (forall j x, fetch j = Ok x -> wf_json x) ->
    fetch jref = Ok (JDict d) -> declares d (JStr "1.2") -> split path2url abspath jref = Ok (url, jp) ->
    opened "3.0.0" jref = (a, Ok o') -> exists l y root x rs, made_from fetch jref d "1.2" l /\
      upgrade12_spec sep (so_obj l) (so_apis l) = Ok y /\ construct v20_table (JDict y) (BCls "Swagger") (Some "#") [] = Ok root /\
      to_openapi deref nr root = Ok (x, None, rs) /\ so_version o' = "3.0.0" /\
      exists x', same_but_refs (JDict x) x' /\ construct v30_table x' (BCls "OpenApi") (Some jp) [] = Ok (so_obj o').
  Proof.
    intros NO WF F DE S O. destruct (open_12_30 _ _ _ _ _ _ _ _ _ _ _ _ _ _ NO F DE S O) as (o & mid & o1 & rs & MF & FR & FR2 & _ & W).
    unfold conversion12 in FR. destruct (upgrade12 sep (so_obj o) (so_apis o)) as [r|] eqn:U; [|discriminate FR]. injection FR as <-.
    destruct (upgrade12_document _ _ _ _ U) as (y & T & CY).
    assert (WY : wf_json (JDict y)).
    { destruct MF as (_ & CL & names & _ & DC). refine (upgrade12_spec_wf sep (so_obj o) (so_apis o) _ _ y T).
      - exact (construct_wf _ _ (WF _ _ F) _ _ _ CL).
      - intros e I. revert I. clear -DC WF. induction DC as [|n a0 ns apis [_ (sp & pl & FS & CA)] DC IHD]; [intros []|]. intros [<-|I]; [exact (construct_wf _ _ (WF _ _ FS) _ _ _ CA)|exact (IHD I)]. }
    destruct (converted_document (mk_sobj "2.0" r []) _ _ _ _ _ _ _ WY CY FR2 W) as (x & T2 & V' & X). exists o, y, r, x, rs. split; [exact MF|]. auto.
  Qed.
End Real.
Lemma open_rereferenced path2url abspath app_url fuel merge_fuel fetch known from12 from20 prepare to jref url jp d v a o' :
  ascending known -> fetch jref = Ok (JDict d) -> declares d (JStr v) -> split path2url abspath jref = Ok (url, jp) ->
  open_document path2url abspath app_url known fetch (modules path2url abspath app_url merge_fuel from12 from20) prepare to fuel jref (fresh_app known) = (a, Ok o') ->
  exists o calls, made_from fetch jref d v o /\ steps_between known v to (map fst calls) /\
    handed_on (fun w x y => exists mid rs where_, stepped rereferenced from12 from20 url jp w x mid rs /\ prepare mid where_ = Ok y) o calls o' /\
    (calls <> [] -> exists jp', entry (a_store a) url jp' to = Some o') /\ (is_root o' = true -> a_current a = Some to).
Proof.
  intros A F DE S O. destruct (open_returns _ _ _ _ _ _ _ _ _ _ _ _ _ _ _ _ _ _ A F DE S O) as (o & calls & MF & ST & HO & R). exists o, calls. split; [exact MF|]. split; [exact ST|]. split; [|exact R].
  clear -HO. induction HO as [o|o o1 o2 w calls (mid & rs & wh & SP & PR) HO IH]; [constructor|]. econstructor; [|exact IH]. exists mid, rs, wh. split; [|exact PR].
  exact (stepped_weaken _ _ _ _ _ _ _ _ _ _ written_rereferenced SP).
Qed.
Lemma open_same30_document path2url abspath app_url fuel merge_fuel fetch from12 from20 jref url jp d a o :
  fetch jref = Ok (JDict d) -> wf_json (JDict d) -> declares d (JStr "3.0.0") -> split path2url abspath jref = Ok (url, jp) ->
  open_document path2url abspath app_url three fetch (modules path2url abspath app_url merge_fuel from12 from20) (fun o _ => Ok o) "3.0.0" fuel jref (fresh_app three) = (a, Ok o) ->
  so_version o = "3.0.0" /\ exists x, same_but_refs (JDict d) x /\ construct v30_table x (BCls "OpenApi") (Some jref) [] = Ok (so_obj o).
Proof.
  intros F W DE S O. destruct (open_same30 _ _ _ _ _ _ _ _ _ _ _ _ _ _ F DE S O) as (o0 & (V & C & _) & WR). split; [destruct WR as [u ->]; exact V|].
  exact (written_document (JDict d) "OpenApi" (Some jref) o0 o W C WR).
Qed.
