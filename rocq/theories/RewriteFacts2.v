(** What the rewritten references of a 3.0.0 object are. *)
From Coq Require Import String Ascii List Bool Arith Lia DecimalString.
From Verif Require Import PyStr PyVal PyValFacts Jp JpFacts UrlLib Urls Obj Classes_v3_0_0 SpecJson SpecObj SpecScan TablesFacts SpecTables DumpFacts ResolveFacts Scan ScanFacts ScanFacts2 ScanFacts3 TraverseFacts OverrideFacts
  PropertiesObjAux PropertiesScanAux Store SpecStore App SpecApp Main SpecRefs SpecOpen WfFacts RewriteFacts RefFacts OpenFacts AppFacts5.
Import ListNotations.
Open Scope string_scope. Open Scope nat_scope.

(** ** what is resolved lies in the document *)
Definition has_key (e : string * list target) : bool :=
  match lookup (fst e) (table_of "3.0.0") with
  | Some cd => forallb (fun t => match t with Self _ => true | One n _ | Items n _ | Values n _ => match attr_key cd n with Some _ => true | None => false end end) (snd e)
  | None => false
  end.
Lemma targets_keys : forallb has_key targets30 = true.
Proof. vm_compute. reflexivity. Qed.
Lemma target_key c ts t n : lookup c targets30 = Some ts -> In t ts -> (exists b, t = One n b \/ t = Items n b \/ t = Values n b) ->
  exists cd key, lookup c (table_of "3.0.0") = Some cd /\ attr_key cd n = Some key.
Proof.
  intros L I (b & E). assert (K := targets_keys). rewrite forallb_forall in K. apply TablesFacts.lookup_In in L. specialize (K _ L). unfold has_key in K. cbn [fst snd] in K.
  destruct (lookup c (table_of "3.0.0")) as [cd|]; [|discriminate K]. rewrite forallb_forall in K. specialize (K _ I). exists cd.
  destruct E as [->|[->| ->]]; destruct (attr_key cd n) as [key|]; try discriminate K; eauto.
Qed.
Lemma oattr_within c p s kids cd n key x : lookup c (table_of "3.0.0") = Some cd -> attr_key cd n = Some key -> oattr (table_of "3.0.0") (OObj c p s kids) n = Ok x ->
  (exists j, x = OPrim j) \/ within (OObj c p s kids) [key] x.
Proof.
  intros L K E. unfold oattr in E. rewrite L, (attr_key_get _ _ _ _ _ _ _ K) in E. injection E as <-.
  unfold kid_of. destruct (lookup key kids) as [e|] eqn:LK; [right|left; eauto]. eapply wi_child; [exact LK|constructor].
Qed.
Lemma pick_within c p s kids t os b x : wf_obj (OObj c p s kids) -> In t (targets_of "3.0.0" c) -> pick (table_of "3.0.0") (OObj c p s kids) t = Ok (os, b) -> In x os ->
  is_object x -> exists ks, within (OObj c p s kids) ks x.
Proof.
  intros W IT P IX OX. unfold targets_of in IT. cbn [String.eqb Ascii.eqb Bool.eqb] in IT. change (String.eqb "3.0.0" "2.0") with false in IT. cbv iota in IT.
  destruct (lookup c targets30) as [ts|] eqn:L; [|contradiction].
  destruct t as [b'|n b'|n b'|n b']; cbn [pick] in P.
  - injection P as <- <-. destruct IX as [<-|[]]. exists []. constructor.
  - destruct (oattr _ _ n) as [y|] eqn:E; [|discriminate P]. cbn [bind] in P. injection P as <- <-. destruct IX as [<-|[]].
    destruct (target_key c ts _ n L IT ltac:(eauto)) as (cd & key & LC & K). destruct (oattr_within _ _ _ _ _ _ _ _ LC K E) as [(j & ->)|WI]; [|eauto].
    destruct OX as (? & ? & ? & ? & [=]).
  - destruct (oattr _ _ n) as [y|] eqn:E; [|discriminate P]. cbn [bind] in P.
    destruct (target_key c ts _ n L IT ltac:(eauto)) as (cd & key & LC & K).
    destruct (truthy_obj y); [|injection P as <- <-; contradiction]. destruct y as [|cy py sy ky|bl pl es|bm pm es]; try discriminate P.
    + injection P as <- <-. destruct (oattr_within _ _ _ _ _ _ _ _ LC K E) as [(j & [=])|WI].
      apply In_nth_error in IX as (i & NI). exists [key; DecimalString.NilZero.string_of_uint (Nat.to_uint i)]. inversion WI as [|? ? ? ? ? e ? ? LK W'| |]; subst. inversion W'; subst. eapply wi_child; [exact LK|].
      eapply wi_index; [|exact NI|constructor]. reflexivity.
    + injection P as <- <-. contradiction.
  - destruct (oattr _ _ n) as [y|] eqn:E; [|discriminate P]. cbn [bind] in P.
    destruct (target_key c ts _ n L IT ltac:(eauto)) as (cd & key & LC & K).
    destruct (truthy_obj y); [|injection P as <- <-; contradiction]. destruct y as [|cy py sy ky|bl pl es|bm pm es]; try discriminate P.
    injection P as <- <-. destruct (oattr_within _ _ _ _ _ _ _ _ LC K E) as [(j & [=])|WI].
    inversion WI as [|? ? ? ? ? e ? ? LK W'| |]; subst. inversion W'; subst.
    apply in_map_iff in IX as ([k x'] & <- & IX). exists [key; k]. eapply wi_child; [exact LK|]. eapply wi_key; [|constructor]. cbn [snd].
    inversion W as [|? ? ? ? WS WK| |]; subst. specialize (WK _ _ (TablesFacts.lookup_In _ _ _ LK)). inversion WK as [| | |? ? ? ND WE]; subst.
    now apply in_lookup_keys.
Qed.
Lemma wf_within o ts x : within o ts x -> wf_obj o -> wf_obj x.
Proof.
  induction 1 as [o|c p s kids k o ts o' L W IH|b p es i s e ts o' IT NI W IH|b p es k e ts o' L W IH]; intros WO; [exact WO| | |].
  - inversion WO as [|? ? ? ? WS WK| |]; subst. apply IH. exact (WK _ _ (TablesFacts.lookup_In _ _ _ L)).
  - inversion WO as [| |? ? ? WK|]; subst. apply IH. exact (WK _ (nth_error_In _ _ NI)).
  - inversion WO as [| | |? ? ? ND WK]; subst. apply IH. exact (WK _ _ (TablesFacts.lookup_In _ _ _ L)).
Qed.
Lemma mapM_concat {A B} (f : A -> res (list B)) l ls y : mapM f l = Ok ls -> In y (concat ls) -> exists x lx, In x l /\ f x = Ok lx /\ In y lx.
Proof.
  revert ls. induction l as [|x l IH]; intros ls M I; cbn [mapM] in M; [injection M as <-; contradiction|].
  destruct (f x) as [lx|] eqn:F; [|discriminate M]. cbn [bind] in M. destruct (mapM f l) as [ls'|]; [|discriminate M]. cbn [bind] in M. injection M as <-. cbn [concat] in I.
  apply in_app_or in I as [I|I]; [exists x, lx; split; [now left|auto]|]. destruct (IH ls' eq_refl I) as (x' & lx' & A1 & A2). exists x', lx'. split; [now right|exact A2].
Qed.
Lemma task_within j c p root r l b x : wf_json j -> construct (table_of "3.0.0") j (BCls c) p [] = Ok root -> unmixed root ->
  default_tree_traversal (table_of "3.0.0") (osize root) root [] = Ok r -> all_tasks "3.0.0" (map snd r) = Ok l -> In (b, x) l -> is_object x -> exists ts, within root ts x.
Proof.
  intros WJ C U H AT I OX. set (T := table_of "3.0.0") in *. assert (Rt : repo_table T) by constructor.
  assert (Ho := built_object _ _ _ _ _ C). assert (WR := construct_wf T j WJ _ _ _ C).
  assert (Ht := construct_tidy T (repo_wd T Rt) (repo_plain_names T Rt) (odepth root) j _ _ root (le_n _) WJ C U).
  destruct (traversal_tidy T [] root Ht Ho) as (V & n & HV & NV & SV & (V' & EV)).
  assert (Er : r = map (fun e => (extend "#" (map key (fst e)), snd e)) V).
  { assert (X := traversal_enough _ _ _ _ _ H (Nat.max n (osize root)) (Nat.le_max_r _ _)). rewrite (HV _ (Nat.le_max_l _ _)) in X. congruence. }
  unfold all_tasks in AT. destruct (mapM (tasks "3.0.0") (map snd r)) as [ls|] eqn:M; [|discriminate AT]. cbn [rmap] in AT. injection AT as <-.
  destruct (mapM_concat _ _ _ _ M I) as (o & lo & IO & TO & IX). clear M I.
  subst r. rewrite map_map in IO. cbn [snd] in IO. apply in_map_iff in IO as ([cs o'] & EO & IV). cbn [snd] in EO. subst o'. apply SV in IV.
  destruct (steps_visible T [] root cs o IV Ht Ho) as (W & (co & po & so & ko & ->) & _).
  unfold tasks in TO. destruct (mapM _ (targets_of "3.0.0" co)) as [ls'|] eqn:M; [|discriminate TO]. cbn [rmap] in TO. injection TO as <-.
  destruct (mapM_concat _ _ _ _ M IX) as (t & lt & IT & PT & IY). destruct (pick _ _ t) as [[os b']|] eqn:P; [|discriminate PT]. cbn [rmap fst snd] in PT. injection PT as <-.
  apply in_map_iff in IY as (y & EY & IY). injection EY as -> ->.
  destruct (pick_within _ _ _ _ t os b x (wf_within _ _ _ W WR) IT P IY OX) as (ks & WK). exists (concat cs ++ ks)%list. eapply within_app; eauto.
Qed.

Lemma merged_same ask path2url abspath app_url fuel url o jp reloc os a a' r : 
  run ask (Cache o url jp "3.0.0" (fold_right (merge_obj path2url abspath app_url fuel "3.0.0" url) (Done (Ok (o, reloc))) os)) a = (a', Ok r) -> r = (o, reloc).
Proof.
  intros H. refine (R_cache ask (fun r => r = (o, reloc)) o url jp "3.0.0" _ _ a a' r H).
  apply R_fold; [intros y k; apply R_merge|]. now apply R_done.
Qed.
Lemma lookup_first {A} q (x : A) u : In (q, x) u -> exists x', lookup q u = Some x' /\ In (q, x') u.
Proof.
  intros I. destruct (lookup q u) as [x'|] eqn:L; [exists x'; split; [reflexivity|now apply TablesFacts.lookup_In]|].
  exfalso. apply PyValFacts.lookup_none in L. apply L. apply in_map_iff. exists (q, x). auto.
Qed.
Lemma rewritten_finish ask path2url abspath app_url fuel o reloc a a' r j c base url jp ts cx px d kids ref :
  wf_json j -> construct v30_table j (BCls c) (Some base) [] = Ok (so_obj o) -> base <> "" -> unmixed (so_obj o) -> c <> "Reference" ->
  run ask (finish30 path2url abspath app_url fuel url jp o reloc) a = (a', Ok r) ->
  within (so_obj o) ts (OObj cx px (JDict d) kids) -> In cx ["PathItem"; "Reference"] -> lookup "$ref" d = Some (JStr ref) -> ref <> "" ->
  exists n b a0 y new ref' d' kids', normalize_jr (Some ref) (Some url) = Ok (Some n) /\
    In (a0, mk_query n (if String.eqb (a_original a0) "3.0.0" then "3.0.0" else "2.0") (Some ("3.0.0", b)) (Some "3.0.0") true, (y, new))
       (requests ask (finish30 path2url abspath app_url fuel url jp o reloc) a) /\
    written_for path2url abspath ref new ref' /\
    within (so_obj (fst r)) ts (OObj cx px (JDict d') kids') /\ lookup "$ref" d' = Some (JStr ref') /\
    (forall k, k <> "$ref" -> lookup k kids = None -> lookup k d' = lookup k d).
Proof.
  intros WJ C NB U NC R W I L NE. destruct (run_finish30 _ _ _ _ _ _ _ _ _ _ _ _ R) as (vis & l & new & pre & rest & a1 & TR & AT & RS & RQ & _ & RM).
  apply merged_same in RM. subst r. cbn [fst].
  assert (I' : In cx (normalized_classes "3.0.0")) by (cbn; cbn in I; destruct I as [<-|[<-|[]]]; auto).
  destruct (document_task "3.0.0" j c (Some base) _ vis l ts cx px d kids ref (or_intror eq_refl) WJ C U NC TR AT W I' L NE) as (b & EX & IL).
  assert (WD : well_declared v30_table) by (apply repo_wd; constructor).
  assert (NP : forall c p s k, ~ primitive (OObj c p s k)) by (intros ? ? ? ? (? & [=])).
  destruct (within_resolve v30_table ts WD j (BCls c) (Some base) _ _ C W (NP _ _ _ _)) as (GP & _ & j' & b' & _ & CX).
  assert (TYX := typed_obj _ _ _ _ _ _ (construct_typed v30_table _ _ _ _ _ (le_n _) CX)). clear CX.
  rewrite path_after_base in GP by exact NB. cbn [get_path] in GP. subst px.
  set (q := jp_join ts (Some base)) in *.
  destruct (resolved_in path2url abspath "3.0.0" url (or_intror eq_refl) l new pre b _ ref RS IL) as (n0 & a00 & y0 & w0 & _ & _ & _ & UP); [exists cx, (Some q), d, kids; auto|].
  destruct (UP eq_refl) as (r0 & _ & IN). specialize (IN q eq_refl). destruct (lookup_first _ _ _ IN) as (ref' & LU & IU). clear UP IN.
  destruct (resolved_updates path2url abspath "3.0.0" url l new pre q ref' RS IU) as (b1 & c1 & s1 & k1 & old & n & a0 & y & w & IL1 & IC1 & OA & NJ & IP & TY & NR).
  destruct (task_within j c (Some base) _ vis l b1 _ WJ C U TR AT IL1) as (ts' & W'); [do 4 eexists; reflexivity|].
  destruct (within_resolve v30_table ts' WD j (BCls c) (Some base) _ _ C W' (NP _ _ _ _)) as (GP & _). rewrite path_after_base in GP by exact NB. cbn [get_path] in GP.
  injection GP as GP. apply jp_join_inj_base in GP; [|exact NB]. subst ts'. assert (EQ := within_fun _ _ _ _ W W'). injection EQ as <- <- <-.
  rewrite (ref_attr "3.0.0" cx (Some q) d kids ref (or_intror eq_refl) I' L) in OA. injection OA as <-.
  assert (W2 := rewrite_within new _ _ _ W). cbn [rewrite_refs] in W2. rewrite graft_kids_entries, own_ref_dict in W2.
  set (kids' := (fix go l := match l with [] => [] | (k, x) :: l' => (k, rewrite_refs new x) :: go l' end) kids) in *.
  exists n, b1, a0, y, w, ref'. do 2 eexists. split; [exact NJ|]. split; [rewrite RQ; apply in_or_app; left; exact IP|].
  split; [|split; [exact W2|]].
  - unfold written_for. unfold new_ref in NR. destruct (startswith "#" ref); [|congruence]. destruct (split path2url abspath w) as [[u1 j1]|]; [|discriminate NR].
    cbn in NR. injection NR as ->. eauto.
  - assert (LK : forall k, lookup k kids' = option_map (rewrite_refs new) (lookup k kids)).
    { intros k. unfold kids'. clear. induction kids as [|[k' x] l IH]; [reflexivity|]. cbn [lookup]. destruct (String.eqb k k'); [reflexivity|exact IH]. }
    assert (NK : lookup "$ref" kids = None).
    { destruct (lookup "$ref" kids) as [x|] eqn:LX; [|reflexivity]. exfalso.
      apply TablesFacts.lookup_In in LX. clear -TYX LX I.
      assert (E : exists cd, lookup cx v30_table = Some cd /\ forall ch, In ch (c_children cd) -> ch_name ch <> "$ref").
      { cbn in I. destruct I as [<-|[<-|[]]]; eexists; (split; [vm_compute; reflexivity|]); intros ch IC; cbn in IC;
        repeat (destruct IC as [<-|IC]; [discriminate|]); contradiction. }
      destruct E as (cd & LC & NC). inversion TYX as [|? cd' ? ? ? LC' K| | | | |]; subst. rewrite LC in LC'. injection LC' as <-.
      destruct (K _ _ LX) as (ch & IC & EC & _). exact (NC ch IC EC). }
    split.
    + unfold own_update. rewrite LU, lookup_graft, L. cbn [option_map]. rewrite LK, NK. cbn [option_map opt_graft]. apply lookup_dict_set_eq.
    + intros k NK' LN. rewrite own_update_other by exact NK'. rewrite lookup_graft, LK, LN. cbn [option_map opt_graft]. now destruct (lookup k d).
Qed.

Theorem rewritten_30 ask path2url abspath app_url fuel from20 o jref a a' r j c base url jp ts cx px d kids ref :
  so_version o = "3.0.0" -> wf_json j -> construct v30_table j (BCls c) (Some base) [] = Ok (so_obj o) -> base <> "" -> unmixed (so_obj o) -> c <> "Reference" ->
  split path2url abspath jref = Ok (url, jp) ->
  run ask (upgrade300 path2url abspath app_url fuel from20 o jref) a = (a', Ok r) ->
  within (so_obj o) ts (OObj cx px (JDict d) kids) -> In cx ["PathItem"; "Reference"] -> lookup "$ref" d = Some (JStr ref) -> ref <> "" ->
  exists n b a0 y new ref' d' kids', normalize_jr (Some ref) (Some url) = Ok (Some n) /\
    In (a0, mk_query n (if String.eqb (a_original a0) "3.0.0" then "3.0.0" else "2.0") (Some ("3.0.0", b)) (Some "3.0.0") true, (y, new))
       (requests ask (upgrade300 path2url abspath app_url fuel from20 o jref) a) /\
    written_for path2url abspath ref new ref' /\
    within (so_obj (fst r)) ts (OObj cx px (JDict d') kids') /\ lookup "$ref" d' = Some (JStr ref') /\
    (forall k, k <> "$ref" -> lookup k kids = None -> lookup k d' = lookup k d).
Proof.
  intros EV WJ C NB U NC SP R. unfold upgrade300 in R |- *. rewrite SP, EV in R |- *. change (String.eqb "3.0.0" "2.0") with false in R |- *. cbv iota in R |- *.
  exact (rewritten_finish ask path2url abspath app_url fuel o [] a a' r j c base url jp ts cx px d kids ref WJ C NB U NC R).
Qed.
Theorem rewritten_converted ask path2url abspath app_url fuel from20 o o' reloc found jref a a' r j c base url jp ts cx px d kids ref :
  so_version o = "2.0" -> snd (store_get_under (a_store a) url jp "3.0.0" false) = Ok found -> from20 o url jp (overrides found) = Ok (o', reloc) ->
  wf_json j -> construct v30_table j (BCls c) (Some base) [] = Ok (so_obj o') -> base <> "" -> unmixed (so_obj o') -> c <> "Reference" ->
  split path2url abspath jref = Ok (url, jp) ->
  run ask (upgrade300 path2url abspath app_url fuel from20 o jref) a = (a', Ok r) ->
  within (so_obj o') ts (OObj cx px (JDict d) kids) -> In cx ["PathItem"; "Reference"] -> lookup "$ref" d = Some (JStr ref) -> ref <> "" ->
  exists n b a0 y new ref' d' kids', normalize_jr (Some ref) (Some url) = Ok (Some n) /\
    In (a0, mk_query n (if String.eqb (a_original a0) "3.0.0" then "3.0.0" else "2.0") (Some ("3.0.0", b)) (Some "3.0.0") true, (y, new))
       (requests ask (upgrade300 path2url abspath app_url fuel from20 o jref) a) /\
    written_for path2url abspath ref new ref' /\
    within (so_obj (fst r)) ts (OObj cx px (JDict d') kids') /\ lookup "$ref" d' = Some (JStr ref') /\
    (forall k, k <> "$ref" -> lookup k kids = None -> lookup k d' = lookup k d).
Proof.
  intros EV UN F WJ C NB U NC SP R. unfold upgrade300 in R |- *. rewrite SP, EV in R |- *. rewrite String.eqb_refl in R |- *. cbn [run requests] in R |- *. unfold bindm, get_under in R. unfold get_under.
  destruct (store_get_under (a_store a) url jp "3.0.0" false) as [s x] eqn:SU. cbn [snd] in UN. subst x. rewrite F in R |- *.
  exact (rewritten_finish ask path2url abspath app_url fuel o' reloc _ a' r j c base url jp ts cx px d kids ref WJ C NB U NC R).
Qed.

(** ** where an answer of [resolve_obj] is *)
Section Location.
  Variables (path2url abspath : string -> string) (app_url : string) (versions : list string) (fetch : string -> res json)
    (upgrade : string -> option (sobj -> string -> prog (sobj * routes))) (prepare : sobj -> string -> res sobj).
  Theorem answer_location fuel q a a' y w :
    resolve_obj path2url abspath app_url versions fetch upgrade prepare fuel q a = (a', Ok (y, w)) -> so_base y = true ->
    exists url0 jp jp', split path2url abspath (q_jref q) = Ok (url0, jp) /\ w = ((if truthy_str url0 then url0 else app_url) ++ jp')%string /\
      ((q_from q = target_version q /\ jp' = jp) \/ store_relocate (a_store a') (if truthy_str url0 then url0 else app_url) jp (q_from q) (Some (target_version q)) = Ok jp').
  Proof.
    destruct fuel as [|f]; [discriminate|]. cbn [resolve_obj]. fold (target_version q). destruct (negb (truthy_str (q_jref q))); [discriminate|]. cbv zeta.
    unfold bindm at 1, lift at 1. destruct (split path2url abspath (q_jref q)) as [[url0 jp]|] eqn:SP; [|discriminate].
    set (url := if truthy_str url0 then url0 else app_url). intros H BY.
    unfold bindm at 1 in H.
    assert (J : exists jr, (if String.eqb (q_from q) (target_version q) then ret jp else relocate url jp (q_from q) (target_version q)) a = (a, jr) /\
                (forall jp1, jr = Ok jp1 -> (q_from q = target_version q /\ jp1 = jp) \/ store_relocate (a_store a) url jp (q_from q) (Some (target_version q)) = Ok jp1)).
    { destruct (String.eqb_spec (q_from q) (target_version q)) as [E|E]; [exists (Ok jp); split; [reflexivity|]; intros jp1 [= <-]; left; auto|].
      unfold relocate. eexists. split; [reflexivity|]. intros jp1 E1. now right. }
    destruct J as (jr & J & JR). rewrite J in H. destruct jr as [jp1|]; [|discriminate H]. specialize (JR jp1 eq_refl).
    unfold bindm at 1, get_obj at 1 in H. destruct (store_get so_resolve (a_store a) url jp1 (target_version q)) as [cached|]; [|discriminate H].
    assert (AN : forall o u j x, answer o u j = Ok (x, w) -> so_base x = true -> x = o /\ w = (u ++ j)%string).
    { intros o u j x E BX. unfold answer in E. unfold so_base in BX. destruct (so_obj o) as [[]| | |] eqn:EO; try discriminate E; injection E as <- <-; rewrite ?EO in BX; try discriminate BX; auto. }
    exists url0, jp. destruct (not_none cached) as [o|].
    - unfold lift in H. injection H as <- E. apply AN in E; [|exact BY]. destruct E as [-> ->]. exists jp1. auto.
    - unfold bindm at 1 in H. destruct ((match cached with Some _ => emit (ENull url jp1) | None => ret tt end) a) as [a1 [u|]]; [|discriminate H].
      unfold bindm at 1 in H. destruct (get_until url jp (q_from q) (target_version q) a1) as [a2 [until|]]; [|discriminate H].
      unfold bindm at 1 in H. match type of H with (let (_, _) := ?m in _) = _ => destruct m as [a3 [[o jref']|]] end; [|discriminate H].
      unfold bindm at 1 in H. match type of H with (let (_, _) := ?m in _) = _ => destruct m as [a4 [o1|]] end; [|discriminate H].
      unfold bindm at 1 in H. match type of H with (let (_, _) := ?m in _) = _ => destruct m as [a5 [o2|]] end; [|discriminate H].
      unfold bindm at 1, relocate at 1 in H. destruct (store_relocate (a_store a5) url jp (q_from q) (Some (target_version q))) as [jp2|] eqn:RL; [|discriminate H].
      unfold lift in H. injection H as <- E. apply AN in E; [|exact BY]. destruct E as [-> ->]. exists jp2. auto.
  Qed.
End Location.
