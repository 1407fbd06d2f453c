(** Conversion of Swagger 1.2 objects: host and paths; the whole conversion. *)
From Coq Require Import String Ascii List Bool Arith ZArith Lia.
From Verif Require Import PyStr PyStrFacts PyVal PyValFacts Jp JpFacts Scope SpecUrl UrlLib UrlFacts Obj SpecObj SpecJson ObjFacts TablesFacts SpecTables Classes_v1_2 Classes_v2_0 Scan ScanFacts ScanFacts2 TraverseFacts PropertiesObjAux Up12 SpecUp12 Up12Facts NumeralFacts Up12Facts2 Up12Facts3 Up12Facts4 Up12Facts5 Up12Facts6 Up12Facts7.
Import ListNotations.
Open Scope string_scope. Open Scope nat_scope.

(** ** the common prefix *)
Lemma is_prefix_refl a : is_prefix a a. Proof. exists "". now rewrite sapp_nil_r. Qed.
Lemma is_prefix_trans a b c : is_prefix a b -> is_prefix b c -> is_prefix a c.
Proof. intros [r ->] [q ->]. exists (r ++ q). now rewrite sapp_assoc. Qed.
Lemma is_prefix_cons x a b : is_prefix (String x a) (String x b) <-> is_prefix a b.
Proof. split; intros [r E]; exists r; cbn [append] in *; congruence. Qed.
Lemma common2_prefix a : forall b c, is_prefix c (common2 a b) <-> (is_prefix c a /\ is_prefix c b).
Proof.
  induction a as [|x a IH]; intros b c.
  - cbn. split; [intros H; split; [exact H|]|now intros [H _]]. destruct H as [r E]. destruct c; [exists b; reflexivity|discriminate].
  - destruct b as [|y b]; cbn [common2].
    + split; [intros H; split; [|exact H]|now intros [_ H]]. destruct H as [r E]. destruct c; [exists (String x a); reflexivity|discriminate].
    + destruct (ascii_dec x y) as [->|N].
      * rewrite ascii_eqb_refl. destruct c as [|z c].
        -- split; [intros _; split; eexists; reflexivity|intros _; eexists; reflexivity].
        -- split.
           ++ intros [r E]. injection E as -> E. assert (H : is_prefix c (common2 a b)) by (exists r; exact E). apply IH in H as [H1 H2]. now split; apply is_prefix_cons.
           ++ intros [[r1 E1] [r2 E2]]. injection E1 as -> E1. injection E2 as E2. apply is_prefix_cons, IH. split; [exists r1|exists r2]; assumption.
      * assert (E : Ascii.eqb x y = false) by now apply Ascii.eqb_neq. rewrite E. split.
        -- intros [r Er]. destruct c; [|discriminate]. split; eexists; reflexivity.
        -- intros [[r1 E1] [r2 E2]]. destruct c as [|z c]; [exists ""; reflexivity|]. cbn in E1, E2. congruence.
Qed.
Lemma fold_common l : forall x c, is_prefix c (fold_left common2 l x) <-> (is_prefix c x /\ forall y, In y l -> is_prefix c y).
Proof.
  induction l as [|z l IH]; intros x c; cbn [fold_left].
  - split; [intros H; split; [exact H|intros ? []]|now intros [H _]].
  - rewrite IH, common2_prefix. split.
    + intros [[A B] C]. split; [exact A|]. intros y [<-|I]; auto.
    + intros [A C]. split; [split; [exact A|apply C; now left]|]. intros y I. apply C. now right.
Qed.
Lemma commonprefix_spec l : l <> [] -> common_prefix l (commonprefix l).
Proof.
  destruct l as [|x l]; [congruence|]. intros _. cbn [commonprefix]. split.
  - intros p I. destruct (proj1 (fold_common l x _) (is_prefix_refl _)) as [A B]. destruct I as [<-|I]; auto.
  - intros c' H. apply fold_common. split; [apply H; now left|]. intros y I. apply H. now right.
Qed.
Lemma prefix_antisym a b : is_prefix a b -> is_prefix b a -> a = b.
Proof.
  intros [r E] [q F]. subst b. assert (L : String.length a = String.length a + String.length r + String.length q) by (rewrite F at 1; now rewrite !slength_app).
  destruct r; [now rewrite sapp_nil_r|cbn in L; lia].
Qed.
Lemma common_prefix_unique l m c c' : (forall x, In x l <-> In x m) -> common_prefix l c -> common_prefix m c' -> c = c'.
Proof. intros E [A B] [A' B']. apply prefix_antisym; [apply B'; intros p I; apply A; now apply E|apply B; intros p I; apply A'; now apply E]. Qed.
Lemma drop_slash_ok c c' : trimmed c c' -> drop_slash c = Ok c'.
Proof.
  intros [N [->|[-> H]]].
  - unfold drop_slash. destruct (c' ++ "/") eqn:E; [destruct c'; discriminate|]. rewrite <- E. f_equal. assert (X : endswith "/" (c' ++ "/") = true) by (apply endswith_spec; eexists; reflexivity).
    rewrite X, slength_app. cbn [String.length]. replace (String.length c' + 1 - 1) with (String.length c') by lia. apply stake_app_length.
  - unfold drop_slash. destruct c'; [congruence|]. f_equal. destruct (endswith "/" (String a c')) eqn:E; [|reflexivity]. apply endswith_spec in E as [x E]. exfalso. exact (H _ E).
Qed.
Lemma trimmed_exists c : c <> "" -> exists c', trimmed c c'.
Proof.
  intros N. destruct (endswith "/" c) eqn:E.
  - apply endswith_spec in E as [x E]. exists x. split; [exact N|]. now left.
  - exists c. split; [exact N|]. right. split; [reflexivity|]. intros x H. assert (X : endswith "/" c = true) by (apply endswith_spec; eauto). congruence.
Qed.
Lemma trimmed_prefix c c' : trimmed c c' -> is_prefix c' c.
Proof. intros [_ [->|[-> _]]]; [eexists; reflexivity|apply is_prefix_refl]. Qed.
(** ** the host *)
Lemma urlunparse_site scheme host : urlunparse (mk_purl scheme host "" "" "" "") =
  if truthy_str host || (truthy_str scheme && str_in scheme uses_netloc) then (if truthy_str scheme then scheme ++ ":" ++ "//" ++ host else "//" ++ host) else (if truthy_str scheme then scheme ++ ":" else "").
Proof.
  unfold urlunparse, urlunsplit. cbn [u_params u_path u_scheme u_netloc u_query u_fragment truthy_str]. change (startswith "//" "") with false. cbn [negb andb].
  rewrite !andb_true_r, sapp_nil_r. destruct (truthy_str host || (truthy_str scheme && str_in scheme uses_netloc)), (truthy_str scheme); reflexivity.
Qed.
Lemma purl_site url : exists s n r p pa q f, split_scheme url = (s, r) /\ fst (split_netloc r) = n /\ urlparse url = mk_purl s n p pa q f.
Proof.
  unfold urlparse. destruct (split_scheme url) as [s r]. destruct (split_netloc r) as [n r2] eqn:En. destruct (split_at "#" r2) as [r3 f]. destruct (split_at "?" r3) as [r4 q]. destruct (split_params s r4) as [p pa].
  exists s, n, r, p, pa, q, f. rewrite En. auto.
Qed.
Lemma site_prefix_ok c host pre : c <> "" -> site_prefix c host pre -> is_prefix pre c /\
  u_netloc (urlparse c) = host /\ urlunparse (mk_purl (u_scheme (urlparse c)) (u_netloc (urlparse c)) "" "" "" "") = pre.
Proof.
  intros Nc H. destruct H as [scheme host rest Ns Fs Nh Fh Hr|rest Hr].
  - split; [exists rest; now rewrite !sapp_assoc|]. destruct (purl_site (scheme ++ "://" ++ host ++ rest)) as (s & n & r & p & pa & q & f & E1 & E2 & E3). rewrite E3. cbn [u_netloc u_scheme].
    change (scheme ++ "://" ++ host ++ rest) with (scheme ++ ":" ++ "//" ++ (host ++ rest)) in E1. rewrite split_scheme_abs in E1 by assumption. assert (Er := f_equal snd E1). assert (Es := f_equal fst E1). cbn [fst snd] in Er, Es. subst r s. clear E1.
    unfold split_netloc in E2. change (startswith "//" ("//" ++ host ++ rest)) with true in E2. cbv iota in E2. change (sdrop 2 ("//" ++ host ++ rest)) with (host ++ rest) in E2.
    rewrite span_netloc_host in E2; [|exact Fh|].
    2:{ destruct Hr as [->|[[x ->]|[[x ->]|[x ->]]]]; [left; reflexivity|right; eexists; eexists; split; [reflexivity|reflexivity]..]. }
    cbn [fst] in E2. subst n. split; [reflexivity|]. rewrite urlunparse_site. rewrite (proj2 (truthy_str_true _) Nh), (proj2 (truthy_str_true _) Ns). reflexivity.
  - split; [eexists; reflexivity|]. destruct Hr as [->|(x & -> & Hx)]; [congruence|]. destruct (purl_site (String "/" x)) as (s & n & r & p & pa & q & f & E1 & E2 & E3). rewrite E3. cbn [u_netloc u_scheme].
    assert (E : split_scheme (String "/" x) = ("", String "/" x)).
    { unfold split_scheme. destruct (find_char ":" (String "/" x)) as [[|i]|] eqn:F; reflexivity. }
    rewrite E in E1. injection E1 as <- <-. unfold split_netloc in E2.
    assert (F : startswith "//" (String "/" x) = false). { destruct (startswith "//" (String "/" x)) eqn:F; [|reflexivity]. apply startswith_spec in F as [y F]. injection F as F. exfalso. exact (Hx _ F). }
    rewrite F in E2. cbn [fst] in E2. subst n. split; reflexivity.
Qed.
(** ** stripping *)
Lemma sdrop_prefix pre r : sdrop (String.length pre) (pre ++ r) = r.
Proof. apply sdrop_app_length. Qed.
Lemma lookup_none_keys {A} k (d : list (string * A)) : lookup k d = None <-> ~ In k (keys d).
Proof.
  induction d as [|[k' v] d IH]; cbn [lookup]; [split; [intros _ []|reflexivity]|]. unfold keys in *. cbn [map fst In]. destruct (String.eqb_spec k k') as [->|N].
  - split; [discriminate|]. intros H. exfalso. apply H. now left.
  - rewrite IH. split; [intros H [E|I]; [congruence|contradiction]|intros H I; apply H; now right].
Qed.
Lemma fold_strip {A} pre (t : list (string * A)) : NoDup (keys t) -> (forall k, In k (keys t) -> is_prefix pre k) -> forall r,
  lookup r (fold_left (fun acc kv => dict_set (sdrop (String.length pre) (fst kv)) (snd kv) acc) t []) = lookup (pre ++ r) t.
Proof.
  intros N P r. destruct (lookup (pre ++ r) t) as [v|] eqn:E.
  - apply lookup_in_local in E. pose proof (fold_set_lookup (fun kv : string * A => sdrop (String.length pre) (fst kv)) (fun kv => snd kv) t) as L.
    assert (ND : NoDup (map (fun kv : string * A => sdrop (String.length pre) (fst kv)) t)).
    { rewrite <- (map_map fst (sdrop (String.length pre))). revert N P. unfold keys. generalize (map fst t). clear. intros l. induction l as [|x l IH]; intros N P; cbn [map]; constructor.
      - inversion_clear N as [|? ? N1 N2]. intros I. apply in_map_iff in I as (y & E & I). apply N1. destruct (P x (or_introl eq_refl)) as [a ->]. destruct (P y (or_intror I)) as [b ->].
        rewrite !sdrop_prefix in E. now subst.
      - inversion_clear N as [|? ? N1 N2]. apply IH; [exact N2|]. intros k I. apply P. now right. }
    specialize (L ND [] (pre ++ r, v) E). cbn [fst snd] in L. now rewrite sdrop_prefix in L.
  - destruct (lookup r _) as [v|] eqn:F; [|reflexivity]. exfalso. apply lookup_in_local in F. apply fold_set_in2 in F as [[]|([k v'] & I & -> & ->)]. cbn [fst snd] in *.
    assert (K : In k (keys t)) by (apply in_map_iff; exists (k, v'); auto). destruct (P k K) as [a ->]. rewrite sdrop_prefix in E. apply lookup_none_keys in E. contradiction.
Qed.
Lemma strip_host_ok t c c' host pre : NoDup (keys t) -> common_prefix (keys t) c -> trimmed c c' -> site_prefix c' host pre ->
  (forall k, In k (keys t) -> is_prefix pre k) /\
  exists t', strip_host t = Ok (host, t') /\ NoDup (keys t') /\ forall r, lookup r t' = lookup (pre ++ r) t.
Proof.
  intros N C Tr Sp. assert (E : keys t <> []). { intros E. rewrite E in C. destruct C as [_ C]. destruct (C (c ++ "x")) as [r Er]; [intros ? []|]. apply (f_equal String.length) in Er. rewrite !slength_app in Er. cbn in Er. lia. }
  assert (Ec : commonprefix (keys t) = c) by (eapply common_prefix_unique; [|apply commonprefix_spec; exact E|exact C]; reflexivity).
  unfold strip_host. rewrite Ec, (drop_slash_ok _ _ Tr). cbn [bind].
  assert (Pc : forall k, In k (keys t) -> is_prefix c' k) by (intros k I; eapply is_prefix_trans; [apply (trimmed_prefix _ _ Tr)|now apply C]).
  destruct (String.eqb_spec c' "") as [->|Nc].
  - assert (X : host = "" /\ pre = ""). { inversion Sp as [scheme h rest A B D F G E1|]; [|auto]. destruct scheme; [congruence|discriminate]. }
    destruct X as [-> ->]. split; [intros k _; exists k; reflexivity|]. exists t. cbn [truthy_str]. split; [reflexivity|]. split; [exact N|]. reflexivity.
  - destruct (site_prefix_ok _ _ _ Nc Sp) as (Pp & Eh & Eu). assert (P : forall k, In k (keys t) -> is_prefix pre k) by (intros k I; eapply is_prefix_trans; [exact Pp|now apply Pc]).
    split; [exact P|]. rewrite (proj2 (truthy_str_true _) Nc). rewrite Eh in *. rewrite Eu. eexists. split; [reflexivity|]. split; [apply fold_set_nodup; constructor|]. now apply fold_strip.
Qed.
Lemma strip_host_none t : (keys t = [] \/ common_prefix (keys t) "") -> strip_host t = Err IndexError.
Proof.
  intros H. assert (E : commonprefix (keys t) = "").
  { destruct (keys t) as [|x l] eqn:E; [reflexivity|]. destruct H as [H|H]; [discriminate|]. eapply common_prefix_unique; [|apply commonprefix_spec; discriminate|exact H]. reflexivity. }
  unfold strip_host. rewrite E. reflexivity.
Qed.

(** ** the whole conversion *)
Definition names_of (ds : list (string * json)) : list string := map (fun d => resource (snd d)) ds.
Lemma declarations_ok sep ds apis : Forall2 (fun d a => fst d = fst a /\ made "ApiDeclaration" (snd d) (snd a)) ds apis -> forall s st,
  foldM (fun st (a : string * obj) => scan12 sep (snd a) st) apis (Some s) = Ok st ->
  exists specs props s', st = Some s' /\ Forall2 (operation_image sep) (all_sites ds) specs /\ Forall2 (props_image sep) (all_models ds) props /\
    s' = mk_sw (s_info s) (fold_left (fun t n => add_tag n t) (names_of ds) (s_tags s)) (fold_left (model_step sep) (combine (all_models ds) props) (s_defs s))
               (fold_left put_site (combine (all_sites ds) specs) (s_paths s)) (s_secs s).
Proof.
  induction 1 as [|[u dj] [u' a] ds apis [_ M] F IH]; intros s st H; cbn [foldM] in H.
  - apply Ok_inj in H. subst st. exists [], [], s. split; [reflexivity|]. split; [constructor|]. split; [constructor|]. destruct s; reflexivity.
  - apply bind_ok in H as (st1 & H1 & H). cbn [fst snd] in *. rewrite (scan_declaration _ _ _ _ M) in H1. apply bind_ok in H1 as (s1 & H1 & E). apply Ok_inj in E. subst st1.
    destruct (declaration_ok _ _ _ _ _ M H1) as (specs & props & Hs & Hp & ->). destruct (IH _ _ H) as (specs' & props' & s' & -> & Hs' & Hp' & ->). cbn [s_info s_tags s_defs s_paths s_secs].
    exists (specs ++ specs')%list, (props ++ props')%list. eexists. split; [reflexivity|].
    change (all_sites ((u, dj) :: ds)) with (sites_of dj ++ all_sites ds)%list. change (all_models ((u, dj) :: ds)) with (models_of dj ++ all_models ds)%list.
    split; [now apply Forall2_app|]. split; [now apply Forall2_app|].
    rewrite !combine_app_local by (eapply Forall2_len; eassumption). rewrite !fold_left_app. reflexivity.
Qed.
(** documents with distinct keys *)
Definition distinct12 (ld : json) (ds : list (string * json)) : Prop := wf_json ld /\ Forall (fun d => wf_json (snd d)) ds.
Lemma wf_get j k : wf_json j -> wf_json (get j k).
Proof.
  intros W. unfold get. destruct (lookup k (fields j)) as [v|] eqn:E; [|exact I]. destruct j; try discriminate. cbn [fields] in E. cbn [wf_json] in W. destruct W as [_ W].
  apply lookup_in_local in E. apply (CompareFacts.fold_and_Forall (fun kv : string * json => wf_json (snd kv))) in W. rewrite Forall_forall in W. exact (W _ E).
Qed.
Lemma wf_fields j : wf_json j -> NoDup (keys (fields j)).
Proof. intros W. destruct j; try constructor. exact (proj1 W). Qed.
Lemma wf_field j k v : wf_json j -> In (k, v) (fields j) -> wf_json v.
Proof.
  intros W E. destruct j; try contradiction. cbn [fields wf_json] in *. destruct W as [_ W]. apply (CompareFacts.fold_and_Forall (fun kv : string * json => wf_json (snd kv))) in W. rewrite Forall_forall in W. exact (W _ E).
Qed.
Lemma models_nodup ds : Forall (fun d => wf_json (snd d)) ds -> Forall (fun dm => NoDup (keys (fields (get (snd dm) "properties")))) (all_models ds).
Proof.
  intros W. apply Forall_forall. intros [dj mj] I. unfold all_models in I. apply in_flat_map in I as ([u d] & Id & I). apply in_map_iff in I as ([k m] & E & I). cbn [fst snd] in *. injection E as -> ->.
  rewrite Forall_forall in W. specialize (W _ Id). cbn [snd] in W. apply wf_fields, wf_get. eapply wf_field; [|exact I]. now apply wf_get.
Qed.
Lemma add_super_nodup n defs sub : NoDup (keys defs) -> NoDup (keys (add_super n defs sub)).
Proof. intros N. unfold add_super. now apply dict_set_nodup. Qed.
Lemma model_step_nodup sep l : forall defs, NoDup (keys defs) -> NoDup (keys (fold_left (model_step sep) l defs)).
Proof.
  induction l as [|dmp l IH]; intros defs N; cbn [fold_left]; [exact N|]. apply IH. unfold model_step.
  assert (N' : NoDup (keys (dict_set (model_name sep (fst dmp)) (model_doc (fst dmp) (snd dmp) (entry_of (model_name sep (fst dmp)) defs)) defs))) by now apply dict_set_nodup.
  revert N'. generalize (dict_set (model_name sep (fst dmp)) (model_doc (fst dmp) (snd dmp) (entry_of (model_name sep (fst dmp)) defs)) defs). clear.
  induction (subtype_names sep (fst dmp)) as [|t ts IH]; intros d N; cbn [fold_left]; [exact N|]. apply IH. now apply add_super_nodup.
Qed.
Definition state_ok (sep : string) (ld : json) (ds : list (string * json)) (s : sw) : Prop :=
  info_image ld (s_info s) /\ s_tags s = first_seen (names_of ds) [] /\
  NoDup (keys (s_defs s)) /\ definitions_ok sep (all_models ds) (s_defs s) /\
  (exists specs, Forall2 (operation_image sep) (all_sites ds) specs /\ s_paths s = fold_left put_site (combine (all_sites ds) specs) []) /\
  securities_ok ld (s_secs s).
Lemma upgrade_state sep ld ds listing apis d : app_made ld ds listing apis -> distinct12 ld ds -> upgrade12_spec sep listing apis = Ok d ->
  exists s, state_ok sep ld ds s /\ swagger_spec s = Ok d.
Proof.
  intros [Ml F] [Wl Wd] H. unfold upgrade12_spec in H. destruct (made_shape _ _ _ Ml) as (p & kids & cd & E & _). subst listing.
  apply bind_ok in H as (st & Hst & H). apply bind_ok in H as (st' & Hst' & H).
  destruct (scan_listing _ _ _ _ Ml (wf_fields _ (wf_get _ _ Wl)) Hst) as (s0 & -> & Hi & T0 & D0 & P0 & Sec).
  destruct (declarations_ok _ _ _ F _ _ Hst') as (specs & props & s' & -> & Hs & Hp & ->). rewrite T0, D0, P0 in H.
  eexists. split; [|exact H]. unfold state_ok. cbn [s_info s_tags s_defs s_paths s_secs]. split; [exact Hi|]. split; [apply fold_tags|]. split; [apply model_step_nodup; constructor|]. split.
  - apply INV_definitions. apply (INV_all sep (all_models ds) props Hp (models_nodup _ Wd) [] []). apply INV_start.
  - split; [exists specs; split; [exact Hs|reflexivity]|exact Sec].
Qed.
