(** Conversion of Swagger 1.2 objects: the resulting document. *)
From Coq Require Import String Ascii List Bool Arith ZArith Lia.
From Verif Require Import PyStr PyStrFacts PyVal PyValFacts Jp JpFacts Scope SpecUrl UrlLib UrlFacts Obj SpecObj SpecJson ObjFacts TablesFacts SpecTables Classes_v1_2 Classes_v2_0 Scan ScanFacts ScanFacts2 TraverseFacts PropertiesObjAux Up12 SpecUp12 Up12Facts NumeralFacts Up12Facts2 Up12Facts3 Up12Facts4 Up12Facts5 Up12Facts6 Up12Facts7 Up12Facts8.
Import ListNotations.
Open Scope string_scope. Open Scope nat_scope.

Lemma cls_shape T c j p o : construct T j (BCls c) p [] = Ok o -> exists kids, o = OObj c p j kids.
Proof.
  intros H. rewrite construct_eq in H. cbn [select bind con_core] in H. rewrite split_nil in H. cbn [bind] in H. destruct (lookup c T) as [cd|]; [|discriminate].
  destruct (con_kids T p [] j (c_children cd)) as [kids|]; cbn [bind] in H; [|discriminate]. apply Ok_inj in H. eauto.
Qed.
Lemma upgrade_document sep listing apis o : upgrade12 sep listing apis = Ok o -> exists d, upgrade12_spec sep listing apis = Ok d /\ document_of o = JDict d.
Proof.
  intros H. unfold upgrade12 in H. apply bind_ok in H as (d & Hd & H). apply cls_shape in H as (kids & ->). exists d. split; [exact Hd|reflexivity].
Qed.
Lemma swagger_fields s d : swagger_spec s = Ok d -> exists host t, strip_host (s_paths s) = Ok (host, t) /\
  get (JDict d) "host" = JStr host /\
  get (JDict d) "paths" = JDict (map (fun kv => (fst kv, in_dict (snd kv))) t) /\
  get (JDict d) "tags" = JList (map (fun n => JDict [("name", JStr n)]) (s_tags s)) /\
  get (JDict d) "definitions" = in_dict (s_defs s) /\ get (JDict d) "securityDefinitions" = in_dict (s_secs s) /\ get (JDict d) "info" = JDict (s_info s) /\
  get (JDict d) "swagger" = JStr "2.0" /\ get (JDict d) "schemes" = JList [JStr "http"; JStr "https"] /\ get (JDict d) "basePath" = JStr "".
Proof.
  intros H. unfold swagger_spec in H. apply bind_ok in H as ([host t] & Hh & H). apply Ok_inj in H. exists host, t. split; [exact Hh|]. subst d. cbn [fst snd].
  split; [reflexivity|]. split; [reflexivity|]. split; [reflexivity|]. split; [reflexivity|]. split; [reflexivity|]. split; [reflexivity|]. split; [reflexivity|]. split; reflexivity.
Qed.
Lemma lookup_map_snd {A B} (f : A -> B) k (d : list (string * A)) : lookup k (map (fun kv => (fst kv, f (snd kv))) d) = option_map f (lookup k d).
Proof. induction d as [|[k' v] d IH]; cbn [map lookup fst snd]; [reflexivity|]. destruct (String.eqb k k'); [reflexivity|exact IH]. Qed.
Lemma keys_map_snd {A B} (f : A -> B) (d : list (string * A)) : keys (map (fun kv => (fst kv, f (snd kv))) d) = keys d.
Proof. unfold keys. rewrite map_map. reflexivity. Qed.
Lemma given_in_dict d k : given (in_dict d) k = option_map JDict (lookup k d).
Proof. unfold given, in_dict. cbn [fields]. apply lookup_map_snd. Qed.
Lemma fields_in_dict d : keys (fields (in_dict d)) = keys d.
Proof. unfold in_dict. cbn [fields]. apply keys_map_snd. Qed.

Lemma definitions_final sep ld ds listing apis o : app_made ld ds listing apis -> distinct12 ld ds -> upgrade12 sep listing apis = Ok o ->
  NoDup (keys (fields (get (document_of o) "definitions"))) /\
  forall n, if existsb (fun dm => String.eqb (model_name sep dm) n) (all_models ds) || existsb (fun dm => existsb (String.eqb n) (subtype_names sep dm)) (all_models ds)
            then exists d, given (get (document_of o) "definitions") n = Some (JDict d) /\ definition_image sep n (all_models ds) d
            else given (get (document_of o) "definitions") n = None.
Proof.
  intros M W H. apply upgrade_document in H as (d & Hd & ->). destruct (upgrade_state _ _ _ _ _ _ M W Hd) as (s & (_ & _ & N & D & _) & Hs).
  destruct (swagger_fields _ _ Hs) as (host & t & _ & _ & _ & _ & -> & _). rewrite fields_in_dict. split; [exact N|]. intros n. rewrite given_in_dict. specialize (D n).
  destruct (_ || _); [|now rewrite D]. destruct D as (x & -> & Di). exists x. split; [reflexivity|exact Di].
Qed.
Lemma securities_final sep ld ds listing apis o : app_made ld ds listing apis -> distinct12 ld ds -> upgrade12 sep listing apis = Ok o ->
  NoDup (keys (fields (get (document_of o) "securityDefinitions"))) /\
  (forall n v, given (get ld "authorizations") n = Some v -> exists d, given (get (document_of o) "securityDefinitions") (jp_encode n) = Some (JDict d) /\ security_image v d) /\
  (forall k, given (get (document_of o) "securityDefinitions") k <> None -> exists n, given (get ld "authorizations") n <> None /\ k = jp_encode n).
Proof.
  intros M W H. apply upgrade_document in H as (d & Hd & ->). destruct (upgrade_state _ _ _ _ _ _ M W Hd) as (s & (_ & _ & _ & _ & _ & N & S1 & S2) & Hs).
  destruct (swagger_fields _ _ Hs) as (host & t & _ & _ & _ & _ & _ & -> & _). rewrite fields_in_dict. split; [exact N|]. split.
  - intros n v G. rewrite given_in_dict. unfold given in G. apply lookup_in_local in G. destruct (S1 _ _ G) as (x & -> & Hx). exists x. split; [reflexivity|exact Hx].
  - intros k G. rewrite given_in_dict in G. destruct (S2 k) as (n & v & I & ->); [intros E; now rewrite E in G|]. exists n. split; [|reflexivity]. unfold given.
    rewrite (lookup_nodup _ _ _ (wf_fields _ (wf_get _ _ (proj1 W))) I); discriminate.
Qed.
Lemma info_final sep ld ds listing apis o : app_made ld ds listing apis -> distinct12 ld ds -> upgrade12 sep listing apis = Ok o ->
  exists i, get (document_of o) "info" = JDict i /\ info_image ld i.
Proof.
  intros M W H. apply upgrade_document in H as (d & Hd & ->). destruct (upgrade_state _ _ _ _ _ _ M W Hd) as (s & (I & _) & Hs).
  destruct (swagger_fields _ _ Hs) as (host & t & _ & _ & _ & _ & _ & _ & -> & _). exists (s_info s). split; [reflexivity|exact I].
Qed.
Lemma tags_final sep ld ds listing apis o : app_made ld ds listing apis -> distinct12 ld ds -> upgrade12 sep listing apis = Ok o ->
  get (document_of o) "tags" = JList (map (fun n => JDict [("name", JStr n)]) (first_seen (map (fun d => resource (snd d)) ds) [])).
Proof.
  intros M W H. apply upgrade_document in H as (d & Hd & ->). destruct (upgrade_state _ _ _ _ _ _ M W Hd) as (s & (_ & T & _) & Hs).
  destruct (swagger_fields _ _ Hs) as (host & t & _ & _ & _ & -> & _). now rewrite T.
Qed.
Lemma common_prefix_same l m c : (forall x, In x l <-> In x m) -> common_prefix l c -> common_prefix m c.
Proof. intros E [A B]. split; [intros p I; apply A, E, I|]. intros c' H. apply B. intros p I. apply H, E, I. Qed.
Lemma site_keys_same sep ds specs : Forall2 (operation_image sep) (all_sites ds) specs -> forall k,
  In k (keys (fold_left put_site (combine (all_sites ds) specs) [])) <-> In k (map full_path (all_sites ds)).
Proof.
  intros F k. pose proof (sites_keys _ _ _ k F) as K. rewrite lookup_none_keys in K. destruct (in_dec string_dec k (map full_path (all_sites ds))), (in_dec string_dec k (keys (fold_left put_site (combine (all_sites ds) specs) []))); tauto.
Qed.
Lemma operations_final sep ld ds listing apis o c c' host pre : app_made ld ds listing apis -> distinct12 ld ds -> upgrade12 sep listing apis = Ok o ->
  common_prefix (map full_path (all_sites ds)) c -> trimmed c c' -> site_prefix c' host pre ->
  get (document_of o) "host" = JStr host /\
  (forall s, In s (all_sites ds) -> is_prefix pre (full_path s)) /\
  NoDup (keys (fields (get (document_of o) "paths"))) /\
  (forall p, given (get (document_of o) "paths") p <> None <-> In (pre ++ p) (map full_path (all_sites ds))) /\
  (forall p, NoDup (keys (fields (get (get (document_of o) "paths") p)))) /\
  forall p m,
    match last_such (fun s => String.eqb (full_path s) (pre ++ p) && String.eqb (method_of s) m) (all_sites ds) with
    | Some s => exists out, given (get (get (document_of o) "paths") p) m = Some (JDict out) /\ operation_image sep s out
    | None => given (get (get (document_of o) "paths") p) m = None
    end.
Proof.
  intros M W H C Tr Sp. apply upgrade_document in H as (d & Hd & ->). destruct (upgrade_state _ _ _ _ _ _ M W Hd) as (s & (_ & _ & _ & _ & (specs & Fs & Ep) & _) & Hs).
  destruct (swagger_fields _ _ Hs) as (host0 & t0 & St & Eh & Et & _). rewrite Eh, Et. rewrite Ep in St. clear Ep Hs Eh Et.
  set (tab := fold_left put_site (combine (all_sites ds) specs) []) in *. pose proof (site_keys_same _ _ _ Fs) as SK. fold tab in SK.
  assert (Nt : NoDup (keys tab)) by (apply fold_site_nodup; constructor).
  destruct (strip_host_ok tab c c' host pre Nt) as (Pk & t' & St' & Nt' & L); [|exact Tr|exact Sp|].
  { eapply common_prefix_same; [|exact C]. intros x. symmetry. apply SK. }
  rewrite St in St'. apply Ok_inj in St'. assert (E1 := f_equal fst St'). assert (E2 := f_equal snd St'). cbn [fst snd] in E1, E2. subst host0 t0. clear St St'.
  split; [reflexivity|]. split; [intros x I; apply Pk, SK, in_map, I|]. cbn [fields]. split; [rewrite keys_map_snd; exact Nt'|].
  assert (G : forall p, given (JDict (map (fun kv => (fst kv, in_dict (snd kv))) t')) p = option_map in_dict (lookup (pre ++ p) tab)).
  { intros p. unfold given. cbn [fields]. rewrite lookup_map_snd, L. reflexivity. }
  assert (G' : forall p, get (JDict (map (fun kv => (fst kv, in_dict (snd kv))) t')) p = match lookup (pre ++ p) tab with Some ms => in_dict ms | None => JNull end).
  { intros p. specialize (G p). unfold given in G. unfold get. rewrite G. destruct (lookup (pre ++ p) tab); reflexivity. }
  split; [|split].
  - intros p. rewrite G, <- SK. pose proof (lookup_none_keys (pre ++ p) tab) as K. destruct (lookup (pre ++ p) tab) eqn:E; cbn [option_map].
    + split; [intros _|discriminate]. destruct (in_dec string_dec (pre ++ p) (keys tab)) as [I|I]; [exact I|]. apply K in I. discriminate.
    + split; [congruence|]. intros I. exfalso. apply K in I; [contradiction|reflexivity].
  - intros p. rewrite G'. destruct (lookup (pre ++ p) tab) as [ms|] eqn:E; [|constructor]. rewrite fields_in_dict. eapply (fold_site_inner _ []); [intros ? ? X; discriminate|exact E].
  - intros p m. pose proof (fold_sites (operation_image sep) _ _ (pre ++ p) m Fs []) as K. fold tab in K. fold (at_site (pre ++ p) m). rewrite G'. unfold get_op in K.
    destruct (last_such (at_site (pre ++ p) m) (all_sites ds)) as [x|].
    + destruct K as (out & K & Hi). destruct (lookup (pre ++ p) tab) as [ms|]; [|discriminate]. exists out. rewrite given_in_dict, K. split; [reflexivity|exact Hi].
    + destruct (lookup (pre ++ p) tab) as [ms|]; [|reflexivity]. rewrite given_in_dict, K. reflexivity.
Qed.

(** ** names *)
Lemma first_char_cut c a : forall a' b b', free_of (String c "") a -> free_of (String c "") a' -> (a ++ String c b = a' ++ String c b')%string -> a = a' /\ b = b'.
Proof.
  induction a as [|x a IH]; intros [|y a'] b b' F F' E; cbn [append] in E.
  - split; [reflexivity|congruence].
  - exfalso. injection E as -> _. apply (F' y); cbn; auto.
  - exfalso. injection E as -> _. apply (F c); cbn; auto.
  - injection E as -> E. destruct (IH a' b b') as [-> ->]; auto; intros z I; [apply F|apply F']; cbn; auto.
Qed.
Lemma scoped_injective c sep r r' n n' : r <> "" -> r' <> "" -> free_of (String c "") r -> free_of (String c "") r' ->
  scoped (String c sep) r n = scoped (String c sep) r' n' -> r = r' /\ n = n'.
Proof.
  intros Nr Nr' F F' E. unfold scoped in E. destruct (String.eqb_spec r ""); [congruence|]. destruct (String.eqb_spec r' ""); [congruence|].
  assert (No : forall x y z, free_of (String c "") x -> x <> (y ++ String c z)%string).
  { intros x y z Fx Ex. apply (Fx c); [|cbn; auto]. rewrite Ex. clear. induction y as [|a y IH]; cbn; auto. }
  destruct (String.eqb_spec n "") as [->|], (String.eqb_spec n' "") as [->|]; cbn [append] in E.
  - auto.
  - exfalso. exact (No _ _ _ F E).
  - exfalso. exact (No _ _ _ F' (eq_sym E)).
  - apply first_char_cut in E as [-> E]; [|exact F|exact F']. apply sapp_inv_head in E. auto.
Qed.
