(** Small corollaries closing the theorems of [PropertiesUtils]. *)
From Coq Require Import String Ascii List Bool Arith NArith ZArith Lia Permutation.
From Verif Require Import PyStr PyStrFacts PyVal PyValFacts Jp SpecJp JpFacts Scope SpecScope ScopeFacts UrlLib Urls SpecUrl UrlFacts UrlFacts2
  UrlFacts3 CompareContainer SpecJson CompareFacts.
Import ListNotations.
Open Scope string_scope.

Lemma compose_split_base tokens base p :
  base <> "" -> jp_compose (SList tokens) (Some base) = Some p -> jp_split p = (jp_split base ++ tokens)%list.
Proof. intros H E. injection E as <-. now apply jp_split_join_base. Qed.
Lemma compose_split_nobase tokens p :
  tokens <> [""] -> jp_compose (SList tokens) None = Some p -> jp_split p = tokens.
Proof. intros H E. injection E as <-. now apply jp_split_join_nobase. Qed.
Lemma split_compose s : rfc_wellformed s -> jp_compose (SList (jp_split s)) None = Some s.
Proof. intros H. cbn. f_equal. now apply jp_compose_split_canonical. Qed.
Lemma compose_assoc a b base p q :
  base <> "" -> jp_compose (SList a) (Some base) = Some p -> jp_compose (SList b) (Some p) = Some q ->
  jp_compose (SList (a ++ b)) (Some base) = Some q.
Proof. intros H E1 E2. injection E1 as <-. injection E2 as <-. cbn. f_equal. symmetry. now apply jp_join_assoc_base. Qed.
Lemma compose_inj a b base :
  base <> "" -> jp_compose (SList a) (Some base) = jp_compose (SList b) (Some base) -> a = b.
Proof. intros H E. injection E as E. now apply (jp_join_inj_base a b base). Qed.
Lemma compose_inj_nobase a b :
  jp_compose (SList a) None = jp_compose (SList b) None -> a <> [""] -> b <> [""] -> a = b.
Proof. intros E Ha Hb. injection E as E. destruct (jp_join_inj_nobase a b E) as [H|[[]|[]]]; congruence. Qed.

Lemma scope_roundtrip_free c sep' n names :
  Forall (fun m => m <> "" /\ free_of (String c "") m) (n :: names) ->
  exists s, fold_left (fun a b => scope_compose a b (String c sep')) (map Some names) (Some n) = Some s
            /\ s = composed (String c sep') (n :: names)
            /\ scope_split (Some s) (String c sep') = Ok (map Some (n :: names)).
Proof.
  intros H. apply scope_roundtrip. eapply Forall_impl; [|exact H]. intros m [Hm Hf]. split; [exact Hm|].
  apply (free_of_contains _ _ c Hf). cbn. now rewrite ascii_eqb_refl.
Qed.

Lemma not_sub sep s : (forall p q, s <> p ++ sep ++ q) <->
  (forall i, i <= String.length s -> startswith sep (sdrop i s) = false).
Proof.
  split.
  - intros H i Hi. destruct (startswith sep (sdrop i s)) eqn:E; [|reflexivity]. apply startswith_spec in E as [r E].
    exfalso. apply (H (stake i s) r). rewrite <- E. symmetry. apply stake_sdrop.
  - intros H p q ->. specialize (H (String.length p)). rewrite sdrop_app_length in H.
    rewrite startswith_app in H. discriminate H. rewrite slength_app. lia.
Qed.

Lemma scope_overlap_witness : exists sep a b s,
  scope_compose (Some a) (Some b) sep = Some s /\ (forall p q, a <> p ++ sep ++ q) /\ (forall p q, b <> p ++ sep ++ q) /\
  scope_split (Some s) sep <> Ok [Some a; Some b].
Proof.
  exists "!##!", "a!##", "b", "a!##!##!b". repeat split.
  - apply not_sub. intros i Hi. cbn in Hi. do 5 (destruct i as [|i]; [reflexivity|]). lia.
  - apply not_sub. intros i Hi. cbn in Hi. do 2 (destruct i as [|i]; [reflexivity|]). lia.
  - discriminate.
Qed.

Lemma c08_witness : clean_url "http" "h" (slash_path ["a"; ".."; "b"]) "" /\ Forall seg_ok ["a"; ".."; "b"]
  /\ dots_removed ["a"; ".."; "b"] ["b"].
Proof.
  assert (Hf : forall bad s, existsb (fun c => existsb (Ascii.eqb c) (chars bad)) (chars s) = false -> free_of bad s).
  { intros bad s H c Hc Hb. assert (E : existsb (fun c => existsb (Ascii.eqb c) (chars bad)) (chars s) = true).
    { apply existsb_exists. exists c. split; [exact Hc|]. apply existsb_exists. exists c. split; [exact Hb|apply ascii_eqb_refl]. }
    congruence. }
  split; [|split].
  - unfold clean_url. repeat split; try (apply Hf; reflexivity).
    + discriminate.
    + cbn [chars]. repeat (apply Forall_cons || apply Forall_nil); unfold scheme_letter; cbn [chars In]; repeat first [left; reflexivity | right].
    + right. eexists. reflexivity.
    + left. discriminate.
  - repeat (apply Forall_cons || apply Forall_nil); apply Hf; reflexivity.
  - apply dots_removed_fold. reflexivity.
Qed.

Lemma version_precedence (d : list (string * json)) :
  (forall v, lookup "swaggerVersion" d = Some v -> get_swagger_version d = Some v) /\
  (forall v, lookup "swaggerVersion" d = None -> lookup "swagger" d = Some v -> get_swagger_version d = Some v) /\
  (lookup "swaggerVersion" d = None -> lookup "swagger" d = None -> get_swagger_version d = lookup "openapi" d).
Proof.
  unfold get_swagger_version. repeat split.
  - now intros v ->.
  - intros v -> H. now rewrite H.
  - intros -> H. now rewrite H.
Qed.
Lemma version_other_keys (d e : list (string * json)) :
  (forall k, In k ["swaggerVersion"; "swagger"; "openapi"] -> lookup k d = lookup k e) ->
  get_swagger_version d = get_swagger_version e.
Proof. intros H. unfold get_swagger_version. now rewrite !H by (cbn; tauto). Qed.

Lemma compare_container_sound src dst :
  wf_json src -> wf_json dst -> compare_container src dst [] [] = Ok [] -> jequiv src dst.
Proof. intros H1 H2 H. eapply compare_sound; eauto. Qed.
Lemma compare_container_complete src dst :
  wf_json src -> wf_json dst -> homogeneous src -> reordered src dst -> compare_container src dst [] [] = Ok [].
Proof. intros. apply compare_complete; auto. Qed.

Lemma reordered_refl j : reordered j j.
Proof.
  induction j as [| | | | |l IH|d IH] using json_ind'; try (apply ro_scalar; exact I).
  - apply ro_list. induction IH; constructor; auto.
  - apply ro_dict with (e' := d); [reflexivity|]. induction IH; constructor; auto.
Qed.
Lemma compare_container_refl src : wf_json src -> homogeneous src -> compare_container src src [] [] = Ok [].
Proof. intros. apply compare_container_complete; auto using reordered_refl. Qed.
