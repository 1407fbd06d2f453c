(** Url properties restated in the vocabulary of [SpecUrl] only. *)
From Coq Require Import String Ascii List Bool Arith NArith Lia.
From Verif Require Import PyStr PyStrFacts PyVal UrlLib Urls SpecScope SpecUrl UrlFacts UrlFacts2.
Import ListNotations.
Open Scope string_scope.

Lemma rel_path_join segs : rel_path segs = join "/" segs.
Proof. induction segs as [|s [|t r] IH]; [reflexivity|reflexivity|]. change (rel_path (s :: t :: r)) with (s ++ "/" ++ rel_path (t :: r)). rewrite IH. reflexivity. Qed.

Lemma not_true_false b : b <> true -> b = false.
Proof. destruct b; congruence. Qed.

Lemma not_ends_json suf p : ~ ends_with p suf -> endswith suf p = false.
Proof. intros H. apply not_true_false. intros E. apply endswith_spec in E. now apply H. Qed.

(** ** derelativise_url *)
Lemma dots_removed_exists segs : exists out, dots_removed segs out.
Proof. eexists. now apply dots_removed_fold. Qed.
Lemma dots_removed_unique segs o1 o2 : dots_removed segs o1 -> dots_removed segs o2 -> o1 = o2.
Proof. intros H1 H2. apply dots_removed_fold in H1, H2. congruence. Qed.

Lemma derelativise_spec s h segs q out :
  clean_url s h (slash_path segs) q -> segs <> [] -> Forall seg_ok segs -> dots_removed segs out ->
  derelativise_url (abs_url s h (slash_path segs) q) = abs_url s h (path_of out) q.
Proof. intros Hc Hne Hok Hd. apply dots_removed_fold in Hd. subst. now apply derelativise_abs. Qed.

Lemma derelativise_plain s h segs q :
  clean_url s h (slash_path segs) q -> segs <> [] -> Forall seg_ok segs -> Forall plain segs ->
  derelativise_url (abs_url s h (slash_path segs) q) = abs_url s h (slash_path segs) q.
Proof.
  intros Hc Hne Hok Hp. rewrite (derelativise_spec s h segs q segs); auto.
  - destruct segs; [congruence|reflexivity].
  - split; [constructor|exact Hp].
Qed.

Lemma derel_step_ne acc x : Forall (fun s => s <> "") acc -> Forall (fun s => s <> "") (removelast (derel_step acc x)).
Proof.
  intros H.
  assert (Hr : forall l : list string, Forall (fun s => s <> "") l -> Forall (fun s => s <> "") (removelast l)).
  { induction l as [|a [|b l] IH]; intros Hl; cbn; auto. inversion_clear Hl. constructor; auto. }
  unfold derel_step. destruct (String.eqb x "."); [auto|]. destruct (String.eqb x ".."); [auto|].
  destruct (is_dots3 x); [auto|]. now rewrite removelast_app_single.
Qed.

Lemma no_double_noslash_app x t : contains_char "/" x = false -> no_double_slash t -> no_double_slash (x ++ t).
Proof.
  induction x as [|c x IH]; intros Hx Ht a b E; [exact (Ht a b E)|].
  cbn [contains_char] in Hx. destruct a as [|c' a]; cbn [append] in E.
  - injection E as -> E. discriminate Hx.
  - injection E as -> E. apply orb_false_iff in Hx as [_ Hx]. exact (IH Hx Ht a b E).
Qed.

Lemma no_double_of_init segs : Forall (fun s => s <> "") (removelast segs) -> Forall seg_ok segs ->
  no_double_slash (slash_path segs).
Proof.
  induction segs as [|x r IH]; intros Hi Hs a b E.
  - destruct a; discriminate.
  - inversion_clear Hs as [|? ? Hsx Hs']. apply seg_noslash in Hsx.
    change (slash_path (x :: r)) with ("/" ++ x ++ slash_path r) in E.
    assert (Hn : no_double_slash (slash_path r)).
    { apply IH; [|exact Hs']. destruct r as [|y r]; [constructor|]. cbn [removelast] in Hi. now inversion_clear Hi. }
    destruct a as [|c a]; cbn [append] in E.
    + injection E as E. destruct x as [|c x].
      * destruct r as [|y r]; [discriminate|]. cbn [removelast] in Hi. inversion_clear Hi. congruence.
      * injection E as -> E. discriminate Hsx.
    + injection E as _ E. exact (no_double_noslash_app x _ Hsx Hn a b E).
Qed.

Lemma fold_derel_init_ne segs acc :
  Forall (fun s => s <> "") acc -> Forall (fun s => s <> "") (removelast segs) -> segs <> [] ->
  Forall (fun s => s <> "") (removelast (fold_left derel_step segs acc)).
Proof.
  revert acc; induction segs as [|x r IH]; intros acc Ha Hi Hne; [congruence|]. cbn [fold_left].
  destruct r as [|y r]; [now apply derel_step_ne|].
  cbn [removelast] in Hi. inversion_clear Hi. apply IH; [|assumption|discriminate].
  assert (Hr : forall l : list string, Forall (fun s => s <> "") l -> Forall (fun s => s <> "") (removelast l)).
  { induction l as [|a [|b l] IHl]; intros Hl; cbn; auto. inversion_clear Hl. constructor; auto. }
  unfold derel_step. destruct (String.eqb x "."); [auto|]. destruct (String.eqb x ".."); [auto|].
  destruct (is_dots3 x); [auto|]. apply Forall_app. auto.
Qed.

Lemma clean_removed s h segs q out :
  clean_url s h (slash_path segs) q -> segs <> [] -> Forall seg_ok segs -> dots_removed segs out ->
  clean_url s h (path_of out) q /\ Forall seg_ok out.
Proof.
  intros Hc Hne Hok Hd. apply dots_removed_fold in Hd.
  assert (Ho : Forall seg_ok out) by (subst; now apply derel_fold_Forall).
  split; [|exact Ho]. destruct Hc as (H1 & H2 & H3 & H4 & H5 & H6 & H7).
  unfold clean_url. repeat split; auto.
  - now apply path_of_free.
  - right. destruct out as [|x out]; [exists ""; reflexivity|]. cbn. eexists. reflexivity.
  - destruct H7 as [H7|[H7 Hnd]]; [now left|]. right. split; [exact H7|].
    assert (Hcase : out = [] \/ out <> []) by (destruct out; [now left|right; discriminate]).
    destruct Hcase as [Hcase|Hcase].
    + rewrite Hcase. intros a b Eab. destruct a as [|c a]; cbn in Eab; [discriminate|]. injection Eab as -> Eab. destruct a; discriminate.
    + assert (Ep : path_of out = slash_path out) by (destruct out; [congruence|reflexivity]). rewrite Ep.
      apply no_double_of_init; [|exact Ho]. rewrite Hd. apply fold_derel_init_ne; [constructor| |exact Hne].
      now apply no_double_init.
Qed.

Lemma slash_path_of out : path_of out = slash_path (match out with [] => [""] | _ => out end).
Proof. destruct out; reflexivity. Qed.

Lemma derelativise_idem s h segs q :
  clean_url s h (slash_path segs) q -> segs <> [] -> Forall seg_ok segs ->
  derelativise_url (derelativise_url (abs_url s h (slash_path segs) q))
  = derelativise_url (abs_url s h (slash_path segs) q).
Proof.
  intros Hc Hne Hok. destruct (dots_removed_exists segs) as [out Hd].
  rewrite (derelativise_spec s h segs q out) by assumption.
  destruct (clean_removed s h segs q out Hc Hne Hok Hd) as [Hc' Ho].
  rewrite slash_path_of in *. apply derelativise_plain; [exact Hc'|destruct out; discriminate| |].
  - destruct out; [constructor; [|constructor]|exact Ho]. intros c [].
  - destruct Hd as [_ Hp]. destruct out; [|exact Hp]. constructor; [|constructor].
    split; [discriminate|]. intros [H _]. cbn in H. lia.
Qed.

Lemma derelativise_cancel s h a x d b q :
  clean_url s h (slash_path (a ++ x :: d :: b)) q -> clean_url s h (slash_path (a ++ b)) q ->
  (a ++ b)%list <> [] -> Forall seg_ok (a ++ x :: d :: b) -> plain x -> up d ->
  derelativise_url (abs_url s h (slash_path (a ++ x :: d :: b)) q)
  = derelativise_url (abs_url s h (slash_path (a ++ b)) q).
Proof.
  intros H1 H2 Hne Hok Hx Hd. destruct (dots_removed_exists (a ++ b)) as [out [Hs Hp]].
  rewrite (derelativise_spec s h (a ++ b) q out); auto.
  - rewrite (derelativise_spec s h (a ++ x :: d :: b) q out); auto.
    + destruct a; discriminate.
    + split; [|exact Hp]. eapply dss_step; [apply ds_up; assumption|exact Hs].
  - apply Forall_app in Hok as [Ha Hb]. inversion_clear Hb as [|? ? _ Hb']. inversion_clear Hb'. apply Forall_app; auto.
  - split; assumption.
Qed.

(** ** url_join, url_dirname *)
Lemma url_join_spec s h p n q (b1 b2 : bool) :
  clean_url s h (opt_slash_r b1 p) q -> ~ ends_with p "/" -> (forall r, n <> String "/" r) ->
  url_join (abs_url s h (opt_slash_r b1 p) q) (opt_slash_l b2 n) = abs_url s h (p ++ "/" ++ n) q.
Proof.
  intros Hc Hp Hn. assert (En : first_is "/" n = false).
  { apply not_true_false. intros E. apply first_is_spec in E as [r E]. exact (Hn r E). }
  apply url_join_one_slash; auto.
  apply not_true_false. intros E. apply last_is_spec in E as [r E]. apply Hp. now exists r.
Qed.

Lemma url_dirname_other s h p q :
  clean_url s h p q -> ~ ends_with p "json" -> ~ ends_with p "yaml" ->
  url_dirname (abs_url s h p q) = abs_url s h p q.
Proof. intros Hc H1 H2. apply url_dirname_keep; auto; now apply not_ends_json. Qed.

Lemma endswith_noslash_app suf a file :
  contains_char "/" suf = false -> endswith suf (a ++ "/" ++ file) = true -> endswith suf file = true.
Proof.
  intros Hs H. apply endswith_spec in H as [p Hp]. apply endswith_spec.
  revert p Hp. induction a as [|c a IH]; intros p Hp.
  - cbn [append] in Hp. destruct p as [|c p]; cbn [append] in Hp.
    + subst suf. cbn in Hs. discriminate.
    + injection Hp as <- Hp. now exists p.
  - destruct p as [|c' p]; cbn [append] in Hp.
    + subst suf. cbn [contains_char] in Hs. apply orb_false_iff in Hs as [_ Hs].
      rewrite contains_char_app in Hs. apply orb_false_iff in Hs as [_ Hs]. discriminate.
    + injection Hp as <- Hp. exact (IH p Hp).
Qed.

Lemma url_dirname_file s h dir file q :
  clean_url s h (dir ++ "/" ++ file) q -> dir <> "" -> ~ ends_with dir "/" -> free_of "/" file ->
  (ends_with file "json" \/ ends_with file "yaml") ->
  url_dirname (abs_url s h (dir ++ "/" ++ file) q) = abs_url s h dir q.
Proof.
  intros Hc Hd Hl Hf He. apply url_dirname_dir; auto.
  - apply not_true_false. intros E. apply last_is_spec in E as [r E]. apply Hl. now exists r.
  - apply (free_of_contains _ _ "/" Hf); reflexivity.
  - destruct He as [He|He]; [left|right]; now apply endswith_spec.
Qed.

Lemma url_dirname_rootfile s h file q :
  clean_url s h ("/" ++ file) q -> free_of "/" file -> (ends_with file "json" \/ ends_with file "yaml") ->
  url_dirname (abs_url s h ("/" ++ file) q) = abs_url s h "/" q.
Proof.
  intros Hc Hf He. apply url_dirname_root; auto.
  - apply (free_of_contains _ _ "/" Hf); reflexivity.
  - destruct He as [He|He]; [left|right]; now apply endswith_spec.
Qed.

(** ** normalize_jr *)
Lemma normalize_relative s h dsegs file rsegs q jp out :
  clean_url s h (slash_path (dsegs ++ [file])) q ->
  clean_url s h (slash_path (dsegs ++ rsegs)) q ->
  dsegs <> [] -> rel_path rsegs <> "" ->
  Forall (fun s => s <> "" /\ seg_ok s) dsegs -> seg_ok file -> Forall seg_ok rsegs ->
  ~ has_scheme (rel_path rsegs) ->
  dots_removed (dsegs ++ rsegs) out ->
  normalize_jr (Some (rel_path rsegs ++ frag jp)) (Some (abs_url s h (slash_path (dsegs ++ [file])) q))
  = Ok (Some (abs_url s h (path_of out) q ++ frag jp)).
Proof.
  rewrite rel_path_join. intros. apply dots_removed_fold in H7. subst out.
  apply nj_relative; auto. destruct rsegs; [now cbn in H2|discriminate].
Qed.

Lemma normalize_rootdoc s h file rsegs q jp out :
  clean_url s h (slash_path [file]) q ->
  clean_url s h (slash_path ("" :: rsegs)) q ->
  rel_path rsegs <> "" -> seg_ok file -> Forall seg_ok rsegs -> ~ has_scheme (rel_path rsegs) ->
  dots_removed ("" :: rsegs) out ->
  normalize_jr (Some (rel_path rsegs ++ frag jp)) (Some (abs_url s h (slash_path [file]) q))
  = Ok (Some (abs_url s h (path_of out) q ++ frag jp)).
Proof.
  rewrite rel_path_join. intros. apply dots_removed_fold in H5. subst out.
  apply nj_root; auto. destruct rsegs; [now cbn in H1|discriminate].
Qed.

Lemma clean_nohash s h p q : clean_url s h p q -> contains_char "#" (abs_url s h p q) = false.
Proof.
  intros (H1 & H2 & H3 & H4 & H5 & _).
  assert (Hs : contains_char "#" s = false).
  { clear -H2. induction s as [|c s IH]; [reflexivity|]. cbn [chars] in H2. inversion_clear H2.
    cbn [contains_char]. rewrite (IH H0). destruct (Ascii.eqb c "#") eqn:E; [|reflexivity].
    apply Ascii.eqb_eq in E. subst c. exfalso. revert H. unfold scheme_letter. cbn.
    intuition discriminate. }
  unfold abs_url. rewrite !contains_char_app, Hs.
  rewrite (free_of_contains _ _ "#" H3), (free_of_contains _ _ "#" H4) by reflexivity.
  cbn [contains_char orb]. destruct q as [|c q]; [reflexivity|].
  rewrite contains_char_app, (free_of_contains _ _ "#" H5) by reflexivity. reflexivity.
Qed.

Lemma normalize_absolute u jp url : has_scheme u -> free_of "#" u ->
  normalize_jr (Some (u ++ frag jp)) url = Ok (Some (u ++ frag jp)).
Proof. intros H Hf. apply nj_scheme; auto. apply (free_of_contains _ _ "#" Hf); reflexivity. Qed.

Lemma normalize_again s h p q jp url : clean_url s h p q ->
  normalize_jr (Some (abs_url s h p q ++ frag jp)) url = Ok (Some (abs_url s h p q ++ frag jp)).
Proof.
  intros Hc. apply nj_scheme; [|now apply clean_nohash].
  rewrite <- (sapp_nil_r (abs_url s h p q)). now apply clean_has_scheme.
Qed.

Lemma patch_path_spec base path :
  exists e, valid_ext e /\ ends_with (patch_path base path) e /\
            (patch_path base path = path \/ patch_path base path = path ++ e).
Proof.
  destruct (patch_path_result base path) as (e & H1 & H2 & H3). exists e. repeat split; auto.
  now apply endswith_spec.
Qed.
