(** Proofs about url_dirname, url_join, normalize_jr, patch_path. *)
From Coq Require Import String Ascii List Bool Arith Lia NArith.
From Verif Require Import PyStr PyStrFacts PyVal PyValFacts UrlLib Urls SpecUrl UrlFacts.
Import ListNotations.
Open Scope string_scope.

(** ** dirname *)
Lemma rstrip_char_last c a : last_is c a = false -> rstrip_char c a = a.
Proof.
  induction a as [|x a IH]; intros H; [reflexivity|]. cbn [rstrip_char].
  destruct a as [|y a]; [cbn in *; now rewrite H|]. rewrite IH by exact H. reflexivity.
Qed.

Lemma rstrip_char_snoc c a : rstrip_char c (a ++ String c "") = rstrip_char c a.
Proof.
  induction a as [|x a IH]; cbn [append rstrip_char]; [now rewrite ascii_eqb_refl|]. now rewrite IH.
Qed.

Lemma all_slash_last a : all_chars (Ascii.eqb "/") a = true -> a <> "" -> last_is "/" a = true.
Proof.
  induction a as [|x a IH]; intros H Hne; [congruence|]. cbn [all_chars] in H. apply andb_true_iff in H as [Hx Ha].
  destruct a as [|y a]; [cbn; now rewrite Ascii.eqb_sym|]. apply IH; [exact Ha|discriminate].
Qed.

Lemma dirname_split dir file :
  contains_char "/" file = false -> last_is "/" dir = false -> dir <> "" ->
  dirname (dir ++ "/" ++ file) = dir.
Proof.
  intros Hf Hl Hne. unfold dirname. cbn [append]. rewrite rfind_char_app_last by exact Hf.
  assert (E : stake (S (String.length dir)) (dir ++ String "/" file) = dir ++ "/").
  { change (String "/" file) with ("/" ++ file). rewrite <- sapp_assoc.
    replace (S (String.length dir)) with (String.length (dir ++ "/")) by (rewrite slength_app; cbn; lia).
    apply stake_app_length. }
  rewrite E. rewrite all_chars_app.
  destruct (all_chars (Ascii.eqb "/") dir) eqn:Ea.
  - exfalso. rewrite (all_slash_last dir Ea Hne) in Hl. discriminate.
  - cbn [andb]. rewrite rstrip_char_snoc. now apply rstrip_char_last.
Qed.

Lemma dirname_root file : contains_char "/" file = false -> dirname ("/" ++ file) = "/".
Proof.
  intros Hf. unfold dirname. cbn [append]. pose proof (rfind_char_app_last "/" "" file Hf) as E.
  cbn [append String.length] in E. rewrite E. reflexivity.
Qed.

(** ** url_dirname *)
Lemma url_dirname_keep s h p q :
  clean_url s h p q -> endswith "json" p = false -> endswith "yaml" p = false ->
  url_dirname (abs_url s h p q) = abs_url s h p q.
Proof. intros H H1 H2. unfold url_dirname. rewrite (urlparse_abs _ _ _ _ H). cbn [u_path]. now rewrite H1, H2. Qed.

Lemma url_dirname_strip s h p q :
  clean_url s h p q -> (endswith "json" p = true \/ endswith "yaml" p = true) ->
  url_dirname (abs_url s h p q) = urlunparse (mk_purl s h (dirname p) "" q "").
Proof.
  intros H He. unfold url_dirname. rewrite (urlparse_abs _ _ _ _ H). cbn [u_path].
  assert (E : endswith "json" p || endswith "yaml" p = true) by now apply orb_true_iff. now rewrite E.
Qed.

Lemma no_double_app a b : no_double_slash (a ++ b) -> no_double_slash a.
Proof. intros H x y E. apply (H x (y ++ b)). now rewrite E, !sapp_assoc. Qed.

Lemma clean_dir s h dir file q :
  clean_url s h (dir ++ "/" ++ file) q -> dir <> "" ->
  (exists p', dir = String "/" p') /\ (h <> "" \/ (s = "file" /\ startswith "//" dir = false)).
Proof.
  intros (Hs1 & Hs2 & Hh & Hp & Hq & Hp2 & Hh2) Hne. split.
  - destruct Hp2 as [E|[p' E]]; [apply sapp_eq_nil in E as [E _]; contradiction|].
    destruct dir as [|c dir]; [contradiction|]. cbn [append] in E. injection E as -> _. eauto.
  - destruct Hh2 as [H|[H1 H2]]; [now left|]. right. split; [exact H1|].
    apply no_double_prefix. now apply no_double_app in H2.
Qed.

Lemma url_dirname_dir s h dir file q :
  clean_url s h (dir ++ "/" ++ file) q -> dir <> "" -> last_is "/" dir = false ->
  contains_char "/" file = false -> (endswith "json" file = true \/ endswith "yaml" file = true) ->
  url_dirname (abs_url s h (dir ++ "/" ++ file) q) = abs_url s h dir q.
Proof.
  intros Hc Hne Hl Hf He. rewrite url_dirname_strip; [|exact Hc|].
  - rewrite dirname_split by assumption. destruct (clean_dir _ _ _ _ _ Hc Hne) as [H1 H2].
    apply urlunparse_abs; [now destruct Hc | now right | exact H2].
  - rewrite !endswith_spec in *. destruct He as [[p ->]|[p ->]]; [left|right];
      exists (dir ++ "/" ++ p); now rewrite !sapp_assoc.
Qed.

Lemma url_dirname_root s h file q :
  clean_url s h ("/" ++ file) q -> contains_char "/" file = false ->
  (endswith "json" file = true \/ endswith "yaml" file = true) ->
  url_dirname (abs_url s h ("/" ++ file) q) = abs_url s h "/" q.
Proof.
  intros Hc Hf He. rewrite url_dirname_strip; [|exact Hc|].
  - rewrite dirname_root by exact Hf. destruct Hc as (Hs1 & Hs2 & Hh & Hp & Hq & Hp2 & Hh2).
    apply urlunparse_abs; [exact Hs1 | right; now exists "" |].
    destruct Hh2 as [H|[H1 _]]; [now left | right; auto].
  - rewrite !endswith_spec in *. destruct He as [[p ->]|[p ->]]; [left|right]; now exists ("/" ++ p).
Qed.


Lemma url_join_one_slash s h p n q (b1 b2 : bool) :
  clean_url s h (opt_slash_r b1 p) q ->
  last_is "/" p = false -> first_is "/" n = false ->
  (p = "" -> h <> "" \/ first_is "/" n = false) ->
  url_join (abs_url s h (opt_slash_r b1 p) q) (opt_slash_l b2 n) = abs_url s h (p ++ "/" ++ n) q.
Proof.
  intros Hc Hl Hf _. unfold url_join. rewrite (urlparse_abs _ _ _ _ Hc). cbn [u_path].
  assert (E : (if last_is "/" (opt_slash_r b1 p)
               then opt_slash_r b1 p ++ (if first_is "/" (opt_slash_l b2 n) then sdrop 1 (opt_slash_l b2 n) else opt_slash_l b2 n)
               else opt_slash_r b1 p ++ (if first_is "/" (opt_slash_l b2 n) then "" else "/") ++ opt_slash_l b2 n)
              = p ++ "/" ++ n).
  { destruct b1, b2; cbn [opt_slash_r opt_slash_l].
    - rewrite last_is_app_single. cbn [append first_is sdrop]. rewrite ascii_eqb_refl. cbn [sdrop].
      rewrite ?sdrop_0. now rewrite sapp_assoc.
    - rewrite last_is_app_single, Hf. now rewrite sapp_assoc.
    - rewrite Hl. cbn [append first_is]. now rewrite ascii_eqb_refl.
    - rewrite Hl, Hf. reflexivity. }
  rewrite E. unfold with_path. cbn [u_scheme u_netloc u_params u_query u_fragment].
  destruct Hc as (Hs1 & Hs2 & Hh & Hp & Hq & Hp2 & Hh2).
  apply urlunparse_abs; [exact Hs1| |].
  - right. destruct p as [|c p]; [cbn; eauto|].
    destruct Hp2 as [H|[p' H]]; [destruct b1; discriminate H|].
    exists (p ++ "/" ++ n). destruct b1; cbn [opt_slash_r append] in H; injection H as -> _; reflexivity.
  - destruct Hh2 as [H|[H1 H2]]; [now left|]. right. split; [exact H1|].
    destruct p as [|c p].
    + cbn [append startswith]. rewrite ascii_eqb_refl. destruct n as [|d n]; [reflexivity|].
      cbn [startswith]. cbn [first_is] in Hf. rewrite Ascii.eqb_sym in Hf. now rewrite Hf.
    + destruct (startswith "//" (String c p ++ "/" ++ n)) eqn:Es; [|reflexivity]. exfalso.
      destruct p as [|d p].
      * destruct Hp2 as [H|[p' H]]; [destruct b1; discriminate H|].
        assert (c = "/"%char) by (destruct b1; cbn [opt_slash_r append] in H; congruence). subst c. discriminate Hl.
      * cbn [append startswith] in Es. destruct (Ascii.eqb_spec "/" c) as [<-|]; [|discriminate].
        destruct (Ascii.eqb_spec "/" d) as [<-|]; [|discriminate].
        destruct b1; cbn [opt_slash_r] in H2; [exact (H2 "" (p ++ "/") eq_refl) | exact (H2 "" p eq_refl)].
Qed.


Lemma find_hash u jp : contains_char "#" u = false ->
  match find_char "#" (u ++ "#" ++ jp) with
  | Some idx => (stake idx (u ++ "#" ++ jp), Some (sdrop (S idx) (u ++ "#" ++ jp)))
  | None => (u ++ "#" ++ jp, None)
  end = (u, Some jp).
Proof.
  intros H. cbn [append]. rewrite find_char_app_first by exact H.
  rewrite stake_app_length, <- Nat.add_1_r, <- sdrop_sdrop, sdrop_app_length. reflexivity.
Qed.

(** what happens once the url part is known *)
Definition nj_url (url_part : string) (url : option string) : string :=
  if truthy_str url_part then
    match url with
    | Some u =>
        if String.eqb (u_scheme (urlparse url_part)) "" && truthy_str u then
          let up := urlparse u in
          derelativise_url (urlunparse (with_path up (join "/" [dirname (u_path up); url_part])))
        else url_part
    | None => url_part
    end
  else match url with Some u => u | None => "" end.

Lemma nj_frag u jp url : contains_char "#" u = false ->
  normalize_jr (Some (u ++ "#" ++ jp)) url =
  (if truthy_str (nj_url u url) then Ok (Some (nj_url u url ++ frag jp)) else Ok (Some ("#" ++ jp))).
Proof.
  intros H. unfold normalize_jr. rewrite (find_hash u jp H). fold (nj_url u url).
  destruct (truthy_str (nj_url u url)); [|reflexivity].
  unfold frag. destruct jp; cbn [truthy_str]; [now rewrite sapp_nil_r | reflexivity].
Qed.

Lemma nj_nofrag u url : contains_char "#" u = false ->
  normalize_jr (Some u) url =
  (if truthy_str (nj_url u url) then Ok (Some (nj_url u url)) else Err TypeError).
Proof.
  intros H. unfold normalize_jr. rewrite (proj2 (find_char_none "#" u) H). fold (nj_url u url).
  destruct (truthy_str (nj_url u url)); reflexivity.
Qed.

Lemma has_scheme_ne u : has_scheme u -> u <> "".
Proof. intros (pre & rest & -> & H & _) E. apply sapp_eq_nil in E as [E _]. contradiction. Qed.

Lemma nj_url_scheme u url : has_scheme u -> nj_url u url = u.
Proof.
  intros H. unfold nj_url. rewrite (proj2 (truthy_str_true u) (has_scheme_ne u H)).
  apply has_scheme_spec in H. rewrite H. cbn [andb]. destruct url; reflexivity.
Qed.

Lemma nj_scheme u jp url : has_scheme u -> contains_char "#" u = false ->
  normalize_jr (Some (u ++ frag jp)) url = Ok (Some (u ++ frag jp)).
Proof.
  intros H Hh. assert (Ht := proj2 (truthy_str_true u) (has_scheme_ne u H)). destruct jp as [|c jp].
  - cbn [frag]. rewrite sapp_nil_r, nj_nofrag by exact Hh. now rewrite nj_url_scheme, Ht by exact H.
  - change (frag (String c jp)) with ("#" ++ String c jp). rewrite nj_frag by exact Hh.
    now rewrite nj_url_scheme, Ht by exact H.
Qed.

Lemma nj_scheme_emptyfrag u url : has_scheme u -> contains_char "#" u = false ->
  normalize_jr (Some (u ++ "#")) url = Ok (Some u).
Proof.
  intros H Hh. assert (Ht := proj2 (truthy_str_true u) (has_scheme_ne u H)).
  change "#" with ("#" ++ ""). rewrite nj_frag by exact Hh. rewrite nj_url_scheme, Ht by exact H.
  cbn [frag]. now rewrite sapp_nil_r.
Qed.

Lemma nj_local jp url : url <> "" -> normalize_jr (Some ("#" ++ jp)) (Some url) = Ok (Some (url ++ frag jp)).
Proof.
  intros Hu. change ("#" ++ jp) with ("" ++ "#" ++ jp). rewrite nj_frag by reflexivity.
  cbn [nj_url truthy_str]. unfold nj_url. cbn [truthy_str]. now rewrite (proj2 (truthy_str_true url) Hu).
Qed.

Lemma nj_local_nourl jp : normalize_jr (Some ("#" ++ jp)) None = Ok (Some ("#" ++ jp)).
Proof. change ("#" ++ jp) with ("" ++ "#" ++ jp) at 1. now rewrite nj_frag. Qed.

Lemma slash_path_app a b : slash_path (a ++ b) = slash_path a ++ slash_path b.
Proof. induction a as [|s a IH]; cbn [app slash_path append]; [reflexivity|]. now rewrite IH, !sapp_assoc. Qed.

Lemma last_is_app_ne c a b : b <> "" -> last_is c (a ++ b) = last_is c b.
Proof.
  intros Hb. induction a as [|x a IH]; [reflexivity|]. cbn [append].
  destruct (a ++ b) as [|y r] eqn:E; [apply sapp_eq_nil in E as [_ E]; contradiction|].
  rewrite <- IH. reflexivity.
Qed.

Lemma last_is_noslash s : contains_char "/" s = false -> last_is "/" s = false.
Proof.
  induction s as [|c s IH]; [reflexivity|]. cbn [contains_char]. intros H. apply orb_false_iff in H as [Hc Hs].
  destruct s; [exact Hc | now apply IH].
Qed.

Lemma slash_path_last segs : segs <> [] -> Forall (fun s => s <> "" /\ contains_char "/" s = false) segs ->
  last_is "/" (slash_path segs) = false /\ slash_path segs <> "".
Proof.
  intros Hne Hf. split; [|destruct segs; [congruence|discriminate]].
  destruct segs as [|l segs] using rev_ind; [congruence|]. clear IHsegs Hne.
  apply Forall_app in Hf as [_ Hl]. inversion_clear Hl as [|? ? [H1 H2] _].
  rewrite slash_path_app. cbn [slash_path]. rewrite sapp_nil_r, last_is_app_ne by discriminate.
  rewrite last_is_app_ne by exact H1. now apply last_is_noslash.
Qed.

Lemma nj_url_relative s h dsegs file rsegs q :
  clean_url s h (slash_path (dsegs ++ [file])) q ->
  clean_url s h (slash_path (dsegs ++ rsegs)) q ->
  dsegs <> [] -> rsegs <> [] -> join "/" rsegs <> "" ->
  Forall (fun s => s <> "" /\ seg_ok s) dsegs -> seg_ok file -> Forall seg_ok rsegs ->
  ~ has_scheme (join "/" rsegs) ->
  nj_url (join "/" rsegs) (Some (abs_url s h (slash_path (dsegs ++ [file])) q))
  = abs_url s h (path_of (fold_left derel_step (dsegs ++ rsegs) [])) q.
Proof.
  intros Hb Hc Hd Hr Hrn Hds Hfile Hrs Hns. unfold nj_url.
  rewrite (proj2 (truthy_str_true _) Hrn).
  assert (Esch : String.eqb (u_scheme (urlparse (join "/" rsegs))) "" = true).
  { destruct (String.eqb (u_scheme (urlparse (join "/" rsegs))) "") eqn:E; [reflexivity|].
    exfalso. now apply Hns, has_scheme_spec. }
  assert (Hs1 : s <> "") by now destruct Hb.
  rewrite Esch, (proj2 (truthy_str_true _) (abs_url_ne s h _ q Hs1)). cbn [andb]. cbv zeta.
  rewrite (urlparse_abs _ _ _ _ Hb). cbn [u_path].
  assert (Hds' : Forall (fun s => s <> "" /\ contains_char "/" s = false) dsegs).
  { eapply Forall_impl; [|exact Hds]. intros x [H1 H2]. split; [exact H1|now apply seg_noslash]. }
  destruct (slash_path_last dsegs Hd Hds') as [Hl Hne].
  assert (Ed : dirname (slash_path (dsegs ++ [file])) = slash_path dsegs).
  { rewrite slash_path_app. cbn [slash_path]. rewrite sapp_nil_r.
    apply dirname_split; auto. now apply seg_noslash. }
  rewrite Ed.
  assert (Ej : join "/" [slash_path dsegs; join "/" rsegs] = slash_path (dsegs ++ rsegs)).
  { rewrite slash_path_app, (slash_join rsegs Hr). reflexivity. }
  rewrite Ej. unfold with_path. cbn [u_scheme u_netloc u_params u_query u_fragment].
  rewrite (urlunparse_clean _ _ _ _ Hc). apply derelativise_abs; [exact Hc | | ].
  - destruct dsegs; [congruence|discriminate].
  - apply Forall_app. split; [|exact Hrs]. eapply Forall_impl; [|exact Hds]. intros x [_ H]. exact H.
Qed.

(** a document directly below the root: the directory is "/", so an empty segment appears *)
Lemma nj_url_root s h file rsegs q :
  clean_url s h (slash_path [file]) q -> clean_url s h (slash_path ("" :: rsegs)) q ->
  rsegs <> [] -> join "/" rsegs <> "" -> seg_ok file -> Forall seg_ok rsegs ->
  ~ has_scheme (join "/" rsegs) ->
  nj_url (join "/" rsegs) (Some (abs_url s h (slash_path [file]) q))
  = abs_url s h (path_of (fold_left derel_step ("" :: rsegs) [])) q.
Proof.
  intros Hb Hc Hr Hrn Hfile Hrs Hns. unfold nj_url.
  rewrite (proj2 (truthy_str_true _) Hrn).
  assert (Esch : String.eqb (u_scheme (urlparse (join "/" rsegs))) "" = true).
  { destruct (String.eqb (u_scheme (urlparse (join "/" rsegs))) "") eqn:E; [reflexivity|].
    exfalso. now apply Hns, has_scheme_spec. }
  assert (Hs1 : s <> "") by now destruct Hb.
  rewrite Esch, (proj2 (truthy_str_true _) (abs_url_ne s h _ q Hs1)). cbn [andb]. cbv zeta.
  rewrite (urlparse_abs _ _ _ _ Hb). cbn [u_path].
  assert (Ed : dirname (slash_path [file]) = "/").
  { cbn [slash_path]. rewrite sapp_nil_r. apply dirname_root. now apply seg_noslash. }
  rewrite Ed.
  assert (Ej : join "/" ["/"; join "/" rsegs] = slash_path ("" :: rsegs)).
  { cbn [slash_path]. rewrite (slash_join rsegs Hr). reflexivity. }
  rewrite Ej. unfold with_path. cbn [u_scheme u_netloc u_params u_query u_fragment].
  rewrite (urlunparse_clean _ _ _ _ Hc). apply derelativise_abs; [exact Hc | discriminate | ].
  constructor; [apply free_of_nil | exact Hrs].
Qed.

Lemma join_free segs c : (Forall (fun s => contains_char c s = false) segs) -> c <> "/"%char -> contains_char c (join "/" segs) = false.
Proof.
  intros H Hc. induction segs as [|s segs IH]; [reflexivity|]. inversion_clear H as [|? ? Hs Hr].
  destruct segs as [|t segs]; [exact Hs|]. rewrite join_cons, !contains_char_app, Hs, (IH Hr).
  cbn [contains_char orb]. rewrite ascii_eqb_neq by congruence. reflexivity.
Qed.

Lemma path_of_ne_rel out : path_of out <> "".
Proof. destruct out; discriminate. Qed.

Lemma nj_relative s h dsegs file rsegs q jp :
  clean_url s h (slash_path (dsegs ++ [file])) q ->
  clean_url s h (slash_path (dsegs ++ rsegs)) q ->
  dsegs <> [] -> rsegs <> [] -> join "/" rsegs <> "" ->
  Forall (fun s => s <> "" /\ seg_ok s) dsegs -> seg_ok file -> Forall seg_ok rsegs ->
  ~ has_scheme (join "/" rsegs) ->
  normalize_jr (Some (join "/" rsegs ++ frag jp)) (Some (abs_url s h (slash_path (dsegs ++ [file])) q))
  = Ok (Some (abs_url s h (path_of (fold_left derel_step (dsegs ++ rsegs) [])) q ++ frag jp)).
Proof.
  intros Hb Hc Hd Hr Hrn Hds Hfile Hrs Hns.
  assert (Hs1 : s <> "") by now destruct Hb.
  pose proof (nj_url_relative s h dsegs file rsegs q Hb Hc Hd Hr Hrn Hds Hfile Hrs Hns) as E.
  assert (Hh : contains_char "#" (join "/" rsegs) = false).
  { apply join_free; [|discriminate]. eapply Forall_impl; [|exact Hrs]. intros x Hx. now apply (free_of_contains _ _ "#" Hx). }
  assert (Ht := proj2 (truthy_str_true _) (abs_url_ne s h (path_of (fold_left derel_step (dsegs ++ rsegs) [])) q Hs1)).
  destruct jp as [|c jp].
  - cbn [frag]. rewrite !sapp_nil_r, nj_nofrag by exact Hh. now rewrite E, Ht.
  - change (frag (String c jp)) with ("#" ++ String c jp). rewrite nj_frag by exact Hh. now rewrite E, Ht.
Qed.

Lemma nj_root s h file rsegs q jp :
  clean_url s h (slash_path [file]) q -> clean_url s h (slash_path ("" :: rsegs)) q ->
  rsegs <> [] -> join "/" rsegs <> "" -> seg_ok file -> Forall seg_ok rsegs ->
  ~ has_scheme (join "/" rsegs) ->
  normalize_jr (Some (join "/" rsegs ++ frag jp)) (Some (abs_url s h (slash_path [file]) q))
  = Ok (Some (abs_url s h (path_of (fold_left derel_step ("" :: rsegs) [])) q ++ frag jp)).
Proof.
  intros Hb Hc Hr Hrn Hfile Hrs Hns.
  assert (Hs1 : s <> "") by now destruct Hb.
  pose proof (nj_url_root s h file rsegs q Hb Hc Hr Hrn Hfile Hrs Hns) as E.
  assert (Hh : contains_char "#" (join "/" rsegs) = false).
  { apply join_free; [|discriminate]. eapply Forall_impl; [|exact Hrs]. intros x Hx. now apply (free_of_contains _ _ "#" Hx). }
  assert (Ht := proj2 (truthy_str_true _) (abs_url_ne s h (path_of (fold_left derel_step ("" :: rsegs) [])) q Hs1)).
  destruct jp as [|c jp].
  - cbn [frag]. rewrite !sapp_nil_r, nj_nofrag by exact Hh. now rewrite E, Ht.
  - change (frag (String c jp)) with ("#" ++ String c jp). rewrite nj_frag by exact Hh. now rewrite E, Ht.
Qed.

(** ** patch_path *)
Lemma splitext_suffix p : exists r, p = r ++ splitext_ext p.
Proof.
  unfold splitext_ext. assert (Hl : exists d, p = d ++ last_component p).
  { unfold last_component. destruct (rfind_char "/" p) as [i|]; [|now exists ""].
    exists (stake (S i) p). now rewrite stake_sdrop. }
  destruct Hl as [d Hd]. set (f := last_component p) in *. clearbody f. subst p.
  destruct (rfind_char "." f) as [i|]; [|exists (d ++ f); now rewrite sapp_nil_r].
  destruct (all_chars (Ascii.eqb ".") (stake i f)); [exists (d ++ f); now rewrite sapp_nil_r|].
  exists (d ++ stake i f). now rewrite sapp_assoc, stake_sdrop.
Qed.


Lemma valid_ext_spec e : str_in e VALID_FILE_EXT = true <-> valid_ext e.
Proof.
  unfold str_in, VALID_FILE_EXT, valid_ext. cbn [existsb].
  rewrite !orb_true_iff, !String.eqb_eq. intuition discriminate.
Qed.

Definition chosen_ext (base path : string) : string :=
  if str_in (splitext_ext base) VALID_FILE_EXT then splitext_ext base
  else if str_in (splitext_ext path) VALID_FILE_EXT then splitext_ext path else ".json".

Lemma patch_path_chosen base path :
  patch_path base path = if endswith (chosen_ext base path) path then path else path ++ chosen_ext base path.
Proof.
  unfold patch_path, chosen_ext.
  destruct (str_in (splitext_ext base) VALID_FILE_EXT) eqn:E1.
  - apply valid_ext_spec in E1 as H. destruct H as [H|[H|H]]; rewrite H; reflexivity.
  - change (String.eqb "" "") with true. cbv iota.
    destruct (str_in (splitext_ext path) VALID_FILE_EXT) eqn:E2; [|reflexivity].
    apply valid_ext_spec in E2 as H. destruct H as [H|[H|H]]; rewrite H; reflexivity.
Qed.

Lemma chosen_valid base path : valid_ext (chosen_ext base path).
Proof.
  unfold chosen_ext. destruct (str_in (splitext_ext base) VALID_FILE_EXT) eqn:E1; [now apply valid_ext_spec|].
  destruct (str_in (splitext_ext path) VALID_FILE_EXT) eqn:E2; [now apply valid_ext_spec | now left].
Qed.

Lemma contains_slash_json : contains_char "/" ".json" = false. Proof. reflexivity. Qed.

Lemma rfind_app_r c a b i : rfind_char c b = Some i -> rfind_char c (a ++ b) = Some (String.length a + i).
Proof. intros H. induction a as [|x a IH]; [exact H|]. cbn [append rfind_char]. now rewrite IH. Qed.
Lemma rfind_app_l c a b : rfind_char c b = None -> rfind_char c (a ++ b) = rfind_char c a.
Proof. intros H. induction a as [|x a IH]; [exact H|]. cbn [append rfind_char]. now rewrite IH. Qed.

Lemma last_component_app p e : contains_char "/" e = false -> last_component (p ++ e) = last_component p ++ e.
Proof.
  intros H. unfold last_component. apply rfind_char_none in H. rewrite rfind_app_l by exact H.
  destruct (rfind_char "/" p) as [i|] eqn:E; [|reflexivity].
  apply rfind_char_some in E as (_ & _ & Hl). rewrite sdrop_app_le; [reflexivity|lia].
Qed.

Lemma splitext_app_json p : splitext_ext (p ++ ".json") = ".json" \/ splitext_ext (p ++ ".json") = "".
Proof.
  unfold splitext_ext. rewrite last_component_app by reflexivity.
  rewrite (rfind_app_r "." (last_component p) ".json" 0) by reflexivity.
  destruct (all_chars _ _); [now right|]. left. rewrite Nat.add_0_r. apply sdrop_app_length.
Qed.

Lemma patch_path_idem base path : patch_path base (patch_path base path) = patch_path base path.
Proof.
  rewrite (patch_path_chosen base (patch_path base path)).
  enough (H : endswith (chosen_ext base (patch_path base path)) (patch_path base path) = true) by now rewrite H.
  rewrite (patch_path_chosen base path). unfold chosen_ext.
  destruct (str_in (splitext_ext base) VALID_FILE_EXT) eqn:E1.
  - destruct (endswith (splitext_ext base) path) eqn:E; [exact E | apply endswith_app].
  - destruct (str_in (splitext_ext path) VALID_FILE_EXT) eqn:E2.
    + assert (Hs : endswith (splitext_ext path) path = true) by (apply endswith_spec; apply splitext_suffix).
      rewrite Hs, E2. exact Hs.
    + destruct (endswith ".json" path) eqn:E3.
      * rewrite E2. exact E3.
      * destruct (splitext_app_json path) as [H|H]; rewrite H; cbn; apply endswith_app.
Qed.

Lemma patch_path_result base path :
  exists e, valid_ext e /\ endswith e (patch_path base path) = true /\
            (patch_path base path = path \/ patch_path base path = path ++ e).
Proof.
  exists (chosen_ext base path). split; [apply chosen_valid|]. rewrite patch_path_chosen.
  destruct (endswith (chosen_ext base path) path) eqn:E; [auto|]. split; [apply endswith_app | auto].
Qed.
