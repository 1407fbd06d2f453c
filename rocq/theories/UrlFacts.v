(** Proofs about urls. *)
From Coq Require Import String Ascii List Bool Arith Lia NArith.
From Verif Require Import PyStr PyStrFacts PyVal UrlLib Urls SpecUrl.
Import ListNotations.
Open Scope string_scope.

(** ** characters *)
Lemma in_chars c s : In c (chars s) <-> contains_char c s = true.
Proof.
  induction s as [|x s IH]; simpl; [split; [tauto|discriminate]|].
  rewrite orb_true_iff, <- IH, Ascii.eqb_eq. tauto.
Qed.

Lemma free_of_contains bad s c : free_of bad s -> contains_char c bad = true -> contains_char c s = false.
Proof.
  intros Hf Hc. destruct (contains_char c s) eqn:E; [|reflexivity].
  apply in_chars in E, Hc. exfalso. exact (Hf c E Hc).
Qed.

Lemma free_of_nil s : free_of s "".
Proof. intros c []. Qed.

Lemma chars_app a b : chars (a ++ b) = (chars a ++ chars b)%list.
Proof. induction a as [|x a IH]; simpl; [reflexivity | now rewrite IH]. Qed.

Lemma free_of_app bad a b : free_of bad (a ++ b) <-> free_of bad a /\ free_of bad b.
Proof.
  unfold free_of. rewrite chars_app. split.
  - intros H. split; intros c Hc; apply H, in_or_app; auto.
  - intros [Ha Hb] c Hc. apply in_app_or in Hc as [Hc|Hc]; [now apply Ha | now apply Hb].
Qed.

Lemma scheme_letter_props c : scheme_letter c -> is_scheme_char c = true /\ lower_char c = c /\ c <> ":"%char.
Proof.
  unfold scheme_letter. rewrite in_chars. intros H.
  destruct c as [[] [] [] [] [] [] [] []]; cbn in H; try discriminate H; repeat split; try discriminate; reflexivity.
Qed.

Lemma scheme_char_bool c : scheme_char c <-> is_scheme_char c = true.
Proof.
  unfold scheme_char. rewrite in_chars.
  destruct c as [[] [] [] [] [] [] [] []]; cbn; split; intros H; try reflexivity; discriminate H.
Qed.

Lemma digit_bool c : In c (chars "0123456789") <-> is_digit c = true.
Proof.
  rewrite in_chars.
  destruct c as [[] [] [] [] [] [] [] []]; cbn; split; intros H; try reflexivity; discriminate H.
Qed.

Lemma Forall_chars (P : ascii -> Prop) (p : ascii -> bool) s :
  (forall c, P c <-> p c = true) -> (Forall P (chars s) <-> all_chars p s = true).
Proof.
  intros HP. induction s as [|c s IH]; simpl; [split; auto|].
  rewrite andb_true_iff, <- IH, <- HP. split; [intros H; inversion H; auto | intros []; constructor; auto].
Qed.

Lemma scheme_ok s : Forall scheme_letter (chars s) ->
  all_chars is_scheme_char s = true /\ lower s = s /\ contains_char ":" s = false.
Proof.
  induction s as [|c s IH]; simpl; intros H; [auto|]. inversion_clear H as [|? ? Hc Hs].
  destruct (IH Hs) as (H1 & H2 & H3). destruct (scheme_letter_props c Hc) as (Ha & Hb & Hn).
  rewrite Ha, H1, Hb, H2, H3, orb_false_r. repeat split. now apply ascii_eqb_neq.
Qed.

(** ** parsing a clean absolute url *)
Lemma split_scheme_abs sch x :
  sch <> "" -> Forall scheme_letter (chars sch) -> split_scheme (sch ++ ":" ++ "//" ++ x) = (sch, "//" ++ x).
Proof.
  intros Hne Hs. destruct (scheme_ok sch Hs) as (H1 & H2 & H3). unfold split_scheme.
  cbn [append]. rewrite find_char_app_first by exact H3.
  destruct (String.length sch) as [|n] eqn:El; [destruct sch; [congruence|discriminate]|].
  rewrite <- El. rewrite stake_app_length.
  assert (Hd : sdrop (S (String.length sch)) (sch ++ String ":" (String "/" (String "/" x))) = String "/" (String "/" x)).
  { rewrite <- Nat.add_1_r, <- sdrop_sdrop, sdrop_app_length. reflexivity. }
  rewrite Hd, H1, H2. cbn [truthy_str all_chars andb]. 
  change (is_digit "/") with false. cbn [andb negb]. now rewrite orb_true_r.
Qed.

Lemma span_netloc_host host rest :
  free_of "/?#" host -> (rest = "" \/ exists c r, rest = String c r /\ is_netloc_end c = true) ->
  span_netloc (host ++ rest) = (host, rest).
Proof.
  intros Hf Hr. induction host as [|c host IH]; cbn [append].
  - destruct Hr as [->|(c & r & -> & Hc)]; [reflexivity|]. cbn [span_netloc]. now rewrite Hc.
  - change (String c host) with (String c "" ++ host) in Hf. apply free_of_app in Hf as [Hc Hh].
    cbn [span_netloc]. assert (E : is_netloc_end c = false).
    { unfold is_netloc_end. specialize (Hc c (or_introl eq_refl)).
      cbn [chars In] in Hc. rewrite !orb_false_iff, !Ascii.eqb_neq. repeat split; intros ->; apply Hc; simpl; auto. }
    rewrite E. rewrite (IH Hh). reflexivity.
Qed.

Lemma split_at_none c s : contains_char c s = false -> split_at c s = (s, "").
Proof. intros H. unfold split_at. now rewrite (proj2 (find_char_none c s) H). Qed.

Lemma split_at_app c a b : contains_char c a = false -> split_at c (a ++ String c b) = (a, b).
Proof.
  intros H. unfold split_at. rewrite find_char_app_first by exact H.
  rewrite stake_app_length, <- Nat.add_1_r, <- sdrop_sdrop, sdrop_app_length. reflexivity.
Qed.

Lemma split_params_none sch p : contains_char ";" p = false -> split_params sch p = (p, "").
Proof. intros H. unfold split_params. now rewrite H, andb_false_r. Qed.

Definition qpart (q : string) : string := match q with "" => "" | _ => "?" ++ q end.

Lemma abs_url_eq s h p q : abs_url s h p q = s ++ ":" ++ "//" ++ h ++ p ++ qpart q.
Proof. unfold abs_url, qpart. destruct q; reflexivity. Qed.

Lemma qpart_nohash q : free_of "#" q -> contains_char "#" (qpart q) = false.
Proof.
  intros H. unfold qpart. destruct q as [|c q]; [reflexivity|].
  rewrite contains_char_app, (free_of_contains _ _ "#" H eq_refl). reflexivity.
Qed.

Lemma split_q p q : contains_char "?" p = false -> split_at "?" (p ++ qpart q) = (p, q).
Proof.
  intros H. unfold qpart. destruct q as [|c q].
  - rewrite sapp_nil_r. now apply split_at_none.
  - cbn [append]. now apply split_at_app.
Qed.

Lemma urlparse_abs_gen s h p q f tail :
  clean_url s h p q -> (tail = "" /\ f = "" \/ tail = "#" ++ f) ->
  urlparse (abs_url s h p q ++ tail) = mk_purl s h p "" q f.
Proof.
  intros (Hs1 & Hs2 & Hh & Hp & Hq & Hp2 & Hh2) Ht. rewrite abs_url_eq, !sapp_assoc.
  unfold urlparse. rewrite split_scheme_abs by assumption.
  unfold split_netloc. change (startswith "//" ("//" ++ h ++ p ++ qpart q ++ tail)) with true. cbv iota.
  change (sdrop 2 ("//" ++ h ++ p ++ qpart q ++ tail)) with (h ++ p ++ qpart q ++ tail).
  rewrite span_netloc_host; [|exact Hh|].
  2:{ destruct Hp2 as [->|[p' ->]].
      - unfold qpart. destruct q as [|c q]; cbn [append].
        + destruct Ht as [[-> _]| ->]; [now left | right; cbn [append]; eauto].
        + right. eauto.
      - right. cbn [append]. eauto. }
  assert (E : split_at "#" (p ++ qpart q ++ tail) = (p ++ qpart q, f)).
  { assert (Hn : contains_char "#" (p ++ qpart q) = false).
    { rewrite contains_char_app, (qpart_nohash q Hq), orb_false_r.
      now apply (free_of_contains _ _ "#" Hp). }
    rewrite <- sapp_assoc. destruct Ht as [[-> ->]| ->].
    - rewrite sapp_nil_r. now apply split_at_none.
    - cbn [append]. now apply split_at_app. }
  rewrite E. rewrite split_q by now apply (free_of_contains _ _ "?" Hp).
  rewrite split_params_none by now apply (free_of_contains _ _ ";" Hp). reflexivity.
Qed.

Lemma urlparse_abs s h p q : clean_url s h p q -> urlparse (abs_url s h p q) = mk_purl s h p "" q "".
Proof. intros H. rewrite <- (sapp_nil_r (abs_url s h p q)). apply urlparse_abs_gen; auto. Qed.

Lemma no_double_prefix p : no_double_slash p -> startswith "//" p = false.
Proof.
  intros H. destruct (startswith "//" p) eqn:E; [|reflexivity].
  apply startswith_spec in E as [r ->]. exfalso. exact (H "" r eq_refl).
Qed.

Lemma unsplit_core (s h p : string) :
  s <> "" -> (p = "" \/ exists p', p = String "/" p') ->
  (h <> "" \/ (s = "file" /\ startswith "//" p = false)) ->
  (let url := if truthy_str h || (truthy_str s && str_in s uses_netloc && negb (startswith "//" p))
              then "//" ++ h ++ (if truthy_str p && negb (first_is "/" p) then "/" ++ p else p) else p in
   if truthy_str s then s ++ ":" ++ url else url) = s ++ ":" ++ "//" ++ h ++ p.
Proof.
  intros Hs Hp Hh. cbv zeta. rewrite (proj2 (truthy_str_true s) Hs).
  assert (E : truthy_str h || (true && str_in s uses_netloc && negb (startswith "//" p)) = true).
  { destruct Hh as [Hh|[-> Hn]].
    - now rewrite (proj2 (truthy_str_true h) Hh).
    - rewrite Hn. rewrite orb_true_iff. right. reflexivity. }
  rewrite E. assert (E2 : (if truthy_str p && negb (first_is "/" p) then "/" ++ p else p) = p).
  { destruct Hp as [->|[p' ->]]; reflexivity. }
  now rewrite E2.
Qed.

(** unparsing: only the path matters *)
Lemma urlunparse_abs s h p q :
  s <> "" -> (p = "" \/ exists p', p = String "/" p') ->
  (h <> "" \/ (s = "file" /\ startswith "//" p = false)) ->
  urlunparse (mk_purl s h p "" q "") = abs_url s h p q.
Proof.
  intros Hs Hp Hh. unfold urlunparse, urlunsplit. cbn [u_params u_path u_scheme u_netloc u_query u_fragment truthy_str].
  pose proof (unsplit_core s h p Hs Hp Hh) as E. cbv zeta in E. rewrite E.
  rewrite abs_url_eq. unfold qpart. destruct q as [|c q]; cbn [truthy_str]; [now rewrite !sapp_nil_r|].
  now rewrite !sapp_assoc.
Qed.

Lemma urlunparse_clean s h p q : clean_url s h p q -> urlunparse (mk_purl s h p "" q "") = abs_url s h p q.
Proof.
  intros (Hs1 & Hs2 & Hh & Hp & Hq & Hp2 & Hh2). apply urlunparse_abs; auto.
  destruct Hh2 as [H|[H1 H2]]; [auto|]. right. split; [exact H1|]. now apply no_double_prefix.
Qed.

Lemma urlparse_unparse_abs s h p q :
  clean_url s h p q -> urlunparse (urlparse (abs_url s h p q)) = abs_url s h p q.
Proof. intros H. rewrite (urlparse_abs _ _ _ _ H). now apply urlunparse_clean. Qed.

(** ** jr_split *)
Lemma windows_abs s h p q : Forall scheme_letter (chars s) -> windows_prefix (abs_url s h p q) = false.
Proof.
  intros Hs. rewrite abs_url_eq. destruct s as [|c [|d s]].
  - reflexivity.
  - cbn. destruct c as [[] [] [] [] [] [] [] []]; reflexivity.
  - inversion_clear Hs as [|? ? Hc Hs']. inversion_clear Hs' as [|? ? Hd Hs].
    destruct (scheme_letter_props d Hd) as (_ & _ & Hn). cbn [append windows_prefix].
    destruct d as [[] [] [] [] [] [] [] []]; try reflexivity; congruence.
Qed.

Lemma abs_url_ne s h p q : s <> "" -> abs_url s h p q <> "".
Proof. rewrite abs_url_eq. destruct s; [congruence|discriminate]. Qed.

Lemma normalize_url_abs p2u ap s h p q : clean_url s h p q -> normalize_url p2u ap (abs_url s h p q) = Ok (abs_url s h p q).
Proof.
  intros H. pose proof H as (Hs1 & Hs2 & _). unfold normalize_url.
  rewrite (proj2 (truthy_str_true _) (abs_url_ne s h p q Hs1)). cbn [negb].
  rewrite windows_abs by exact Hs2. rewrite (urlparse_abs _ _ _ _ H). cbn [u_scheme].
  destruct (String.eqb_spec s ""); [contradiction|reflexivity].
Qed.

Lemma jr_split_abs p2u ap s h p q f :
  clean_url s h p q ->
  jr_split p2u ap (abs_url s h p q ++ "#" ++ f) = Ok (abs_url s h p q, "#" ++ f).
Proof.
  intros H. unfold jr_split. rewrite (urlparse_abs_gen s h p q f ("#" ++ f) H) by auto.
  cbn [u_scheme u_netloc u_path u_params u_query u_fragment].
  rewrite (urlunparse_clean _ _ _ _ H), (normalize_url_abs p2u ap _ _ _ _ H). cbn [bind].
  destruct f; reflexivity.
Qed.

Lemma jr_split_nofrag p2u ap s h p q :
  clean_url s h p q -> jr_split p2u ap (abs_url s h p q) = Ok (abs_url s h p q, "#").
Proof.
  intros H. unfold jr_split. rewrite (urlparse_abs s h p q H).
  cbn [u_scheme u_netloc u_path u_params u_query u_fragment].
  rewrite (urlunparse_clean _ _ _ _ H), (normalize_url_abs p2u ap _ _ _ _ H). reflexivity.
Qed.

Lemma jr_split_local p2u ap f : jr_split p2u ap ("#" ++ f) = Ok ("", "#" ++ f).
Proof.
  unfold jr_split.
  assert (E : urlparse ("#" ++ f) = mk_purl "" "" "" "" "" f).
  { unfold urlparse, split_scheme. cbn [append find_char].
    change (Ascii.eqb "#" ":") with false. cbv iota.
    assert (Es : match match find_char ":" f with Some n => Some (S n) | None => None end with
                 | Some (S _ as i) =>
                     if all_chars is_scheme_char (stake i (String "#" f)) &&
                        (String.eqb (stake i (String "#" f)) "http" ||
                         negb (truthy_str (sdrop (S i) (String "#" f)) && all_chars is_digit (sdrop (S i) (String "#" f))))
                     then (lower (stake i (String "#" f)), sdrop (S i) (String "#" f)) else ("", String "#" f)
                 | _ => ("", String "#" f)
                 end = ("", String "#" f)).
    { destruct (find_char ":" f); reflexivity. }
    rewrite Es. reflexivity. }
  rewrite E. cbn. destruct f; reflexivity.
Qed.

(** ** has_scheme *)
Lemma has_scheme_spec s : has_scheme s <-> String.eqb (u_scheme (urlparse s)) "" = false.
Proof.
  assert (Hu : u_scheme (urlparse s) = fst (split_scheme s)).
  { unfold urlparse. destruct (split_scheme s) as [a b]. destruct (split_netloc b) as [c d].
    destruct (split_at "#" d) as [e f]. destruct (split_at "?" e) as [g i].
    destruct (split_params a g). reflexivity. }
  rewrite Hu, String.eqb_neq. unfold has_scheme, split_scheme. split.
  - intros (pre & rest & -> & Hne & Hf & Hr).
    assert (Hp : all_chars is_scheme_char pre = true) by now apply (Forall_chars scheme_char), Hf; apply scheme_char_bool.
    assert (Hc : contains_char ":" pre = false) by (eapply all_chars_contains; [exact Hp | reflexivity]).
    cbn [append]. rewrite find_char_app_first by exact Hc.
    destruct (String.length pre) as [|n] eqn:El; [destruct pre; [congruence|discriminate]|].
    rewrite <- El, stake_app_length.
    assert (Hd : sdrop (S (String.length pre)) (pre ++ String ":" rest) = rest).
    { now rewrite <- Nat.add_1_r, <- sdrop_sdrop, sdrop_app_length. }
    rewrite Hd, Hp. cbn [andb].
    assert (Hb : String.eqb pre "http" || negb (truthy_str rest && all_chars is_digit rest) = true).
    { destruct Hr as [->|[->|Hr]]; [reflexivity | apply orb_true_r |].
      rewrite orb_true_iff. right. rewrite negb_true_iff, andb_false_iff. right.
      destruct (all_chars is_digit rest) eqn:E; [|reflexivity].
      exfalso. apply Hr. apply (Forall_chars _ is_digit); [apply digit_bool | exact E]. }
    rewrite Hb. cbn [fst]. destruct pre; [congruence|discriminate].
  - destruct (find_char ":" s) as [[|n]|] eqn:E; cbn [fst]; try congruence.
    apply find_char_some in E as (Es & Ec & El). remember (stake (S n) s) as pre.
    remember (sdrop (S (S n)) s) as rest.
    destruct (all_chars is_scheme_char pre) eqn:Ep; cbn [andb fst]; [|congruence].
    destruct (String.eqb pre "http" || negb (truthy_str rest && all_chars is_digit rest)) eqn:Eb; cbn [fst]; [|congruence].
    intros _. exists pre, rest. repeat split.
    + exact Es.
    + subst pre. destruct s; [cbn in El; lia | discriminate].
    + apply (Forall_chars scheme_char is_scheme_char); [apply scheme_char_bool | exact Ep].
    + apply orb_true_iff in Eb as [Eb|Eb]; [left; now apply String.eqb_eq|].
      apply negb_true_iff, andb_false_iff in Eb as [Eb|Eb].
      * right. left. now apply truthy_str_false.
      * right. right. intros H. apply (Forall_chars _ is_digit) in H; [congruence | apply digit_bool].
Qed.

Lemma clean_has_scheme s h p q t : clean_url s h p q -> has_scheme (abs_url s h p q ++ t).
Proof.
  intros (Hs1 & Hs2 & _). rewrite abs_url_eq. exists s, ("//" ++ (h ++ p ++ qpart q) ++ t). repeat split.
  - now rewrite !sapp_assoc.
  - exact Hs1.
  - apply (Forall_chars scheme_char is_scheme_char); [apply scheme_char_bool|]. now apply scheme_ok.
  - right. right. intros H. inversion H as [|? ? H0 _]; subst. apply digit_bool in H0. discriminate.
Qed.

(** ** dot segments *)
Lemma up_spec s : up s <-> (String.eqb s ".." || is_dots3 s) = true.
Proof.
  unfold up, is_dots3.
  assert (Hf : Forall (fun c => c = "."%char) (chars s) <-> all_chars (Ascii.eqb ".") s = true).
  { apply Forall_chars. intros c. rewrite Ascii.eqb_eq. split; congruence. }
  rewrite Hf, orb_true_iff, andb_true_iff, Nat.leb_le, String.eqb_eq. split.
  - intros [Hl Ha]. destruct (Nat.eq_dec (String.length s) 2) as [E|E]; [left|right; split; [lia|exact Ha]].
    destruct s as [|a [|b [|c s]]]; try discriminate E.
    cbn [all_chars] in Ha. apply andb_true_iff in Ha as [Ha Hb]. apply andb_true_iff in Hb as [Hb _].
    apply Ascii.eqb_eq in Ha, Hb. now subst.
  - intros [->|[Hl Ha]]; [split; [simpl; lia|reflexivity] | split; [lia|exact Ha]].
Qed.

Lemma plain_spec s : plain s <-> String.eqb s "." = false /\ String.eqb s ".." = false /\ is_dots3 s = false.
Proof.
  unfold plain. rewrite up_spec. unfold here. rewrite <- String.eqb_eq, not_true_iff_false, not_true_iff_false, orb_false_iff. tauto.
Qed.

Lemma derel_here acc s : here s -> derel_step acc s = acc.
Proof. intros ->. reflexivity. Qed.
Lemma derel_up acc s : up s -> derel_step acc s = removelast acc.
Proof.
  intros H. apply up_spec in H. unfold derel_step.
  destruct (String.eqb_spec s ".") as [->|]; [discriminate H|].
  destruct (String.eqb s ".."); [reflexivity|]. cbn [orb] in H. now rewrite H.
Qed.
Lemma derel_plain acc s : plain s -> derel_step acc s = (acc ++ [s])%list.
Proof. intros H. apply plain_spec in H as (H1 & H2 & H3). unfold derel_step. now rewrite H1, H2, H3. Qed.

Lemma seg_cases s : here s \/ up s \/ plain s.
Proof.
  destruct (String.eqb_spec s ".") as [->|H1]; [left; reflexivity|].
  destruct (String.eqb s ".." || is_dots3 s) eqn:E; [right; left; now apply up_spec|].
  right. right. apply plain_spec. apply orb_false_iff in E as [E1 E2]. repeat split; auto. now apply String.eqb_neq.
Qed.

Lemma dot_steps_trans a b c : dot_steps a b -> dot_steps b c -> dot_steps a c.
Proof. induction 1; auto. intros. econstructor; eauto. Qed.

Lemma removelast_app_single {A} (l : list A) x : removelast (l ++ [x]) = l.
Proof. now rewrite removelast_app by discriminate; simpl; rewrite app_nil_r. Qed.

Lemma derel_fold_steps segs acc :
  Forall plain acc ->
  dot_steps (acc ++ segs) (fold_left derel_step segs acc) /\ Forall plain (fold_left derel_step segs acc).
Proof.
  revert acc; induction segs as [|s segs IH]; intros acc Ha; cbn [fold_left].
  - rewrite app_nil_r. split; [constructor | exact Ha].
  - destruct (seg_cases s) as [Hh|[Hu|Hp]].
    + rewrite derel_here by exact Hh. destruct (IH acc Ha) as [H1 H2]. split; [|exact H2].
      econstructor; [apply ds_here; exact Hh | exact H1].
    + rewrite derel_up by exact Hu. destruct acc as [|x acc] using rev_ind.
      * destruct (IH [] Ha) as [H1 H2]. split; [|exact H2].
        econstructor; [apply ds_root; exact Hu | exact H1].
      * clear IHacc. rewrite removelast_app_single. apply Forall_app in Ha as [Ha Hx].
        inversion_clear Hx. destruct (IH acc Ha) as [H1 H2]. split; [|exact H2].
        rewrite <- app_assoc. cbn [app]. econstructor; [apply ds_up; assumption | exact H1].
    + rewrite derel_plain by exact Hp. destruct (IH (acc ++ [s])%list) as [H1 H2].
      { apply Forall_app. split; [exact Ha|]. constructor; [exact Hp|constructor]. }
      split; [|exact H2]. now rewrite <- app_assoc in H1.
Qed.

Lemma dot_step_fold a b : dot_step a b -> fold_left derel_step a [] = fold_left derel_step b [].
Proof.
  intros H. destruct H as [a s b Hh|a x s b Hx Hu|s b Hu].
  - rewrite !fold_left_app. cbn [fold_left]. now rewrite derel_here.
  - rewrite !fold_left_app. cbn [fold_left]. rewrite (derel_plain _ x) by exact Hx.
    rewrite (derel_up _ s) by exact Hu. now rewrite removelast_app_single.
  - cbn [fold_left]. now rewrite derel_up.
Qed.

Lemma derel_fold_plain l acc : Forall plain l -> fold_left derel_step l acc = (acc ++ l)%list.
Proof.
  revert acc; induction l as [|s l IH]; intros acc H; cbn [fold_left]; [now rewrite app_nil_r|].
  inversion_clear H. rewrite derel_plain, IH by assumption. now rewrite <- app_assoc.
Qed.

Lemma dots_removed_fold segs out : dots_removed segs out <-> out = fold_left derel_step segs [].
Proof.
  split.
  - intros [H Hp]. transitivity (fold_left derel_step out []); [now rewrite derel_fold_plain|].
    symmetry. clear Hp. induction H as [|a b c H1 H2 IH]; [reflexivity|].
    rewrite <- IH. now apply dot_step_fold.
  - intros ->. pose proof (derel_fold_steps segs [] (Forall_nil _)) as H. exact H.
Qed.

(** subsequence facts needed for the cleanness of the result *)
Lemma derel_fold_Forall (P : string -> Prop) segs acc :
  Forall P acc -> Forall P segs -> Forall P (fold_left derel_step segs acc).
Proof.
  revert acc; induction segs as [|s segs IH]; intros acc Ha Hs; cbn [fold_left]; [exact Ha|].
  inversion_clear Hs as [|? ? Hs1 Hs2]. apply IH; [|exact Hs2].
  destruct (seg_cases s) as [Hh|[Hu|Hp]].
  - now rewrite derel_here.
  - rewrite derel_up by exact Hu. destruct acc as [|x acc] using rev_ind; [constructor|].
    rewrite removelast_app_single. now apply Forall_app in Ha as [Ha _].
  - rewrite derel_plain by exact Hp. apply Forall_app. auto.
Qed.


Lemma slash_join segs : segs <> [] -> slash_path segs = "/" ++ join "/" segs.
Proof.
  induction segs as [|s segs IH]; [congruence|]. intros _. destruct segs as [|t segs].
  - cbn. now rewrite sapp_nil_r.
  - change (slash_path (s :: t :: segs)) with ("/" ++ s ++ slash_path (t :: segs)).
    rewrite IH by discriminate. reflexivity.
Qed.

Lemma path_of_join out : "/" ++ join "/" out = path_of out.
Proof. destruct out as [|s out]; [reflexivity|]. unfold path_of. now rewrite slash_join by discriminate. Qed.


Lemma seg_noslash s : seg_ok s -> contains_char "/" s = false.
Proof. intros H. now apply (free_of_contains _ _ "/" H). Qed.

Lemma free_sub bad bad' s : free_of bad s -> (forall c, In c (chars bad') -> In c (chars bad)) -> free_of bad' s.
Proof. intros H Hi c Hc Hb. exact (H c Hc (Hi c Hb)). Qed.

Lemma seg_ok_path s : seg_ok s -> free_of "?#;" s.
Proof. intros H. eapply free_sub; [exact H|]. cbn; tauto. Qed.

Lemma slash_path_free segs : Forall seg_ok segs -> free_of "?#;" (slash_path segs).
Proof.
  induction 1 as [|s segs Hs Hf IH]; [apply free_of_nil|]. cbn [slash_path].
  apply free_of_app. split; [intros c [<-|[]]; cbn; intuition discriminate|].
  apply free_of_app. split; [now apply seg_ok_path | exact IH].
Qed.

Lemma path_of_free segs : Forall seg_ok segs -> free_of "?#;" (path_of segs).
Proof.
  intros H. destruct segs; [intros c [<-|[]]; cbn; intuition discriminate | now apply slash_path_free].
Qed.

Lemma slash_path_double a x y b : no_double_slash (slash_path (a ++ x :: y :: b)) -> x <> "".
Proof.
  intros H ->. apply (H (slash_path a) (y ++ slash_path b)).
  clear H. induction a as [|s a IH]; [reflexivity|]. cbn [app slash_path]. now rewrite IH, !sapp_assoc.
Qed.

Lemma no_double_init segs : no_double_slash (slash_path segs) -> Forall (fun s => s <> "") (removelast segs).
Proof.
  destruct segs as [|l segs] using rev_ind; [constructor|]. clear IHsegs. rewrite removelast_app_single.
  intros H. apply Forall_forall. intros x Hx. apply in_split in Hx as (a & b & ->).
  destruct b as [|y b].
  - rewrite <- app_assoc in H. exact (slash_path_double a x l [] H).
  - rewrite <- app_assoc in H. cbn [app] in H. exact (slash_path_double a x y (b ++ [l]) H).
Qed.

Lemma path_of_no_double l :
  match l with x :: _ :: _ => x <> "" | _ => True end -> Forall seg_ok l -> startswith "//" (path_of l) = false.
Proof.
  destruct l as [|x [|y t]]; intros H1 H2; [reflexivity| |].
  - inversion_clear H2 as [|? ? Hx _]. apply seg_noslash in Hx.
    destruct x as [|c x]; [reflexivity|]. cbn [contains_char] in Hx. apply orb_false_iff in Hx as [Hc _].
    rewrite Ascii.eqb_sym in Hc. cbn [path_of slash_path append startswith]. rewrite Hc. now destruct (Ascii.eqb "/" "/").
  - inversion_clear H2 as [|? ? Hx _]. apply seg_noslash in Hx.
    destruct x as [|c x]; [congruence|]. cbn [contains_char] in Hx. apply orb_false_iff in Hx as [Hc _].
    rewrite Ascii.eqb_sym in Hc. cbn [path_of slash_path append startswith]. rewrite Hc. now destruct (Ascii.eqb "/" "/").
Qed.

Lemma derel_no_double segs :
  Forall seg_ok segs -> no_double_slash (slash_path segs) ->
  startswith "//" (path_of (fold_left derel_step segs [])) = false.
Proof.
  intros Hok H. apply path_of_no_double; [|now apply derel_fold_Forall].
  apply no_double_init in H.
  destruct segs as [|l segs] using rev_ind; [exact I|]. clear IHsegs.
  rewrite removelast_app_single in H. rewrite fold_left_app. cbn [fold_left].
  pose proof (derel_fold_Forall (fun s => s <> "") segs [] (Forall_nil _) H) as Hacc.
  set (acc := fold_left derel_step segs []) in *. clearbody acc.
  destruct (seg_cases l) as [Hh|[Hu|Hp]].
  - rewrite derel_here by exact Hh. destruct acc as [|x [|y t]]; auto. now inversion Hacc.
  - rewrite derel_up by exact Hu. destruct acc as [|x [|y [|z t]]]; simpl; auto. now inversion Hacc.
  - rewrite derel_plain by exact Hp. destruct acc as [|x [|y t]]; simpl; auto; now inversion Hacc.
Qed.

(** ** derelativise_url *)
Lemma derelativise_abs s h segs q :
  clean_url s h (slash_path segs) q -> segs <> [] -> Forall seg_ok segs ->
  derelativise_url (abs_url s h (slash_path segs) q)
  = abs_url s h (path_of (fold_left derel_step segs [])) q.
Proof.
  intros Hc Hne Hok. unfold derelativise_url. rewrite (urlparse_abs _ _ _ _ Hc). cbn [u_path].
  assert (E : split_char "/" (sdrop 1 (slash_path segs)) = segs).
  { rewrite slash_join by exact Hne. cbn [append sdrop]. rewrite sdrop_0 || idtac.
    apply split_join; [exact Hne|]. eapply Forall_impl; [|exact Hok]. intros x. apply seg_noslash. }
  rewrite E, path_of_join. unfold with_path. cbn [u_scheme u_netloc u_params u_query u_fragment].
  destruct Hc as (Hs1 & Hs2 & Hh & Hp & Hq & Hp2 & Hh2).
  apply urlunparse_abs; [exact Hs1| |].
  - right. destruct (fold_left derel_step segs []); cbn; eauto.
  - destruct Hh2 as [H|[H1 H2]]; [now left|]. right. split; [exact H1|]. now apply derel_no_double.
Qed.

