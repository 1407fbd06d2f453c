(** Proofs about getters and the resolver. *)
From Coq Require Import String Ascii List Bool Arith ZArith Lia Decimal DecimalString DecimalFacts DecimalNat.
From Verif Require Import PyStr PyStrFacts PyVal PyValFacts Jp JpFacts UrlLib Urls SpecUrl UrlFacts2 Obj SpecObj NatDecFacts ResolveFacts Getter SpecGetter.
Import ListNotations.
Open Scope string_scope. Open Scope nat_scope.

(** ** decimal numerals *)
Lemma digit_char c : Nat.leb 48 (nat_of_ascii c) && Nat.leb (nat_of_ascii c) 57 = true -> exists k, k < 10 /\ c = digit k /\ nat_of_ascii c - 48 = k.
Proof.
  intros H. apply andb_true_iff in H as [H1 H2]. apply Nat.leb_le in H1, H2. exists (nat_of_ascii c - 48). split; [lia|]. split; [|reflexivity].
  unfold digit. replace (48 + (nat_of_ascii c - 48)) with (nat_of_ascii c) by lia. now rewrite ascii_nat_embedding.
Qed.
Lemma digits_uint s : forall n z, digits_val s (Z.of_nat n) = Some z -> exists u, s = NilEmpty.string_of_uint u /\ z = Z.of_nat (Nat.of_uint_acc u n).
Proof.
  induction s as [|c s IH]; intros n z H; cbn [digits_val] in H.
  - injection H as <-. exists Nil. split; reflexivity.
  - destruct (Nat.leb 48 (nat_of_ascii c) && Nat.leb (nat_of_ascii c) 57) eqn:E; [|discriminate].
    destruct (digit_char c E) as (k & Hk & -> & Hs). rewrite Hs in H. replace (Z.of_nat n * 10 + Z.of_nat k)%Z with (Z.of_nat (10 * n + k)) in H by lia.
    apply IH in H as (u & -> & ->). exists (cons_digit k u). split; [now rewrite string_cons_digit|]. now rewrite of_uint_cons_digit.
Qed.
Lemma py_int_plain s z : plain_token s -> py_int s = Ok z -> exists i, index_text i s /\ z = Z.of_nat i.
Proof.
  intros P H. destruct s as [|c s]; [discriminate|]. destruct (P c s eq_refl) as (Hm & Hp & H0).
  assert (E : digits_val (String c s) 0%Z = Some z).
  { unfold py_int in H. destruct c as [[] [] [] [] [] [] [] []]; try (now destruct Hm); try (now destruct Hp);
    match type of H with context [digits_val ?a 0%Z] => destruct (digits_val a 0%Z); [injection H as ->; reflexivity|discriminate] end. }
  apply (digits_uint _ 0) in E as (u & Es & ->). exists (Nat.of_uint u). split; [|reflexivity]. unfold index_text. rewrite DecimalNat.Unsigned.to_of.
  assert (N : unorm u = u).
  { destruct u; try reflexivity; cbn in Es; [discriminate|]. injection Es as -> Es. specialize (H0 eq_refl). subst s. destruct u; try discriminate. reflexivity. }
  rewrite N, Es. destruct u; try reflexivity. discriminate.
Qed.

(** ** evaluation *)
Lemma walk_jget d ts v : jget d ts v -> walk d ts = Ok v.
Proof.
  induction 1 as [j|d k v ts r L G IH|l i s v ts r I N G IH]; cbn [walk]; [reflexivity|now rewrite L|].
  rewrite (py_int_index _ _ I). cbn [bind]. rewrite py_nth_nat, N. exact IH.
Qed.
Lemma jget_walk ts : forall d v, Forall plain_token ts -> walk d ts = Ok v -> jget d ts v.
Proof.
  induction ts as [|t ts IH]; intros d v F H; cbn [walk] in H; [injection H as ->; constructor|]. inversion F; subst.
  destruct d; try discriminate.
  - apply bind_ok in H as (z & Hz & H). apply bind_ok in H as (x & Hx & H). destruct (py_int_plain t z) as (i & I & ->); [assumption|assumption|].
    rewrite py_nth_nat in Hx. destruct (nth_error l i) eqn:N; [|discriminate]. injection Hx as ->. eapply jg_idx; eauto.
  - destruct (lookup t d) eqn:L; [|discriminate]. eapply jg_key; eauto.
Qed.

(** ** the resolver *)
Section Resolver.
  Variables (path2url abspath : string -> string) (hook : option (string -> string)) (dg : option getter).
  Notation resolve1 := (resolver_resolve path2url abspath hook dg).
  Notation run := (resolver_run path2url abspath hook dg).
  Notation asks := (asks path2url abspath).
  Notation offers := (offers path2url abspath hook dg).
  Notation first_offer := (first_offer path2url abspath hook dg).

  Lemma asks_dec url c : {asks url c} + {~ asks url c}.
  Proof.
    unfold SpecGetter.asks. destruct (jr_split path2url abspath (r_jref c)) as [[u jp]|e]; [|right; intros [? ?]; discriminate].
    destruct (string_dec u url) as [->|]; [left; eauto|right; intros [? ?]; congruence].
  Qed.
  Lemma offers_dec url c : (exists d, offers url c d) \/ (forall d, ~ offers url c d).
  Proof.
    destruct (asks_dec url c) as [A|A]; [|right; intros d (H & _); contradiction].
    destruct (fetch dg c (load_url hook url)) as [d|e] eqn:F; [|right; intros d (_ & H & _); congruence].
    destruct (truthy d) eqn:T; [left; exists d; split; [exact A|split; [exact F|exact T]]|right; intros d' (_ & H & H'); congruence].
  Qed.
  Lemma first_offer_snoc url cs c d : first_offer url (cs ++ [c])%list d <->
    first_offer url cs d \/ ((forall d', ~ first_offer url cs d') /\ offers url c d).
  Proof.
    induction cs as [|x cs IH]; cbn [app].
    - split.
      + intros H. inversion H as [? ? ? O|? ? ? N F]; subst; [right; split; [intros d' F; inversion F|exact O]|inversion F].
      + intros [F|[_ O]]; [inversion F|now constructor].
    - split.
      + intros H. inversion H as [? ? ? O|? ? ? N F]; subst; [left; now constructor|]. apply IH in F as [F|[F O]]; [left; now apply fo_later|].
        right. split; [|exact O]. intros d' F'. inversion F' as [? ? ? O'|? ? ? N' F'']; subst; [now apply (N d')|now apply (F d')].
      + intros [F|[F O]].
        * inversion F as [? ? ? O|? ? ? N F']; subst; [now constructor|]. apply fo_later; [exact N|]. apply IH. now left.
        * destruct (offers_dec url x) as [[d' O']|N]; [exfalso; apply (F d'); now constructor|]. apply fo_later; [exact N|]. apply IH. right. split; [|exact O].
          intros d' F'. apply (F d'). now apply fo_later.
  Qed.
  Definition holds (cache : rcache) (url : string) (d : json) : Prop := lookup url cache = Some d /\ truthy d = true.
  Lemma resolve_cache cache c url : fst (fst (resolve1 cache c)) = cache \/ asks url c \/ lookup url (fst (fst (resolve1 cache c))) = lookup url cache.
  Proof.
    unfold resolver_resolve. destruct (jr_split path2url abspath (r_jref c)) as [[u jp]|e] eqn:S; [|now left].
    destruct (string_dec u url) as [->|Hn]; [right; left; exists jp; exact S|]. right; right.
    assert (K : forall x, lookup url (dict_set u x cache) = lookup url cache) by (intros; now apply lookup_dict_set_ne).
    destruct (lookup u cache) as [o|]; [destruct (truthy o); [reflexivity|]|]; destruct (fetch dg c _); cbn [fst]; auto.
  Qed.
  Lemma cache_first_offer calls url d : holds (run calls) url d <-> first_offer url calls d.
  Proof.
    revert d; induction calls as [|c calls IH] using rev_ind; intros d.
    - split; [intros [H _]; discriminate|intros H; inversion H].
    - unfold resolver_run. rewrite fold_left_app. cbn [fold_left]. change (fold_left _ calls []) with (run calls).
      rewrite first_offer_snoc. rewrite <- IH. unfold holds. unfold resolver_resolve.
      destruct (jr_split path2url abspath (r_jref c)) as [[u jp]|e] eqn:S; cbn [fst].
      2:{ split; [intros H; now left|]. intros [H|[_ ((jp & A) & _)]]; [exact H|congruence]. }
      destruct (string_dec u url) as [->|Hn].
      + assert (A : asks url c) by (exists jp; exact S).
        assert (Off : forall d', offers url c d' <-> fetch dg c (load_url hook url) = Ok d' /\ truthy d' = true) by (intros d'; split; [now intros (_ & H)|intros H; split; [exact A|exact H]]).
        change (match hook with Some h => h url | None => url end) with (load_url hook url).
        assert (NoH : (lookup url (run calls) = None \/ exists o, lookup url (run calls) = Some o /\ truthy o = false) -> forall d', ~ first_offer url calls d').
        { intros Hz d' F. apply IH in F as [L T]. destruct Hz as [Hz|(o & Hz & T')]; congruence. }
        assert (Load : (lookup url (run calls) = None \/ exists o, lookup url (run calls) = Some o /\ truthy o = false) ->
          (lookup url (fst (fst (match fetch dg c (load_url hook url) with
            | Ok obj => (dict_set url (if truthy obj then obj else JNull) (run calls), true, if truthy obj then walk obj (tl (jp_split jp)) else Err PyException)
            | Err e => (run calls, true, Err e) end))) = Some d /\ truthy d = true) <->
          (lookup url (run calls) = Some d /\ truthy d = true) \/ (forall d', ~ first_offer url calls d') /\ offers url c d).
        { intros Hz. rewrite Off. destruct (fetch dg c (load_url hook url)) as [o|e] eqn:F; cbn [fst].
          - rewrite lookup_dict_set_eq. split.
            + intros [E T]. right. split; [now apply NoH|]. injection E as E. destruct (truthy o) eqn:To; subst; [split; [reflexivity|exact T]|discriminate].
            + intros [[L T]|[_ [E T]]]; [destruct Hz as [Hz|(x & Hz & T')]; congruence|]. injection E as ->. rewrite T. auto.
          - split; [intros H; now left|]. intros [H|[_ [E _]]]; [exact H|discriminate]. }
        destruct (lookup url (run calls)) as [o|] eqn:L.
        * destruct (truthy o) eqn:T.
          -- cbn [fst]. rewrite L. split; [intros H; now left|]. intros [H|[H _]]; [exact H|]. exfalso. apply (H o). apply IH. split; [exact L|exact T].
          -- apply Load. eauto.
        * apply Load. now left.
      + assert (NA : ~ asks url c) by (intros [jp' A]; congruence).
        assert (K : lookup url (fst (fst (match lookup u (run calls) with
           | Some obj => if truthy obj then (run calls, false, if truthy obj then walk obj (tl (jp_split jp)) else Err PyException)
             else match fetch dg c (match hook with Some h => h u | None => u end) with
                  | Ok obj0 => (dict_set u (if truthy obj0 then obj0 else JNull) (run calls), true, if truthy obj0 then walk obj0 (tl (jp_split jp)) else Err PyException)
                  | Err e => (run calls, true, Err e) end
           | None => match fetch dg c (match hook with Some h => h u | None => u end) with
                  | Ok obj0 => (dict_set u (if truthy obj0 then obj0 else JNull) (run calls), true, if truthy obj0 then walk obj0 (tl (jp_split jp)) else Err PyException)
                  | Err e => (run calls, true, Err e) end end))) = lookup url (run calls)).
        { destruct (lookup u (run calls)) as [o|]; [destruct (truthy o); [reflexivity|]|]; destruct (fetch dg c _); cbn [fst]; try reflexivity; now apply lookup_dict_set_ne. }
        rewrite K. split; [intros H; now left|]. intros [H|[_ [A _]]]; [exact H|contradiction].
  Qed.
  (** a call after a document was obtained *)
  Lemma resolve_cached calls c url jp d : jr_split path2url abspath (r_jref c) = Ok (url, jp) -> first_offer url calls d ->
    resolve1 (run calls) c = (run calls, false, walk d (tl (jp_split jp))).
  Proof.
    intros S F. apply cache_first_offer in F as [L T]. unfold resolver_resolve. rewrite S, L, T. reflexivity.
  Qed.
  (** a call before *)
  Lemma resolve_fresh calls c url jp : jr_split path2url abspath (r_jref c) = Ok (url, jp) -> (forall d, ~ first_offer url calls d) ->
    snd (fst (resolve1 (run calls) c)) = true /\
    snd (resolve1 (run calls) c) = (d <- fetch dg c (load_url hook url) ;; if truthy d then walk d (tl (jp_split jp)) else Err PyException).
  Proof.
    intros S N. unfold resolver_resolve. rewrite S. change (match hook with Some h => h url | None => url end) with (load_url hook url).
    destruct (lookup url (run calls)) as [o|] eqn:L.
    - destruct (truthy o) eqn:T; [exfalso; apply (N o), cache_first_offer; split; [exact L|exact T]|].
      destruct (fetch dg c (load_url hook url)); split; reflexivity.
    - destruct (fetch dg c (load_url hook url)); split; reflexivity.
  Qed.
  Lemma resolve_bad_reference cache c e : jr_split path2url abspath (r_jref c) = Err e -> resolve1 cache c = (cache, false, Err e).
  Proof. intros H. unfold resolver_resolve. now rewrite H. Qed.
  Lemma tl_pointer ts : tl (jp_split (jp_join ts (Some "#"))) = ts.
  Proof. rewrite jp_split_join_base by discriminate. reflexivity. Qed.
End Resolver.

(** ** requests of a getter *)
Lemma requests_nth json_loads yaml_load load urls : forall n i, i < n ->
  nth_error (requests json_loads yaml_load load n urls) i =
  Some (match nth_error urls i with Some u => l <- load u ;; parse_loaded json_loads yaml_load l | None => Err StopIteration end).
Proof.
  induction urls as [|u urls IH]; intros n i H.
  - revert i H; induction n as [|n IHn]; intros i H; [lia|]. cbn [requests getter_next]. destruct i as [|i]; [reflexivity|]. cbn [nth_error].
    rewrite IHn by lia. now destruct i.
  - destruct n as [|n]; [lia|]. cbn [requests getter_next]. destruct i as [|i]; [reflexivity|]. cbn [nth_error]. apply IH. lia.
Qed.
Lemma requests_length json_loads yaml_load load n : forall urls, length (requests json_loads yaml_load load n urls) = n.
Proof. induction n as [|n IH]; intros urls; [reflexivity|]. cbn [requests]. destruct (getter_next _ _ load urls) as [u r]. cbn. now rewrite IH. Qed.

(** ** the local getter *)
Section Local.
  Variables (isfile : string -> bool) (abspath : string -> string).
  Notation local_getter := (local_getter isfile abspath).
  Lemma local_plain p : plain_path p -> local_getter p =
    match local_by_name isfile p p SWAGGER_FILE_NAMES with
    | Some r => Ok r
    | None =>
        if endswith "json" (splitext_ext p) || endswith "yaml" (splitext_ext p) || endswith "yml" (splitext_ext p) then Ok (dirname p, p)
        else if isfile (p ++ ".json") then Ok (p, (p ++ ".json")%string)
        else if isfile (p ++ ".yaml") then Ok (p, (p ++ ".yaml")%string)
        else Err ValueError
    end.
  Proof. intros [H1 H2]. unfold Getter.local_getter. now rewrite H1, H2. Qed.
  Lemma by_name_cases p names : (forall m, In m names -> isfile (path_join p m) = false) ->
    (exists n, In n names /\ endswith n p = true) /\ local_by_name isfile p p names = Some (dirname p, p) \/
    (forall n, In n names -> endswith n p = false) /\ local_by_name isfile p p names = None.
  Proof.
    intros N. induction names as [|x names IH]; [right; split; [intros ? []|reflexivity]|]. cbn [local_by_name]. destruct (endswith x p) eqn:Ex.
    - left. split; [exists x; split; [now left|exact Ex]|reflexivity].
    - rewrite N by now left. destruct IH as [[(n & Hn & E) H]|[E H]]; [intros m Hm; apply N; now right| |].
      + left. split; [exists n; split; [now right|exact E]|exact H].
      + right. split; [|exact H]. intros n [<-|Hn]; [exact Ex|now apply E].
  Qed.
  Lemma by_name_dir p a n b : (forall m, In m (a ++ n :: b) -> endswith m p = false) -> (forall m, In m a -> isfile (path_join p m) = false) ->
    isfile (path_join p n) = true -> local_by_name isfile p p (a ++ n :: b)%list = Some (p, path_join p n).
  Proof.
    intros E N F. induction a as [|x a IH]; cbn [List.app local_by_name].
    - rewrite E by now left. now rewrite F.
    - rewrite E by now left. rewrite N by now left. apply IH; intros m Hm; [apply E|apply N]; now right.
  Qed.
  Lemma str_in_valid x : str_in x VALID_FILE_EXT = false <-> ~ valid_ext x.
  Proof. rewrite <- valid_ext_spec. destruct (str_in x VALID_FILE_EXT); intuition congruence. Qed.
  Lemma patch_path_same base path : ~ valid_ext (splitext_ext base) -> valid_ext (splitext_ext path) -> patch_path base path = path.
  Proof.
    intros Hb Hp. rewrite patch_path_chosen. unfold chosen_ext. apply str_in_valid in Hb. apply valid_ext_spec in Hp. rewrite Hb, Hp.
    destruct (splitext_suffix path) as [r Hr]. assert (En : endswith (splitext_ext path) path = true) by (rewrite Hr at 2; apply endswith_app). now rewrite En.
  Qed.
  Lemma patch_path_json base path : ~ valid_ext (splitext_ext base) -> patch_path base (path ++ ".json") = (path ++ ".json")%string.
  Proof.
    intros Hb. rewrite patch_path_chosen. unfold chosen_ext. apply str_in_valid in Hb. rewrite Hb.
    destruct (splitext_app_json path) as [-> | ->]; cbn [str_in existsb String.eqb Ascii.eqb Bool.eqb VALID_FILE_EXT orb]; now rewrite endswith_app.
  Qed.
  Lemma path_join_last p n : startswith "/" n = false -> contains_char "/" n = false -> last_component (path_join p n) = n.
  Proof.
    intros S C. unfold path_join. rewrite S. destruct (negb (truthy_str p) || endswith "/" p) eqn:E.
    - rewrite last_component_app by exact C. apply orb_true_iff in E as [E|E].
      + destruct p; [reflexivity|discriminate].
      + apply endswith_spec in E as [q ->]. unfold last_component. rewrite (rfind_app_r "/" q "/" 0) by reflexivity.
        rewrite Nat.add_0_r. now rewrite sdrop_all by (rewrite slength_app; cbn; lia).
    - rewrite <- sapp_assoc. rewrite last_component_app by exact C. unfold last_component. rewrite (rfind_app_r "/" p "/" 0) by reflexivity.
      rewrite Nat.add_0_r. now rewrite sdrop_all by (rewrite slength_app; cbn; lia).
  Qed.
  Lemma default_ext p n : In n default_names -> valid_ext (splitext_ext (path_join p n)).
  Proof.
    intros H. unfold splitext_ext. rewrite path_join_last.
    - repeat (destruct H as [<-|H]; [cbn; unfold valid_ext; auto|]). destruct H.
    - repeat (destruct H as [<-|H]; [reflexivity|]). destruct H.
    - repeat (destruct H as [<-|H]; [reflexivity|]). destruct H.
  Qed.
  Lemma ext_cases p : {exists e, In e ["json"; "yaml"; "yml"] /\ endswith e (splitext_ext p) = true} +
    {endswith "json" (splitext_ext p) || endswith "yaml" (splitext_ext p) || endswith "yml" (splitext_ext p) = false}.
  Proof.
    destruct (endswith "json" (splitext_ext p)) eqn:E1; [left; exists "json"; cbn; auto|].
    destruct (endswith "yaml" (splitext_ext p)) eqn:E2; [left; exists "yaml"; cbn; auto|].
    destruct (endswith "yml" (splitext_ext p)) eqn:E3; [left; exists "yml"; cbn; auto 6|]. now right.
  Qed.
  Lemma ext_true p e : In e ["json"; "yaml"; "yml"] -> endswith e (splitext_ext p) = true ->
    endswith "json" (splitext_ext p) || endswith "yaml" (splitext_ext p) || endswith "yml" (splitext_ext p) = true.
  Proof. intros [<-|[<-|[<-|[]]]] ->; rewrite ?orb_true_r; reflexivity. Qed.

  (** *** the four cases *)
  Lemma local_a_file p : plain_path p -> none_in isfile p default_names -> names_a_file p -> local_getter p = Ok (dirname p, p).
  Proof.
    intros P N F. rewrite local_plain by exact P. destruct (by_name_cases p default_names N) as [[_ H]|[E H]];
      change SWAGGER_FILE_NAMES with default_names; rewrite H; [reflexivity|].
    destruct F as [(n & Hn & E')|(e & He & E')]; [rewrite E in E' by exact Hn; discriminate|]. now rewrite (ext_true p e He E').
  Qed.
  Lemma local_a_file_opens p : plain_path p -> none_in isfile p default_names -> valid_ext (splitext_ext p) -> ~ valid_ext (splitext_ext (dirname p)) ->
    local_file isfile abspath p = Ok p.
  Proof.
    intros P N V D. unfold local_file. rewrite local_a_file; [|exact P|exact N|].
    - cbn [bind fst snd]. now rewrite patch_path_same.
    - right. destruct V as [-> | [-> | ->]]; [exists "json"|exists "yaml"|exists "yml"]; split; [|reflexivity| |reflexivity| |reflexivity]; cbn; auto.
  Qed.
  Lemma local_directory p a n b : plain_path p -> default_names = (a ++ n :: b)%list -> (forall m, In m default_names -> endswith m p = false) ->
    none_in isfile p a -> isfile (path_join p n) = true -> ~ valid_ext (splitext_ext p) -> local_file isfile abspath p = Ok (path_join p n).
  Proof.
    intros P D E N F V. unfold local_file. rewrite local_plain by exact P. change SWAGGER_FILE_NAMES with default_names.
    assert (V2 : valid_ext (splitext_ext (path_join p n))) by (apply default_ext; rewrite D, in_app_iff; right; now left).
    rewrite D in *. rewrite by_name_dir by assumption. cbn [bind fst snd]. now rewrite patch_path_same.
  Qed.
  Lemma local_appended p : plain_path p -> none_in isfile p default_names -> ~ names_a_file p ->
    local_getter p = if isfile (p ++ ".json") then Ok (p, (p ++ ".json")%string) else if isfile (p ++ ".yaml") then Ok (p, (p ++ ".yaml")%string) else Err ValueError.
  Proof.
    intros P N F. rewrite local_plain by exact P. destruct (by_name_cases p default_names N) as [[E _]|[_ H]]; [destruct F; now left|].
    change SWAGGER_FILE_NAMES with default_names. rewrite H. destruct (ext_cases p) as [E|E]; [destruct F; now right|]. now rewrite E.
  Qed.
  Lemma not_file_ext p : ~ names_a_file p -> ~ valid_ext (splitext_ext p).
  Proof.
    intros F V. apply F. right. destruct V as [-> | [-> | ->]]; [exists "json"|exists "yaml"|exists "yml"]; split; [|reflexivity| |reflexivity| |reflexivity]; cbn; auto.
  Qed.
  Lemma local_json p : plain_path p -> none_in isfile p default_names -> ~ names_a_file p -> isfile (p ++ ".json") = true ->
    local_file isfile abspath p = Ok (p ++ ".json")%string.
  Proof. intros P N F J. unfold local_file. rewrite local_appended, J by assumption. cbn [bind fst snd]. rewrite patch_path_json; [reflexivity|now apply not_file_ext]. Qed.
  Lemma local_yaml p : plain_path p -> none_in isfile p default_names -> ~ names_a_file p -> isfile (p ++ ".json") = false -> isfile (p ++ ".yaml") = true ->
    splitext_ext (p ++ ".yaml") = ".yaml" -> local_file isfile abspath p = Ok (p ++ ".yaml")%string.
  Proof.
    intros P N F J Y E. unfold local_file. rewrite local_appended, J, Y by assumption. cbn [bind fst snd]. rewrite patch_path_same; [reflexivity|now apply not_file_ext|].
    rewrite E. unfold valid_ext. auto.
  Qed.
  Lemma local_missing p : plain_path p -> none_in isfile p default_names -> ~ names_a_file p -> isfile (p ++ ".json") = false -> isfile (p ++ ".yaml") = false ->
    local_file isfile abspath p = Err ValueError.
  Proof. intros P N F J Y. unfold local_file. now rewrite local_appended, J, Y by assumption. Qed.
End Local.

(** ** more *)
Lemma dict_requests json_loads yaml_load path2dict urls n i : i < n ->
  nth_error (requests json_loads yaml_load (dict_load path2dict) n urls) i =
  Some (match nth_error urls i with
        | Some u => match lookup u path2dict with Some l => parse_loaded json_loads yaml_load l | None => Ok (JDict []) end
        | None => Err StopIteration
        end).
Proof. intros H. rewrite requests_nth by exact H. destruct (nth_error urls i); [|reflexivity]. unfold dict_load. cbn [bind]. destruct (lookup s path2dict); reflexivity. Qed.
Lemma any_requests json_loads yaml_load load urls n i : i < n ->
  nth_error (requests json_loads yaml_load load n urls) i =
  Some (match nth_error urls i with
        | Some u => match load u with Ok l => parse_loaded json_loads yaml_load l | Err e => Err e end
        | None => Err StopIteration
        end).
Proof. exact (requests_nth json_loads yaml_load load urls n i). Qed.
Lemma parse_text json_loads yaml_load s :
  parse_loaded json_loads yaml_load (LText (String "{" s)) = match json_loads (String "{" s) with Some r => r | None => Err PyException end /\
  (forall c, c <> "{"%char -> parse_loaded json_loads yaml_load (LText (String c s)) = match yaml_load (String c s) with Some r => r | None => Err PyException end).
Proof.
  split; [reflexivity|]. intros c Hc. unfold parse_loaded. assert (E : startswith "{" (String c s) = false); [|now rewrite E].
  unfold startswith. destruct c as [[] [] [] [] [] [] [] []]; try reflexivity. now destruct Hc.
Qed.
Lemma fetch_choice default_getter jref g remote local url :
  let ask x := match x with GClass open => open url | GObject next => next end in
  let is_file := u_scheme (urlparse url) = "file" /\ u_path (urlparse url) <> "" in
  (forall x, g = Some x -> fetch default_getter (mk_call jref g remote local) url = ask x) /\
  (g = None -> is_file -> fetch default_getter (mk_call jref g remote local) url = local (path_join (u_netloc (urlparse url)) (u_path (urlparse url)))) /\
  (g = None -> ~ is_file -> forall x, default_getter = Some x -> fetch default_getter (mk_call jref g remote local) url = ask x) /\
  (g = None -> ~ is_file -> default_getter = None -> fetch default_getter (mk_call jref g remote local) url = remote url).
Proof.
  intros ask is_file.
  assert (F : is_file <-> String.eqb (u_scheme (urlparse url)) "file" && truthy_str (u_path (urlparse url)) = true).
  { unfold is_file. rewrite andb_true_iff, String.eqb_eq, truthy_str_true. reflexivity. }
  unfold fetch. cbn [r_getter r_remote r_local].
  split; [intros x ->; reflexivity|].
  split; [intros -> H; apply F in H; now rewrite H|].
  assert (F' : ~ is_file -> String.eqb (u_scheme (urlparse url)) "file" && truthy_str (u_path (urlparse url)) = false).
  { intros H. rewrite F in H. now apply not_true_iff_false. }
  split; [intros -> H x ->; now rewrite F'|intros -> H ->; now rewrite F'].
Qed.
Lemma negative_not_index i : ~ index_text i "-1".
Proof. intros H. apply py_int_index in H. vm_compute in H. destruct i; discriminate. Qed.
