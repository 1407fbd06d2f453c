(** Proofs about JSON pointers. *)
From Coq Require Import String Ascii List Bool Arith Lia.
From Verif Require Import PyStr PyStrFacts Jp SpecJp.
Import ListNotations.
Open Scope string_scope.

Lemma no_slash_contains s : no_slash s <-> contains_char "/" s = false.
Proof.
  induction s as [|c s IH]; simpl; [tauto|].
  rewrite orb_false_iff, IH, Ascii.eqb_neq. tauto.
Qed.

(** *** encoding *)
Fixpoint enc1 (s : string) : string :=
  match s with
  | EmptyString => EmptyString
  | String c r =>
      if Ascii.eqb c "~" then String "~" (String "0" (enc1 r))
      else if Ascii.eqb c "/" then String "~" (String "1" (enc1 r))
      else String c (enc1 r)
  end.

Lemma jp_encode_enc1 s : jp_encode s = enc1 s.
Proof.
  unfold jp_encode. induction s as [|c s IH]; [reflexivity|].
  cbn [replace1 enc1]. destruct (Ascii.eqb_spec c "~") as [->|Hc].
  - rewrite replace1_app, IH. reflexivity.
  - cbn [replace1]. destruct (Ascii.eqb_spec c "/") as [->|Hs]; rewrite IH; reflexivity.
Qed.

Lemma enc1_noslash s : contains_char "/" (enc1 s) = false.
Proof.
  induction s as [|c s IH]; [reflexivity|]. cbn [enc1].
  destruct (Ascii.eqb_spec c "~"); [exact IH|].
  destruct (Ascii.eqb_spec c "/") as [->|Hs]; [exact IH|].
  cbn [contains_char]. rewrite IH. now rewrite ascii_eqb_neq.
Qed.

Lemma jp_encode_noslash s : contains_char "/" (jp_encode s) = false.
Proof. rewrite jp_encode_enc1. apply enc1_noslash. Qed.

Lemma jp_encode_nil s : jp_encode s = "" -> s = "".
Proof.
  rewrite jp_encode_enc1. destruct s as [|c s]; [reflexivity|]. cbn [enc1].
  destruct (Ascii.eqb c "~"); [discriminate|]. destruct (Ascii.eqb c "/"); discriminate.
Qed.

(** *** decoding: the two successive replacements are the one-pass RFC decoding *)
Fixpoint dec1 (s : string) : string :=
  match s with
  | EmptyString => EmptyString
  | String x EmptyString => String x EmptyString
  | String x (String y s'' as s') =>
      if Ascii.eqb x "~" && Ascii.eqb y "1" then String "/" (dec1 s'')
      else if Ascii.eqb x "~" && Ascii.eqb y "0" then String "~" (dec1 s'')
      else String x (dec1 s')
  end.

Lemma dec1_cons x y s : dec1 (String x (String y s)) =
  if Ascii.eqb x "~" && Ascii.eqb y "1" then String "/" (dec1 s)
  else if Ascii.eqb x "~" && Ascii.eqb y "0" then String "~" (dec1 s)
  else String x (dec1 (String y s)).
Proof. reflexivity. Qed.

Lemma string_ind2 (P : string -> Prop) :
  P "" -> (forall x, P (String x "")) ->
  (forall x y s, P s -> P (String y s) -> P (String x (String y s))) -> forall s, P s.
Proof.
  intros H0 H1 H2 s. enough (P s /\ forall x, P (String x s)) by tauto.
  induction s as [|y s [IH1 IH2]]; split; auto.
Qed.

(** the second replacement on a text whose first character is not "~" *)
Lemma replace2_cons_ne a b r x s : x <> a -> replace2 a b r (String x s) = String x (replace2 a b r s).
Proof. intros H. destruct s as [|y s]; [reflexivity|]. cbn [replace2]. now rewrite ascii_eqb_neq. Qed.

Lemma replace2_head s : match replace2 "~" "1" "/" s with
                        | String c _ => match s with String c' _ => c = c' \/ c = "/"%char | _ => False end
                        | _ => s = "" end.
Proof.
  destruct s as [|x [|y s]]; simpl; auto.
  destruct (Ascii.eqb x "~" && Ascii.eqb y "1"); simpl; auto.
Qed.

Lemma jp_decode_dec1 s : jp_decode s = dec1 s.
Proof.
  unfold jp_decode. induction s as [|x|x y s IHs IHys] using string_ind2; [reflexivity | reflexivity |].
  rewrite dec1_cons. destruct (Ascii.eqb_spec x "~") as [->|Hx].
  - destruct (Ascii.eqb_spec y "1") as [->|Hy]; cbn [andb].
    + transitivity (replace2 "~" "0" "~" (String "/" (replace2 "~" "1" "/" s))); [reflexivity|].
      rewrite replace2_cons_ne by discriminate. now rewrite IHs.
    + destruct (Ascii.eqb_spec y "0") as [->|Hy0].
      * assert (E : replace2 "~" "1" "/" (String "~" (String "0" s)) =
                    String "~" (String "0" (replace2 "~" "1" "/" s))).
        { transitivity (String "~" (replace2 "~" "1" "/" (String "0" s))); [reflexivity|].
          rewrite replace2_cons_ne by discriminate. reflexivity. }
        rewrite E. transitivity ("~" ++ replace2 "~" "0" "~" (replace2 "~" "1" "/" s)); [reflexivity|].
        cbn [append]. now rewrite IHs.
      * assert (E : replace2 "~" "1" "/" (String "~" (String y s)) =
                    String "~" (replace2 "~" "1" "/" (String y s))).
        { cbn [replace2]. rewrite (ascii_eqb_neq y "1" Hy), andb_false_r. reflexivity. }
        rewrite E. rewrite <- IHys.
        pose proof (replace2_head (String y s)) as Hh.
        destruct (replace2 "~" "1" "/" (String y s)) as [|c r] eqn:Er; [discriminate|].
        cbn [replace2]. assert (Hc : Ascii.eqb c "0" = false).
        { apply ascii_eqb_neq. destruct Hh as [->| ->]; [exact Hy0 | discriminate]. }
        rewrite Hc, andb_false_r. reflexivity.
  - cbn [andb]. rewrite (replace2_cons_ne "~" "1") by exact Hx.
    rewrite (replace2_cons_ne "~" "0") by exact Hx. now rewrite IHys.
Qed.

Lemma dec1_rfc s : dec1 s = rfc_unescape s.
Proof.
  induction s as [|x|x y s IHs IHys] using string_ind2; [reflexivity| |].
  - cbn [dec1]. destruct x as [[] [] [] [] [] [] [] []]; reflexivity.
  - rewrite dec1_cons. destruct (Ascii.eqb_spec x "~") as [->|Hx].
    + destruct (Ascii.eqb_spec y "1") as [->|Hy]; cbn [andb]; [now rewrite IHs|].
      destruct (Ascii.eqb_spec y "0") as [->|Hy0]; [now rewrite IHs|].
      rewrite IHys.
      destruct y as [[] [] [] [] [] [] [] []]; try reflexivity; congruence.
    + cbn [andb]. rewrite IHys.
      destruct x as [[] [] [] [] [] [] [] []]; try reflexivity; congruence.
Qed.

Lemma jp_decode_rfc s : jp_decode s = rfc_unescape s.
Proof. now rewrite jp_decode_dec1, dec1_rfc. Qed.

Lemma dec1_enc1 s : dec1 (enc1 s) = s.
Proof.
  induction s as [|c s IH]; [reflexivity|]. cbn [enc1].
  destruct (Ascii.eqb_spec c "~") as [->|Hc].
  - transitivity (String "~" (dec1 (enc1 s))); [reflexivity|]. now rewrite IH.
  - destruct (Ascii.eqb_spec c "/") as [->|Hs].
    + transitivity (String "/" (dec1 (enc1 s))); [reflexivity|]. now rewrite IH.
    + destruct (enc1 s) as [|d r] eqn:E.
      * destruct s as [|x s]; [reflexivity|]. cbn [enc1] in E.
        destruct (Ascii.eqb x "~"); [discriminate|]. destruct (Ascii.eqb x "/"); discriminate.
      * rewrite dec1_cons. rewrite (ascii_eqb_neq c "~" Hc). cbn [andb]. now rewrite IH.
Qed.

Lemma jp_decode_encode s : jp_decode (jp_encode s) = s.
Proof. rewrite jp_decode_dec1, jp_encode_enc1. apply dec1_enc1. Qed.

Lemma jp_encode_inj a b : jp_encode a = jp_encode b -> a = b.
Proof. intros H. apply (f_equal jp_decode) in H. now rewrite !jp_decode_encode in H. Qed.

Lemma enc1_dec1_wf s : rfc_wellformed s -> contains_char "/" s = false -> enc1 (rfc_unescape s) = s.
Proof.
  induction s as [|x|x y s IHs IHys] using string_ind2; [reflexivity| |].
  - intros Hw Hs. destruct (Ascii.eqb_spec x "~") as [->|Hx]; [contradiction Hw|].
    destruct (Ascii.eqb_spec x "/") as [->|Hx']; [discriminate|].
    assert (E : rfc_unescape (String x "") = String x "").
    { destruct x as [[] [] [] [] [] [] [] []]; reflexivity. }
    rewrite E. cbn [enc1]. now rewrite (ascii_eqb_neq _ _ Hx), (ascii_eqb_neq _ _ Hx').
  - intros Hw Hs. destruct (Ascii.eqb_spec x "~") as [->|Hx].
    + destruct (Ascii.eqb_spec y "1") as [->|Hy].
      { cbn [rfc_unescape]. transitivity (String "~" (String "1" (enc1 (rfc_unescape s)))); [reflexivity|].
        rewrite IHs; auto. }
      destruct (Ascii.eqb_spec y "0") as [->|Hy0].
      { cbn [rfc_unescape]. transitivity (String "~" (String "0" (enc1 (rfc_unescape s)))); [reflexivity|].
        rewrite IHs; auto. }
      exfalso. destruct y as [[] [] [] [] [] [] [] []]; try contradiction Hw; congruence.
    + assert (E : rfc_unescape (String x (String y s)) = String x (rfc_unescape (String y s))).
      { destruct x as [[] [] [] [] [] [] [] []]; try reflexivity; congruence. }
      assert (Hw' : rfc_wellformed (String y s)).
      { destruct x as [[] [] [] [] [] [] [] []]; try exact Hw; congruence. }
      cbn [contains_char] in Hs. apply orb_false_iff in Hs as [Hx' Hs].
      rewrite E. cbn [enc1]. rewrite (ascii_eqb_neq _ _ Hx), Hx'. f_equal. apply IHys; auto.
Qed.

(** *** jp_split *)
Lemma jp_split_ne s : s <> "" -> jp_split s = map jp_decode (split_char "/" s).
Proof. destruct s; [congruence|reflexivity]. Qed.

Lemma split_app_join base l :
  l <> [] ->
  split_char "/" (base ++ "/" ++ join "/" (map jp_encode l)) = (split_char "/" base ++ map jp_encode l)%list.
Proof.
  intros Hl. cbn [append]. rewrite split_char_app_gen, split_join; [reflexivity| |].
  - destruct l; [congruence|discriminate].
  - apply Forall_map, Forall_forall. intros x _. apply jp_encode_noslash.
Qed.

Lemma map_decode_encode l : map jp_decode (map jp_encode l) = l.
Proof. rewrite map_map. rewrite <- (map_id l) at 2. apply map_ext. apply jp_decode_encode. Qed.

Lemma jp_join_base l base : base <> "" -> jp_join l (Some base) =
  match l with [] => base | _ => base ++ "/" ++ join "/" (map jp_encode l) end.
Proof.
  intros Hb. unfold jp_join. rewrite (proj2 (truthy_str_true base) Hb).
  destruct l as [|x l]; [reflexivity|]. cbn [map]. rewrite join_cons_ne; [reflexivity|discriminate].
Qed.

Lemma jp_join_none l : jp_join l None = join "/" (map jp_encode l).
Proof. reflexivity. Qed.

Lemma jp_join_empty_base l : jp_join l (Some "") = jp_join l None.
Proof. reflexivity. Qed.

Lemma jp_join_base_ne l base : base <> "" -> jp_join l (Some base) <> "".
Proof.
  intros Hb. rewrite jp_join_base by exact Hb. destruct l; [exact Hb|].
  intros H. apply sapp_eq_nil in H as [H _]. contradiction.
Qed.

Lemma join_encode_nil l : join "/" (map jp_encode l) = "" -> l = [] \/ l = [""].
Proof.
  destruct l as [|x [|y l]]; auto.
  - cbn. intros H. right. now rewrite (jp_encode_nil x H).
  - cbn [map]. rewrite join_cons. intros H. apply sapp_eq_nil in H as [_ H]. discriminate.
Qed.

Lemma jp_split_join_base l base :
  base <> "" -> jp_split (jp_join l (Some base)) = (jp_split base ++ l)%list.
Proof.
  intros Hb. rewrite (jp_split_ne _ (jp_join_base_ne l base Hb)), (jp_split_ne base Hb).
  rewrite jp_join_base by exact Hb. destruct l as [|x l]; [now rewrite app_nil_r|].
  rewrite split_app_join by discriminate. now rewrite map_app, map_decode_encode.
Qed.

Lemma jp_split_join_nobase l : l <> [""] -> jp_split (jp_join l None) = l.
Proof.
  intros Hl. rewrite jp_join_none. destruct l as [|x l]; [reflexivity|].
  rewrite jp_split_ne.
  - rewrite split_join, map_decode_encode; [reflexivity|discriminate|].
    apply Forall_map, Forall_forall. intros y _. apply jp_encode_noslash.
  - intros H. destruct (join_encode_nil _ H); [discriminate|contradiction].
Qed.

Lemma jp_join_assoc_base a b base :
  base <> "" -> jp_join b (Some (jp_join a (Some base))) = jp_join (a ++ b) (Some base).
Proof.
  intros Hb. rewrite (jp_join_base b) by now apply jp_join_base_ne.
  rewrite !jp_join_base by exact Hb.
  destruct b as [|y b]; [now rewrite app_nil_r|].
  destruct a as [|x a]; [reflexivity|].
  cbn [app]. change (x :: a ++ y :: b)%list with ((x :: a) ++ y :: b)%list.
  rewrite map_app, join_app by discriminate. now rewrite !sapp_assoc.
Qed.

Lemma jp_join_assoc_nobase a b :
  a <> [] -> a <> [""] -> jp_join b (Some (jp_join a None)) = jp_join (a ++ b) None.
Proof.
  intros H1 H2. assert (Hne : jp_join a None <> "").
  { intros H. destruct (join_encode_nil _ H); contradiction. }
  rewrite jp_join_base by exact Hne. rewrite !jp_join_none.
  destruct b as [|y b]; [now rewrite app_nil_r|].
  rewrite map_app, join_app; [reflexivity| |discriminate].
  destruct a; [congruence|discriminate].
Qed.

Lemma jp_join_inj_base a b base :
  base <> "" -> jp_join a (Some base) = jp_join b (Some base) -> a = b.
Proof.
  intros Hb H. apply (f_equal jp_split) in H. rewrite !jp_split_join_base in H by exact Hb.
  now apply app_inv_head in H.
Qed.

Lemma jp_join_inj_nobase a b :
  jp_join a None = jp_join b None -> a = b \/ (a = [] /\ b = [""]) \/ (a = [""] /\ b = []).
Proof.
  intros H.
  destruct (list_eq_dec string_dec a [""]) as [->|Ha].
  - symmetry in H. change (jp_join [""] None) with "" in H. rewrite jp_join_none in H.
    destruct (join_encode_nil _ H) as [->| ->]; auto.
  - destruct (list_eq_dec string_dec b [""]) as [->|Hb].
    + change (jp_join [""] None) with "" in H. rewrite jp_join_none in H.
      destruct (join_encode_nil _ H) as [->| ->]; auto.
    + left. apply (f_equal jp_split) in H. now rewrite !jp_split_join_nobase in H by assumption.
Qed.

Lemma rfc_wf_split s : rfc_wellformed s -> Forall rfc_wellformed (split_char "/" s).
Proof.
  induction s as [|x|x y s IHs IHys] using string_ind2; intros Hw.
  - repeat constructor.
  - cbn [split_char]. destruct (Ascii.eqb_spec x "/") as [->|Hx]; repeat constructor; exact Hw.
  - destruct (Ascii.eqb_spec x "~") as [->|Hx].
    + assert (Hy : (y = "1" \/ y = "0")%char /\ rfc_wellformed s).
      { destruct y as [[] [] [] [] [] [] [] []]; try contradiction Hw; cbn in Hw; auto. }
      destruct Hy as [Hy Hs]. specialize (IHs Hs).
      cbn [split_char]. change (Ascii.eqb "~" "/") with false.
      assert (E : Ascii.eqb y "/" = false) by (destruct Hy as [->| ->]; reflexivity).
      rewrite E. destruct (split_char "/" s) as [|h t]; inversion_clear IHs.
      * repeat constructor. destruct Hy as [->| ->]; exact I.
      * constructor; auto. destruct Hy as [->| ->]; assumption.
    + assert (Hw' : rfc_wellformed (String y s)).
      { destruct x as [[] [] [] [] [] [] [] []]; try exact Hw; congruence. }
      specialize (IHys Hw'). remember (String y s) as z. cbn [split_char].
      destruct (Ascii.eqb_spec x "/") as [->|Hx']; [constructor; [exact I|exact IHys]|].
      destruct (split_char "/" z) as [|h t]; inversion_clear IHys.
      * repeat constructor. destruct x as [[] [] [] [] [] [] [] []]; try exact I; congruence.
      * constructor; auto. destruct x as [[] [] [] [] [] [] [] []]; try assumption; congruence.
Qed.

Lemma jp_compose_split_canonical s : rfc_wellformed s -> jp_join (jp_split s) None = s.
Proof.
  intros Hw. destruct s as [|c s]; [reflexivity|]. remember (String c s) as z.
  assert (z <> "") by (subst; discriminate). rewrite jp_split_ne by assumption.
  rewrite jp_join_none, map_map.
  rewrite <- (join_split "/" z) at 2. f_equal.
  apply rfc_wf_split in Hw. pose proof (split_char_pieces "/" z) as Hp.
  induction (split_char "/" z) as [|p l IH]; [reflexivity|].
  inversion_clear Hw. inversion_clear Hp. cbn [map]. f_equal; [|auto].
  rewrite jp_encode_enc1, jp_decode_rfc. now apply enc1_dec1_wf.
Qed.

Lemma jp_split_pieces s : s <> "" -> exists pieces,
  join "/" pieces = s /\ Forall no_slash pieces /\ jp_split s = map rfc_unescape pieces.
Proof.
  intros Hs. exists (split_char "/" s). repeat split.
  - apply join_split.
  - eapply Forall_impl; [|apply split_char_pieces]. intros p Hp. now apply no_slash_contains.
  - rewrite jp_split_ne by exact Hs. apply map_ext. apply jp_decode_rfc.
Qed.

Lemma jp_split_max1 s : s <> "" ->
  jp_split_max (Some s) (Some 1) =
  match find_char "/" s with
  | None => [jp_decode s]
  | Some i => [jp_decode (stake i s); jp_decode (sdrop (S i) s)]
  end.
Proof. intros H. destruct s as [|c s]; [congruence|]. unfold jp_split_max. rewrite splitn_char_1. destruct (find_char "/" (String c s)); reflexivity. Qed.
