(** Proofs about the last step of the migration to 3.0.0: flows, servers, global security. *)
From Coq Require Import String Ascii List Bool Arith Lia.
From Verif Require Import PyStr PyStrFacts PyVal PyValFacts Jp UrlLib UrlFacts SpecUrl Obj ObjFacts Classes_v2_0 Classes_v3_0_0 TablesFacts SpecJson ShapeFacts DumpFacts SpecObj SpecSchema SpecConv SpecBody SpecOp SpecDoc Store Conv20 ConvFacts SchemaFacts SchemaFacts2 ParamFacts OpFacts OpFacts2 DocFacts DocFacts2 Up30.
Import ListNotations.
Open Scope string_scope. Open Scope nat_scope.

(** ** children of any table *)
Lemma attr_kid tbl c cd d p o ch : well_declared tbl -> lookup c tbl = Some cd -> In ch (c_children cd) ->
  construct tbl (JDict d) (BCls c) p [] = Ok o ->
  (val d (ch_name ch) = JNull /\ attr tbl o (ch_name ch) = Ok (OPrim JNull)) \/
  (val d (ch_name ch) <> JNull /\ exists ko, attr tbl o (ch_name ch) = Ok ko /\ construct tbl (val d (ch_name ch)) (ch_builder ch) (sub_path p (ch_name ch)) [] = Ok ko).
Proof.
  intros W Hc Hin H. rewrite construct_eq in H. cbn [select bind con_core] in H. rewrite split_nil in H. cbn [bind] in H. rewrite Hc in H.
  destruct (con_kids tbl p [] (JDict d) (c_children cd)) as [kids|] eqn:K; [|discriminate]. injection H as <-.
  assert (Nd : NoDup (map ch_name (c_children cd))). { pose proof (W c cd Hc) as D. unfold distinct_names in D. apply NoDup_app_iff_local in D. tauto. }
  pose proof (con_kids_lookup tbl p [] _ _ _ ch K Nd Hin) as Hk.
  assert (G : attr tbl (OObj c p (JDict d) kids) (ch_name ch) = Ok (match lookup (ch_name ch) kids with Some o => o | None => OPrim JNull end)).
  { unfold attr. rewrite Hc. unfold getattr_, getattr_plain.
    assert (Fc : find_child (ch_name ch) (c_children cd) <> None). { intros E. unfold find_child in E. apply find_none with (x := ch) in E; [|exact Hin]. rewrite String.eqb_refl in E. discriminate. }
    destruct (find_child (ch_name ch) (c_children cd)); [|contradiction]. destruct (find_child (ch_name ch) (c_lazy cd)); reflexivity. }
  rewrite G. unfold con_child in Hk. rewrite ovr_get_nil, ovr_here_nil in Hk. unfold val. destruct (lookup (ch_name ch) d) as [v|] eqn:Lk.
  - destruct (json_null_dec v) as [->|Hv].
    + left. split; [reflexivity|]. injection Hk as <-. reflexivity.
    + right. split; [exact Hv|]. assert (R : rmap Some (construct tbl v (ch_builder ch) (sub_path p (ch_name ch)) []) = Ok (lookup (ch_name ch) kids)) by (destruct v; [contradiction| | | | | |]; exact Hk).
      destruct (construct tbl v (ch_builder ch) (sub_path p (ch_name ch)) []) as [ko|] eqn:Hko; [|discriminate]. injection R as R. rewrite <- R.
      exists ko. auto.
  - left. split; [reflexivity|]. destruct (ch_required ch); [discriminate|]. injection Hk as <-. reflexivity.
Qed.

(** ** flows *)
Definition flow_names : list string := ["implicit"; "password"; "clientCredentials"; "authorizationCode"].
Lemma flow_visible d o x s p f : loaded (BCls "SecurityScheme") (JDict d) o -> val d "type" = JStr "oauth2" -> val d "flow" = JStr f ->
  to_security_scheme o = Ok x -> construct v30_table (JDict x) (BCls "SecurityScheme") p [] = Ok s ->
  exists fs, attr v30_table s "flows" = Ok fs /\
    forall g, In g ["implicit"; "password"; "clientCredentials"; "authorizationCode"] ->
      if String.eqb g f then exists q fl k, attr v30_table fs g = Ok (OObj "OAuthFlow" q (JDict fl) k) /\ lookup "authorizationUrl" fl = non_null (val d "authorizationUrl") /\ lookup "tokenUrl" fl = non_null (val d "tokenUrl") /\ lookup "scopes" fl = some_dict (entries_of (val d "scopes"))
      else attr v30_table fs g = Ok (OPrim JNull).
Proof.
  intros L Ty Fl Hx Hs. destruct (scheme_ok _ _ _ L Hx) as (_ & _ & _ & Hf & _). rewrite Ty in Hf. cbn [is_text String.eqb Ascii.eqb Bool.eqb] in Hf.
  destruct Hf as (fj & Lf & f' & fl & Ef & -> & Hu & Hsc & _). rewrite Fl in Ef. injection Ef as <-.
  destruct (attr_kid v30_table "SecurityScheme" v30_SecurityScheme x p s (mk_child "flows" (BCls "OAuthFlows") false) v30_well_declared eq_refl ltac:(left; reflexivity) Hs) as [[Hv _]|(_ & fs & G & Hk)];
    cbn [ch_name ch_builder] in *; rewrite (val_lookup _ _ _ Lf) in *; [discriminate|].
  exists fs. split; [exact G|]. intros g Hg.
  assert (Hin : In (mk_child g (BCls "OAuthFlow") false) (c_children v30_OAuthFlows)). { cbn [In] in Hg. cbn. destruct Hg as [<-|[<-|[<-|[<-|[]]]]]; tauto. }
  destruct (attr_kid v30_table "OAuthFlows" v30_OAuthFlows _ _ fs _ v30_well_declared eq_refl Hin Hk) as [[Hv A]|(Hv & ko & A & Hko)]; cbn [ch_name ch_builder] in *; unfold val in Hv; cbn [lookup] in Hv.
  - destruct (String.eqb g f); [discriminate|exact A].
  - destruct (String.eqb_spec g f) as [->|]; [|contradiction]. unfold val in Hko. cbn [lookup] in Hko. rewrite String.eqb_refl in Hko.
    rewrite construct_eq in Hko. cbn [select bind con_core] in Hko. rewrite split_nil in Hko. cbn [bind] in Hko. change (lookup "OAuthFlow" v30_table) with (Some v30_OAuthFlow) in Hko.
    cbv iota in Hko. destruct (con_kids _ _ _ _ _) as [kids|]; [|discriminate]. injection Hko as <-. do 3 eexists. split; [exact A|]. split; [apply Hu; in_list|]. split; [apply Hu; in_list|].
    rewrite Hsc. destruct (val d "scopes"); reflexivity.
Qed.
(** a flow that OpenAPI 3.0 knows must have scopes *)
Lemma flow_no_scopes d o x p f : loaded (BCls "SecurityScheme") (JDict d) o -> val d "type" = JStr "oauth2" -> val d "flow" = JStr f ->
  In f ["implicit"; "password"; "clientCredentials"; "authorizationCode"] -> entries_of (val d "scopes") = [] ->
  to_security_scheme o = Ok x -> forall s, construct v30_table (JDict x) (BCls "SecurityScheme") p [] <> Ok s.
Proof.
  intros L Ty Fl Hin Sc Hx s Hs. destruct (scheme_ok _ _ _ L Hx) as (_ & _ & _ & Hf & _). rewrite Ty in Hf. cbn [is_text String.eqb Ascii.eqb Bool.eqb] in Hf.
  destruct Hf as (fj & Lf & f' & fl & Ef & -> & Hu & Hsc & _). rewrite Fl in Ef. injection Ef as <-.
  assert (Hsc' : lookup "scopes" fl = None) by (rewrite Hsc; destruct (val d "scopes"); try reflexivity; cbn [entries_of] in Sc; now rewrite Sc).
  destruct (attr_kid v30_table "SecurityScheme" v30_SecurityScheme x p s (mk_child "flows" (BCls "OAuthFlows") false) v30_well_declared eq_refl ltac:(left; reflexivity) Hs) as [[Hv _]|(_ & fs & G & Hk)];
    cbn [ch_name ch_builder] in *; rewrite (val_lookup _ _ _ Lf) in *; [discriminate|].
  assert (Hin' : In (mk_child f (BCls "OAuthFlow") false) (c_children v30_OAuthFlows)). { cbn [In] in Hin. cbn. destruct Hin as [<-|[<-|[<-|[<-|[]]]]]; tauto. }
  destruct (attr_kid v30_table "OAuthFlows" v30_OAuthFlows _ _ fs _ v30_well_declared eq_refl Hin' Hk) as [[Hv A]|(Hv & ko & A & Hko)]; cbn [ch_name ch_builder] in *; unfold val in *; cbn [lookup] in *; rewrite String.eqb_refl in *; [discriminate|].
  rewrite construct_eq in Hko. cbn [select bind con_core] in Hko. rewrite split_nil in Hko. cbn [bind] in Hko. change (lookup "OAuthFlow" v30_table) with (Some v30_OAuthFlow) in Hko.
  cbv iota in Hko. cbn [c_children v30_OAuthFlow con_kids] in Hko. unfold con_child in Hko. rewrite ovr_get_nil, ovr_here_nil in Hko. cbn [ch_name] in Hko. rewrite Hsc' in Hko. discriminate.
Qed.

(** ** servers *)
Lemma absolute_eq p : p <> "" -> (if truthy_str p && negb (first_is "/" p) then "/" ++ p else p)%string = absolute p.
Proof. destruct p as [|c r]; [congruence|]. intros _. cbn [truthy_str andb]. unfold absolute, first_is. destruct c as [[] [] [] [] [] [] [] []]; reflexivity. Qed.
Lemma first_scheme l : (match l with s :: _ => s | [] => "https" end) = match l with [] => "https" | s :: _ => s end. Proof. now destruct l. Qed.
Lemma server_url_ok d o : loaded (BCls "Swagger") (JDict d) o -> text_or_null (val d "host") -> text_or_null (val d "basePath") -> ~ In "" (texts (val d "schemes")) ->
  (text_of (val d "host") <> "" \/ (Forall (fun s => In s ["http"; "https"; "ws"; "wss"]) (texts (val d "schemes")) /\ startswith "//" (text_of (val d "basePath")) = false)) ->
  server_url o = Ok (server_text (text_of (val d "host")) (text_of (val d "basePath")) (texts (val d "schemes"))).
Proof.
  intros L Hh Hb Hs Hc. unfold server_url.
  rewrite (gfield_val "Swagger" d o "host" L eq_refl), (gfield_val "Swagger" d o "basePath" L eq_refl). cbn [bind].
  assert (T : forall j, text_or_null j -> text_or_none j = Ok (text_of j)) by (intros j [->|(s & ->)]; reflexivity).
  rewrite (T _ Hh), (T _ Hb). cbn [bind].
  assert (G : exists x, gattr o "schemes" = Ok x /\ strs x = texts (val d "schemes")).
  { destruct (gattr_child "Swagger" d o "schemes" _ L eq_refl) as [[Hv G]|(Hv & ko & G & Lk & _)]; [exists (OPrim JNull); rewrite Hv; auto|]. exists ko. split; [exact G|]. now apply strs_texts. }
  destruct G as (x & -> & Ex). cbn [bind]. rewrite Ex. unfold server_text. set (h := text_of (val d "host")) in *. set (b := text_of (val d "basePath")) in *. set (ss := texts (val d "schemes")) in *.
  destruct b as [|c b'] eqn:Eb.
  - cbn [truthy_str String.eqb]. destruct h; reflexivity.
  - cbn [String.eqb truthy_str]. set (sch := match ss with [] => "https" | s :: _ => s end).
    assert (Ns : sch <> ""). { unfold sch. destruct ss as [|s0 ss']; [discriminate|]. intros ->. apply Hs. now left. }
    unfold urlunsplit. rewrite (proj2 (truthy_str_true sch) Ns).
    assert (C : truthy_str h || (true && str_in sch uses_netloc && negb (startswith "//" (String c b'))) = true).
    { destruct Hc as [Hn|[Hf Hd]]; [destruct h; [congruence|reflexivity]|]. rewrite Hd. unfold sch. destruct ss as [|s0 ss']; [apply orb_true_r|]. inversion Hf as [|? ? Hs0 _]; subst. cbn [In] in Hs0.
      destruct Hs0 as [<-|[<-|[<-|[<-|[]]]]]; apply orb_true_r. }
    rewrite C. rewrite absolute_eq by discriminate. assert (NE : forall a b : string, a <> "" -> truthy_str (a ++ b) = true) by (intros [|] ?; [congruence|reflexivity]).
    change (truthy_str "") with false. cbv iota. rewrite NE by exact Ns. reflexivity.
Qed.

(** another scheme for the same server *)
Lemma with_scheme_abs s sch host path : s <> "" -> sch <> "" -> Forall scheme_letter (chars sch) -> host <> "" -> free_of "/?#" host -> free_of "?#" path -> (path = "" \/ exists p, path = String "/" p) ->
  with_scheme s (sch ++ "://" ++ host ++ path) = (s ++ "://" ++ host ++ path)%string.
Proof.
  intros Ns Nsch Hl Nh Hh Hp Hpath. unfold with_scheme. change (sch ++ "://" ++ host ++ path)%string with (sch ++ ":" ++ "//" ++ (host ++ path))%string.
  rewrite (split_scheme_abs sch (host ++ path) Nsch Hl). cbv beta iota. unfold split_netloc. change (startswith "//" ("//" ++ host ++ path)) with true. cbv iota.
  change (sdrop 2 ("//" ++ host ++ path))%string with (host ++ path)%string. rewrite (span_netloc_host host path Hh) by (destruct Hpath as [->|(p & ->)]; [now left|right; exists "/"%char, p; auto]).
  rewrite (split_at_none "#" path) by (apply (free_of_contains "?#"); [exact Hp|reflexivity]).
  rewrite (split_at_none "?" path) by (apply (free_of_contains "?#"); [exact Hp|reflexivity]).
  unfold urlunsplit. rewrite (proj2 (truthy_str_true host) Nh), (proj2 (truthy_str_true s) Ns). cbn [orb truthy_str].
  destruct Hpath as [->|(p & ->)]; reflexivity.
Qed.

(** ** global security *)
Lemma security_rejected d l r p o : val d "security" = JList l -> In (JDict r) l -> construct v20_table (JDict d) (BCls "Swagger") p [] <> Ok o.
Proof.
  intros Hl Hr H. destruct (attr_kid v20_table "Swagger" v20_Swagger d p o (mk_child "security" (BListOf (BListOf BStr)) false) v20_well_declared eq_refl ltac:(cbn; tauto) H) as [[Hv _]|(_ & ko & _ & Hk)];
    cbn [ch_name ch_builder] in *; rewrite Hl in *; [discriminate|].
  assert (S : shaped v20_table (BListOf (BListOf BStr)) (JList l)) by (eapply construct_shaped; eexists; exact Hk).
  inversion S as [|? ? Hall| | | | | | |]; subst. specialize (Hall _ Hr). inversion Hall.
Qed.
Lemma security_not_migrated deref nr d o url jp : loaded (BCls "Swagger") (JDict d) o -> elements_of (val d "security") <> [] -> forall r, upgrade30 deref nr o url jp <> Ok r.
Proof.
  intros L Hs r H. destruct (loaded_obj "Swagger" v20_Swagger _ _ eq_refl L) as (p & kids & -> & K). cbn [upgrade30] in H.
  set (o := OObj "Swagger" p (JDict d) kids) in *. change (upgrade30 deref nr o url jp) with (x <- to_openapi deref nr o ;; let '(dd, sec, reloc) := x in r <- construct v30_table (JDict (with_security dd sec)) (BCls "OpenApi") (Some jp) [] ;; Ok (r, reloc)) in H.
  destruct (to_openapi deref nr o) as [[[dd sec] reloc]|] eqn:Ho; [|discriminate]. cbn [bind] in H.
  assert (Se : exists so, sec = Some so).
  { destruct (gattr_child "Swagger" d o "security" _ L eq_refl) as [[Hv G]|(Hv & ko & G & Lk & _)]; [rewrite Hv in Hs; now elim Hs|].
    destruct (loaded_list _ _ _ Lk) as (l & q & es & El & -> & F). rewrite El in Hs. assert (T : truthy_obj (OList (BListOf BStr) q es) = true) by (destruct F; [now elim Hs|reflexivity]).
    unfold to_openapi in Ho. rewrite G in Ho.
    repeat match type of Ho with
           | bind (if ?c then _ else _) _ = Ok _ => let r := fresh "r" in let E := fresh "E" in destruct (if c then _ else _) as [r|] eqn:E in Ho; [cbn [bind] in Ho; try (match type of r with (_ * _)%type => destruct r end)|discriminate]
           | bind (Ok _) _ = Ok _ => cbn [bind] in Ho
           | bind ?x _ = Ok _ => let E := fresh "E" in destruct x eqn:E in Ho; [cbn [bind] in Ho|discriminate]
           end.
    all: apply (f_equal (fun r => match r with Ok (_, s, _) => s | _ => None end)) in Ho; rewrite T in Ho; eauto. }
  destruct Se as (so & ->). cbn [with_security] in H. destruct (construct _ _ _ _ _) as [oo|] eqn:C; [|discriminate].
  destruct (attr_kid v30_table "OpenApi" v30_OpenApi _ _ oo (mk_child "security" (BListOf (BMapOf (BListOf BStr))) false) v30_well_declared eq_refl ltac:(cbn; tauto) C) as [[Hv _]|(_ & ko & _ & Hk)];
    cbn [ch_name ch_builder] in *; unfold val in *; rewrite lookup_set, String.eqb_refl in *; [discriminate|].
  assert (S : shaped v30_table (BListOf (BMapOf (BListOf BStr))) not_a_list) by (eapply construct_shaped; eexists; exact Hk). inversion S.
Qed.
