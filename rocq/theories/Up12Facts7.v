(** Conversion of Swagger 1.2 objects: the scanner over listings and declarations. *)
From Coq Require Import String Ascii List Bool Arith ZArith Lia.
From Verif Require Import PyStr PyStrFacts PyVal PyValFacts Jp JpFacts Scope UrlLib Obj SpecObj SpecJson ObjFacts TablesFacts SpecTables Classes_v1_2 Scan ScanFacts ScanFacts2 TraverseFacts PropertiesObjAux Up12 SpecUp12 Up12Facts NumeralFacts Up12Facts2 Up12Facts3 Up12Facts4 Up12Facts5 Up12Facts6.
Import ListNotations.
Open Scope string_scope. Open Scope nat_scope.

Definition others : list string := filter (fun c => negb (existsb (String.eqb c) ["ResourceListing"; "ApiDeclaration"; "Authorization"])) (map fst v12_table).
Lemma others_closed : closed_classes v12_table others = true. Proof. vm_compute. reflexivity. Qed.
Lemma others_not c : In c others -> String.eqb c "ResourceListing" = false /\ String.eqb c "ApiDeclaration" = false /\ String.eqb c "Authorization" = false.
Proof.
  assert (E : forallb (fun c => negb (String.eqb c "ResourceListing") && negb (String.eqb c "ApiDeclaration") && negb (String.eqb c "Authorization")) others = true) by (vm_compute; reflexivity).
  rewrite forallb_forall in E. intros H. specialize (E c H). apply andb_true_iff in E as [E E3]. apply andb_true_iff in E as [E1 E2]. apply negb_true_iff in E1, E2, E3. auto.
Qed.
Lemma foldM_app_local {A B} (f : B -> A -> res B) l m : forall s, foldM f (l ++ m) s = (s' <- foldM f l s ;; foldM f m s').
Proof. induction l as [|x l IH]; intros s; cbn [foldM app]; [reflexivity|]. destruct (f s x); cbn [bind]; [apply IH|reflexivity]. Qed.
Lemma quiet sep p o st : only_in others o -> handle12 sep st (p, o) = Ok st.
Proof.
  intros H. unfold handle12. cbn [snd]. destruct H as [|c p' s kids Hc _| |]; try reflexivity.
  destruct (others_not c Hc) as (E1 & E2 & E3). rewrite E1, E2, E3. reflexivity.
Qed.
Lemma quiet_all sep (l : list (string * obj)) st : (forall e, In e l -> only_in others (snd e)) -> foldM (handle12 sep) l st = Ok st.
Proof.
  induction l as [|[p o] l IH]; intros H; cbn [foldM]; [reflexivity|]. rewrite (quiet sep p o st (H (p, o) (or_introl eq_refl))). cbn [bind]. apply IH. intros e He. apply H. now right.
Qed.
(** objects below *)
Lemma slots_children_only T cs o : (forall k x, In (k, x) (slots T o) -> only_in cs x) -> forall k x, In (k, x) (get_children T o) -> only_in cs x.
Proof.
  intros G k x Hin. rewrite get_children_slots in Hin. revert G Hin. generalize (slots T o) as l. intros l G.
  enough (E : forall acc, (forall k x, In (k, x) acc -> only_in cs x) -> forall k x, In (k, x) (fold_left (add_slot (get_children T)) l acc) -> only_in cs x)
    by (intros Hin; eapply E; [|exact Hin]; contradiction).
  clear k x. induction l as [|[k1 y] l IHl]; intros acc A k x Hin; cbn [fold_left] in Hin; [eauto|].
  assert (Oy := G k1 y (or_introl eq_refl)).
  eapply IHl; [intros ? ? H'; apply (G k0); now right| |exact Hin]. clear Hin. intros k' x' Hin. unfold add_slot in Hin; cbn [fst snd] in Hin.
  destruct y as [j|c p s kids|b p es|b p es].
  - eauto.
  - apply (fold_set_in (fun _ => k1) (fun _ => OObj c p s kids) [tt] acc) in Hin. destruct Hin as [Hin|(i & _ & Ei)]; [eauto|]. cbn [snd] in Ei. rewrite Ei. exact Oy.
  - apply fold_set_in in Hin. destruct Hin as [Hin|([i1 i2] & Hi & Ei)]; [eauto|]. cbn [snd] in Ei. rewrite Ei. exact (only_children T cs _ _ (le_n _) Oy _ _ Hi).
  - apply fold_set_in in Hin. destruct Hin as [Hin|([i1 i2] & Hi & Ei)]; [eauto|]. cbn [snd] in Ei. rewrite Ei. exact (only_children T cs _ _ (le_n _) Oy _ _ Hi).
Qed.
Lemma child_only b j x : builder_in others b = true -> child_made b j x -> only_in others x.
Proof.
  intros Hb [[_ ->]|(_ & p & H)]; [constructor|]. eapply (construct_only v12_table others others_closed); [apply le_n|exact Hb|exact H].
Qed.
Lemma slot_child c j p s kids cd k x : made c j (OObj c p s kids) -> lookup c v12_table = Some cd -> In (k, x) (slots v12_table (OObj c p s kids)) ->
  exists ch, In ch (c_children cd) /\ ch_name ch = k /\ lookup k kids = Some x.
Proof.
  intros M El H. cbn [slots] in H. rewrite El in H. apply in_flat_map in H as (ch & Hch & H). destruct (lookup (ch_name ch) kids) as [y|] eqn:E; [|contradiction].
  destruct H as [H|[]]. injection H as <- <-. eauto.
Qed.
Lemma kid_read c j p s kids k b x : made c j (OObj c p s kids) -> is_child c k b -> lookup k kids = Some x -> child_made b (get j k) x.
Proof.
  intros M C Hk. destruct (attr12_child _ _ _ _ _ M C) as (y & Hy & Cy). unfold is_child in C. unfold attr12 in Hy.
  destruct (lookup c v12_table) as [cd|]; [|contradiction]. unfold getattr_, getattr_plain in Hy. destruct (find_child k (c_children cd)) as [ch|]; [|contradiction].
  rewrite Hk in Hy. apply Ok_inj in Hy. now subst.
Qed.
Lemma kid_none c j p s kids k b : made c j (OObj c p s kids) -> is_child c k b -> lookup k kids = None -> child_made b (get j k) (OPrim JNull).
Proof.
  intros M C Hk. destruct (attr12_child _ _ _ _ _ M C) as (y & Hy & Cy). unfold is_child in C. unfold attr12 in Hy.
  destruct (lookup c v12_table) as [cd|]; [|contradiction]. unfold getattr_, getattr_plain in Hy. destruct (find_child k (c_children cd)) as [ch|]; [|contradiction].
  rewrite Hk in Hy. apply Ok_inj in Hy. now subst.
Qed.
Lemma made_only c j o : made c j o -> In c ["ApiDeclaration"; "Authorization"] -> forall k x, In (k, x) (get_children v12_table o) -> only_in others x.
Proof.
  intros M Hc. destruct (made_shape _ _ _ M) as (p & kids & cd & -> & El & _). apply slots_children_only. intros k x H.
  destruct (slot_child _ _ _ _ _ _ _ _ M El H) as (ch & Hch & Hn & Hk).
  cbn [In] in Hc. destruct Hc as [<-|[<-|[]]]; cbv in El; injection El as <-; cbn [c_children In] in Hch.
  - destruct Hch as [<-|[<-|[<-|[]]]]; cbn [ch_name] in Hn; subst k.
    + apply (child_only (BListOf (BCls "Api")) (get j "apis")); [vm_compute; reflexivity|]. exact (kid_read _ _ _ _ _ "apis" (BListOf (BCls "Api")) _ M eq_refl Hk).
    + apply (child_only (BMapOf (BCls "Model")) (get j "models")); [vm_compute; reflexivity|]. exact (kid_read _ _ _ _ _ "models" (BMapOf (BCls "Model")) _ M eq_refl Hk).
    + apply (child_only (BMapOf (BListOf (BCls "Authorizations"))) (get j "authorizations")); [vm_compute; reflexivity|]. exact (kid_read _ _ _ _ _ "authorizations" (BMapOf (BListOf (BCls "Authorizations"))) _ M eq_refl Hk).
  - destruct Hch as [<-|[<-|[]]]; cbn [ch_name] in Hn; subst k.
    + apply (child_only (BListOf (BCls "Scope")) (get j "scopes")); [vm_compute; reflexivity|]. exact (kid_read _ _ _ _ _ "scopes" (BListOf (BCls "Scope")) _ M eq_refl Hk).
    + apply (child_only (BCls "GrantTypes") (get j "grantTypes")); [vm_compute; reflexivity|]. exact (kid_read _ _ _ _ _ "grantTypes" (BCls "GrantTypes") _ M eq_refl Hk).
Qed.
(** the visits of an object *)
Lemma visits_below T d o e : In e (tl (visits T [] d o)) -> exists k x e' d', In (k, x) (get_children T o) /\ In e' (visits T [] d' x) /\ snd e = snd e'.
Proof.
  destruct d as [|d]; [intros []|]. rewrite visits_eq. cbn [tl]. destruct (is_leaf [] o); [intros []|]. intros H. apply in_flat_map in H as ([k x] & Hx & H). apply in_rev in Hx.
  apply in_map_iff in H as (e' & <- & H). exists k, x, e', d. auto.
Qed.
Lemma visits_head T d o : visits T [] d o = ([], o) :: tl (visits T [] d o). Proof. destruct d; reflexivity. Qed.
Lemma visits_quiet c j o d e : made c j o -> In c ["ApiDeclaration"; "Authorization"] -> In e (tl (visits v12_table [] d o)) -> only_in others (snd e).
Proof.
  intros M Hc He. apply visits_below in He as (k & x & e' & d' & Hx & He' & ->). eapply only_visits; [|exact He']. eapply made_only; eauto.
Qed.
Lemma v12_wd : well_declared v12_table. Proof. apply repo_wd. constructor. Qed.
Lemma scan12_visits sep o st : scan12 sep o st = foldM (handle12 sep) (map (shown "#") (visits v12_table [] (odepth o) o)) st.
Proof. unfold scan12. rewrite (tree_size_enough v12_table [] o (tree_size o) v12_wd (le_n _)). reflexivity. Qed.
Lemma scan_declaration sep dj o s : made "ApiDeclaration" dj o -> scan12 sep o (Some s) = (s' <- api_declaration sep o s ;; Ok (Some s')).
Proof.
  intros M. rewrite scan12_visits, visits_head. cbn [map foldM]. unfold shown at 1. cbn [fst snd]. destruct (made_shape _ _ _ M) as (p & kids & cd & E & _). rewrite E at 2. unfold handle12 at 1. cbn [snd].
  change (String.eqb "ApiDeclaration" "ResourceListing") with false. change (String.eqb "ApiDeclaration" "ApiDeclaration") with true. cbv iota. rewrite E at 1. rewrite <- E at 1.
  destruct (api_declaration sep o s) as [s'|e]; cbn [bind]; [|reflexivity]. apply quiet_all. intros e He. apply in_map_iff in He as (e' & <- & He'). cbn [shown snd].
  eapply visits_quiet; [exact M|cbn; tauto|exact He'].
Qed.

(** ** the listing *)
Lemma fold_set_in2 {A B} (f : B -> string) (g : B -> A) l : forall acc k x,
  In (k, x) (fold_left (fun acc i => dict_set (f i) (g i) acc) l acc) -> In (k, x) acc \/ exists i, In i l /\ k = f i /\ x = g i.
Proof.
  induction l as [|i l IH]; intros acc k x H; cbn in H; [auto|]. apply IH in H as [H|(i' & Hi & E)]; [|right; exists i'; cbn; auto].
  apply in_dict_set in H as [E|H]; [|auto]. right. exists i. injection E as -> ->. cbn. auto.
Qed.
Lemma fold_set_lookup {A B} (f : B -> string) (g : B -> A) l : NoDup (map f l) -> forall acc i, In i l ->
  lookup (f i) (fold_left (fun acc i => dict_set (f i) (g i) acc) l acc) = Some (g i).
Proof.
  assert (K : forall l acc k, ~ In k (map f l) -> lookup k (fold_left (fun acc i => dict_set (f i) (g i) acc) l acc) = lookup k acc).
  { clear l. induction l as [|i l IH]; intros acc k N; cbn [fold_left map] in *; [reflexivity|]. rewrite IH by (intros ?; apply N; now right).
    rewrite lookup_dict_set. destruct (String.eqb_spec k (f i)) as [->|]; [exfalso; apply N; now left|reflexivity]. }
  induction l as [|i0 l IH]; intros N acc i I; [contradiction|]. cbn [map] in N. inversion_clear N as [|? ? N1 N2]. cbn [fold_left]. destruct I as [<-|I]; [|now apply IH].
  rewrite K by exact N1. rewrite lookup_dict_set, String.eqb_refl. reflexivity.
Qed.
Lemma fold_set_nodup {A B} (f : B -> string) (g : B -> A) l : forall acc, NoDup (keys acc) -> NoDup (keys (fold_left (fun acc i => dict_set (f i) (g i) acc) l acc)).
Proof. induction l as [|i l IH]; intros acc N; cbn [fold_left]; [exact N|]. apply IH. now apply dict_set_nodup. Qed.
Definition auth_key (n : string) : string := jp_join ["authorizations"; n] None.
Lemma auth_key_inj a b : auth_key a = auth_key b -> a = b.
Proof.
  unfold auth_key. rewrite !jp_join2. intros H. apply jp_encode_inj. apply sapp_inv_head in H. congruence.
Qed.
(** the entries of a map of objects *)
Definition objects (es : list (string * obj)) : Prop := forall k x, In (k, x) es -> exists c p s kids, x = OObj c p s kids.
Lemma map_children T b p es : objects es -> get_children T (OMap b p es) = fold_left (fun acc i => dict_set (fst i) (snd i) acc) es [].
Proof.
  intros O. rewrite get_children_slots. cbn [slots]. generalize (@nil (string * obj)) as acc. revert O. induction es as [|[k x] es IH]; intros O acc; cbn [fold_left]; [reflexivity|].
  destruct (O k x (or_introl eq_refl)) as (c & p' & s & kids & ->). unfold add_slot at 2. cbn [fst snd]. apply IH. intros k' x' H. apply (O k'). now right.
Qed.
Definition auth_child (j : json) (k : string) (x : obj) (n : string) (v : json) : Prop :=
  In (n, v) (fields (get j "authorizations")) /\ k = auth_key n /\ made "Authorization" v x.
Lemma Forall2_in_left {A B} (R : A -> B -> Prop) l m x : Forall2 R l m -> In x l -> exists y, In y m /\ R x y.
Proof. induction 1 as [|a b l m H F IH]; intros I; [contradiction|]. destruct I as [<-|I]; [exists b; split; [now left|exact H]|]. destruct (IH I) as (y & Iy & Hy). exists y. split; [now right|exact Hy]. Qed.
Lemma Forall2_in_right {A B} (R : A -> B -> Prop) l m y : Forall2 R l m -> In y m -> exists x, In x l /\ R x y.
Proof. induction 1 as [|a b l m H F IH]; intros I; [contradiction|]. destruct I as [<-|I]; [exists a; split; [now left|exact H]|]. destruct (IH I) as (x & Ix & Hx). exists x. split; [now right|exact Hx]. Qed.
Lemma listing_children j o : made "ResourceListing" j o ->
  exists early, (forall k x, In (k, x) early -> only_in others x) /\
   ((get j "authorizations" = JNull /\ get_children v12_table o = early) \/
    exists d es, get j "authorizations" = JDict d /\ Forall2 (fun v e => fst v = fst e /\ made "Authorization" (snd v) (snd e)) d es /\
      get_children v12_table o = fold_left (fun acc i => dict_set (auth_key (fst i)) (snd i) acc) (fold_left (fun acc i => dict_set (fst i) (snd i) acc) es []) early).
Proof.
  intros M. destruct (made_shape _ _ _ M) as (p & kids & cd & -> & El & _). assert (El' := El). cbv in El'. injection El' as <-.
  rewrite get_children_slots. cbn [slots]. rewrite El. cbn [c_children flat_map ch_name]. rewrite app_nil_r, app_assoc, fold_left_app.
  match goal with |- context [fold_left (add_slot (get_children v12_table)) ?pre []] => set (pre0 := pre) end.
  exists (fold_left (add_slot (get_children v12_table)) pre0 []). split.
  - assert (G : forall k x, In (k, x) pre0 -> only_in others x).
    { intros k x H. unfold pre0 in H. apply in_app_or in H as [H|H].
      - destruct (lookup "apis" kids) as [y|] eqn:E; [|contradiction]. destruct H as [H|[]]. injection H as <- <-. eapply child_only; [|exact (kid_read _ _ _ _ _ "apis" (BListOf (BCls "ResourceInListing")) _ M eq_refl E)]. vm_compute; reflexivity.
      - destruct (lookup "info" kids) as [y|] eqn:E; [|contradiction]. destruct H as [H|[]]. injection H as <- <-. eapply child_only; [|exact (kid_read _ _ _ _ _ "info" (BCls "Info") _ M eq_refl E)]. vm_compute; reflexivity. }
    enough (E : forall l acc, (forall k x, In (k, x) l -> only_in others x) -> (forall k x, In (k, x) acc -> only_in others x) -> forall k x, In (k, x) (fold_left (add_slot (get_children v12_table)) l acc) -> only_in others x)
      by (apply E; [exact G|intros ? ? []]).
    clear. induction l as [|[k1 y] l IHl]; intros acc G A k x Hin; cbn [fold_left] in Hin; [eauto|].
    assert (Oy := G k1 y (or_introl eq_refl)).
    eapply IHl; [intros ? ? H'; apply (G k0); now right| |exact Hin]. clear Hin. intros k' x' Hin. unfold add_slot in Hin; cbn [fst snd] in Hin.
    destruct y as [j|c p s kids|b p es|b p es].
    + eauto.
    + apply (fold_set_in (fun _ => k1) (fun _ => OObj c p s kids) [tt] acc) in Hin. destruct Hin as [Hin|(i & _ & Ei)]; [eauto|]. cbn [snd] in Ei. rewrite Ei. exact Oy.
    + apply fold_set_in in Hin. destruct Hin as [Hin|([i1 i2] & Hi & Ei)]; [eauto|]. cbn [snd] in Ei. rewrite Ei. exact (only_children _ others _ _ (le_n _) Oy _ _ Hi).
    + apply fold_set_in in Hin. destruct Hin as [Hin|([i1 i2] & Hi & Ei)]; [eauto|]. cbn [snd] in Ei. rewrite Ei. exact (only_children _ others _ _ (le_n _) Oy _ _ Hi).
  - destruct (lookup "authorizations" kids) as [y|] eqn:E.
    + pose proof (kid_read _ _ _ _ _ "authorizations" (BMapOf (BCls "Authorization")) _ M eq_refl E) as C. apply child_map in C as [[C ->]|(d & p' & es & C & -> & F)].
      * left. split; [exact C|]. reflexivity.
      * right. exists d, es. split; [exact C|]. split; [exact F|]. cbn [fold_left]. unfold add_slot at 1. cbn [fst snd]. rewrite map_children; [reflexivity|].
        intros k x I. destruct (Forall2_in_right _ _ _ _ F I) as (v & _ & _ & Mv). cbn [snd] in Mv. destruct (made_shape _ _ _ Mv) as (q & ks & cd & -> & _). eauto.
    + assert (Hn : get j "authorizations" = JNull).
      { pose proof (kid_none _ _ _ _ _ "authorizations" (BMapOf (BCls "Authorization")) M eq_refl E) as Cy.
        apply child_map in Cy as [[C _]|(d & p' & es & C & H & F)]; [exact C|discriminate]. }
      left. split; [exact Hn|]. reflexivity.
Qed.
Lemma listing_child_cases j o k x : made "ResourceListing" j o -> In (k, x) (get_children v12_table o) -> only_in others x \/ exists n v, auth_child j k x n v.
Proof.
  intros M I. destruct (listing_children _ _ M) as (early & He & [[_ E]|(d & es & Ed & F & E)]); rewrite E in I; [left; eauto|].
  apply fold_set_in2 in I as [I|([n y] & I & -> & ->)]; [left; eauto|]. right. cbn [fst snd].
  apply fold_set_in2 in I as [[]|([n' y'] & I & -> & ->)]. cbn [fst snd] in *. destruct (Forall2_in_right _ _ _ _ F I) as ([n2 v] & Iv & En & Mv). cbn [fst snd] in *. subst n2.
  exists n', v. split; [now rewrite Ed|]. split; [reflexivity|exact Mv].
Qed.
Lemma map_fst_keys {A} (l : list (string * A)) : map fst l = keys l. Proof. reflexivity. Qed.
Lemma fold_set_same (es : list (string * obj)) : NoDup (keys es) -> forall acc, (forall k, In k (keys es) -> lookup k acc = None) ->
  fold_left (fun acc i => dict_set (fst i) (snd i) acc) es acc = (acc ++ es)%list.
Proof.
  induction es as [|[k x] es IH]; intros N acc H; cbn [fold_left]; [now rewrite app_nil_r|]. inversion_clear N as [|? ? N1 N2]. cbn [fst snd].
  assert (E : dict_set k x acc = (acc ++ [(k, x)])%list).
  { specialize (H k (or_introl eq_refl)). clear - H. induction acc as [|[k' x'] acc IHa]; cbn [dict_set lookup app] in *; [reflexivity|]. destruct (String.eqb k k'); [discriminate|]. now rewrite IHa. }
  rewrite IH; [rewrite E; now rewrite <- app_assoc|exact N2|]. intros k' I. rewrite lookup_dict_set. destruct (String.eqb_spec k' k) as [->|]; [contradiction|]. apply H. now right.
Qed.
Lemma listing_child_all j o n v : made "ResourceListing" j o -> NoDup (keys (fields (get j "authorizations"))) -> In (n, v) (fields (get j "authorizations")) ->
  exists x, In (auth_key n, x) (get_children v12_table o) /\ made "Authorization" v x.
Proof.
  intros M N I. destruct (listing_children _ _ M) as (early & He & [[E _]|(d & es & Ed & F & E)]); [rewrite E in I; contradiction|]. rewrite Ed in *. cbn [fields] in *.
  assert (K : keys es = keys d) by (clear - F; induction F as [|[a b] [a' b'] l m [H _] F IH]; [reflexivity|]; unfold keys in *; cbn [map fst snd] in *; congruence).
  destruct (Forall2_in_left _ _ _ _ F I) as ([n' x] & Ix & En & Mx). cbn [fst snd] in *. subst n'. exists x. split; [|exact Mx].
  rewrite E, (fold_set_same es); [|rewrite K; exact N|reflexivity]. cbn [app].
  pose proof (fold_set_lookup (fun i : string * obj => auth_key (fst i)) (fun i => snd i) es) as L.
  specialize (L ltac:(rewrite <- (map_map fst auth_key), map_fst_keys, K; apply FinFun.Injective_map_NoDup; [exact auth_key_inj|exact N]) early (n, x) Ix).
  cbn [fst snd] in L. now apply lookup_in_local in L.
Qed.

(** ** scanning the listing *)
Lemma auth_path n : get_name (extend "#" [auth_key n]) = Ok (jp_encode n).
Proof.
  unfold extend. cbn [fold_left]. unfold auth_key. rewrite jp_join2. unfold get_name.
  change (join "/" ["#"; (jp_encode "authorizations" ++ String "/" (jp_encode n))%string]) with ("#" ++ String "/" (jp_encode "authorizations" ++ String "/" (jp_encode n)))%string.
  rewrite split_char_app by reflexivity. rewrite split_char_app by reflexivity. rewrite split_char_nosep by apply jp_encode_noslash. reflexivity.
Qed.
Definition sub_scan (sep : string) (d : nat) (st : option sw) (kx : string * obj) : res (option sw) :=
  foldM (handle12 sep) (map (shown "#") (map (fun e => (fst kx :: fst e, snd e)) (visits v12_table [] d (snd kx)))) st.
Lemma foldM_flat {A B C} (f : C -> B -> res C) (g : A -> list B) l : forall s, foldM f (flat_map g l) s = foldM (fun s x => foldM f (g x) s) l s.
Proof. induction l as [|x l IH]; intros s; cbn [flat_map foldM]; [reflexivity|]. rewrite foldM_app_local. destruct (foldM f (g x) s); cbn [bind]; [apply IH|reflexivity]. Qed.
Lemma map_flat_map {A B C} (f : B -> C) (g : A -> list B) l : map f (flat_map g l) = flat_map (fun x => map f (g x)) l.
Proof. induction l as [|x l IH]; cbn; [reflexivity|]. now rewrite map_app, IH. Qed.
Lemma sub_quiet sep d k x st : only_in others x -> sub_scan sep d st (k, x) = Ok st.
Proof.
  intros H. unfold sub_scan. apply quiet_all. intros e He. apply in_map_iff in He as (e1 & <- & He). apply in_map_iff in He as (e2 & <- & He). cbn [shown fst snd] in *.
  eapply only_visits; [exact H|exact He].
Qed.
Lemma sub_auth sep d j k x n v s : auth_child j k x n v -> sub_scan sep d (Some s) (k, x) =
  (dd <- authorization_spec x ;; Ok (Some (mk_sw (s_info s) (s_tags s) (s_defs s) (s_paths s) (dict_set (jp_encode n) dd (s_secs s))))).
Proof.
  intros (_ & -> & M). unfold sub_scan. cbn [fst snd]. rewrite visits_head. cbn [map foldM]. unfold shown at 1. cbn [fst snd].
  assert (H : handle12 sep (Some s) (extend "#" [auth_key n], x) = (s' <- authorization (extend "#" [auth_key n]) x s ;; Ok (Some s'))).
  { destruct (made_shape _ _ _ M) as (p & kids & cd & -> & _). reflexivity. }
  rewrite H. clear H. unfold authorization. rewrite auth_path. destruct (authorization_spec x) as [dd|e]; cbn [bind]; [|reflexivity].
  apply quiet_all. intros e He. apply in_map_iff in He as (e1 & <- & He). apply in_map_iff in He as (e2 & <- & He). cbn [shown fst snd] in *.
  eapply visits_quiet; [exact M|cbn; tauto|exact He].
Qed.
Definition same_but_secs (s s' : sw) : Prop := s_info s' = s_info s /\ s_tags s' = s_tags s /\ s_defs s' = s_defs s /\ s_paths s' = s_paths s.
Lemma children_scan sep d j L : (forall k x, In (k, x) L -> only_in others x \/ exists n v, auth_child j k x n v) -> forall s st,
  foldM (sub_scan sep d) L (Some s) = Ok st -> exists s', st = Some s' /\ same_but_secs s s' /\ (NoDup (keys (s_secs s)) -> NoDup (keys (s_secs s'))) /\
    forall name,
      (exists k x n v dd, In (k, x) L /\ auth_child j k x n v /\ jp_encode n = name /\ lookup name (s_secs s') = Some dd /\ security_image v dd) \/
      ((forall k x n v, In (k, x) L -> auth_child j k x n v -> jp_encode n <> name) /\ lookup name (s_secs s') = lookup name (s_secs s)).
Proof.
  induction L as [|[k x] L IH]; intros C s st H; cbn [foldM] in H.
  - apply Ok_inj in H. subst st. exists s. split; [reflexivity|]. split; [unfold same_but_secs; auto|]. split; [auto|]. intros name. right. split; [intros ? ? ? ? []|reflexivity].
  - apply bind_ok in H as (st1 & H1 & H). assert (C' : forall k x, In (k, x) L -> only_in others x \/ exists n v, auth_child j k x n v) by (intros; apply C; now right).
    destruct (C k x (or_introl eq_refl)) as [Hq|(n & v & Ha)].
    + rewrite (sub_quiet _ _ _ _ _ Hq) in H1. apply Ok_inj in H1. subst st1. destruct (IH C' _ _ H) as (s' & -> & Sm & Nd & G). exists s'. split; [reflexivity|]. split; [exact Sm|]. split; [exact Nd|].
      intros name. destruct (G name) as [(k1 & x1 & n1 & v1 & dd & I & A & B & D)|[G1 G2]].
      * left. exists k1, x1, n1, v1, dd. split; [now right|]. auto.
      * right. split; [|exact G2]. intros k1 x1 n1 v1 [I|I] A; [|eapply G1; eauto]. injection I as <- <-. destruct A as (_ & _ & M).
        destruct (made_shape _ _ _ M) as (p & kids & cd & -> & _). inversion_clear Hq as [|? ? ? ? Hc _| |]. exfalso. apply others_not in Hc as (_ & _ & Hc). discriminate Hc.
    + rewrite (sub_auth _ _ _ _ _ _ _ _ Ha) in H1. apply bind_ok in H1 as (dd & Hd & H1). apply Ok_inj in H1. subst st1. destruct (IH C' _ _ H) as (s' & -> & (S1 & S2 & S3 & S4) & Nd & G).
      exists s'. split; [reflexivity|]. cbn [s_info s_tags s_defs s_paths s_secs] in *. split; [unfold same_but_secs; auto|]. split; [intros N; apply Nd; now apply dict_set_nodup|].
      intros name. destruct (G name) as [(k1 & x1 & n1 & v1 & dd1 & I & A & B & D)|[G1 G2]].
      * left. exists k1, x1, n1, v1, dd1. split; [now right|]. auto.
      * rewrite lookup_dict_set in G2. destruct (String.eqb_spec name (jp_encode n)) as [->|Hne].
        -- left. exists k, x, n, v, dd. split; [now left|]. split; [exact Ha|]. split; [reflexivity|]. split; [exact G2|]. destruct Ha as (_ & _ & M). eapply authorization_ok; eauto.
        -- right. split; [|exact G2]. intros k1 x1 n1 v1 [I|I] A; [|eapply G1; eauto]. injection I as <- <-. destruct A as (_ & E & _), Ha as (_ & E' & _). rewrite E' in E. apply auth_key_inj in E. congruence.
Qed.
Definition securities_ok (j : json) (secs : list (string * doc)) : Prop :=
  NoDup (keys secs) /\
  (forall n v, In (n, v) (fields (get j "authorizations")) -> exists d, lookup (jp_encode n) secs = Some d /\ security_image v d) /\
  (forall name, lookup name secs <> None -> exists n v, In (n, v) (fields (get j "authorizations")) /\ name = jp_encode n).
Lemma nodup_in_eq {A} (l : list (string * A)) n v v' : NoDup (keys l) -> In (n, v) l -> In (n, v') l -> v = v'.
Proof.
  induction l as [|[k x] l IH]; intros N I I'; [contradiction|]. inversion_clear N as [|? ? N1 N2]. destruct I as [I|I], I' as [I'|I'].
  - congruence.
  - injection I as -> ->. exfalso. apply N1. apply in_map_iff. now exists (n, v').
  - injection I' as -> ->. exfalso. apply N1. apply in_map_iff. now exists (n, v).
  - now apply IH.
Qed.
Lemma scan_listing sep j o st : made "ResourceListing" j o -> NoDup (keys (fields (get j "authorizations"))) -> scan12 sep o None = Ok st ->
  exists s, st = Some s /\ info_image j (s_info s) /\ s_tags s = [] /\ s_defs s = [] /\ s_paths s = [] /\ securities_ok j (s_secs s).
Proof.
  intros M N H. rewrite scan12_visits in H. assert (D : exists d, odepth o = S d) by (destruct (made_shape _ _ _ M) as (p & kids & cd & -> & _); eexists; reflexivity).
  destruct D as (d & D). rewrite D, visits_eq in H. assert (L : is_leaf [] o = false) by (destruct (made_shape _ _ _ M) as (p & kids & cd & -> & _); reflexivity).
  rewrite L in H. cbn [map foldM] in H. unfold shown at 1 in H. cbn [fst snd] in H.
  assert (H0 : handle12 sep None (extend "#" [], o) = (s <- resource_listing o ;; Ok (Some s))) by (destruct (made_shape _ _ _ M) as (p & kids & cd & -> & _); reflexivity).
  rewrite H0 in H. apply bind_ok in H as (st1 & H1 & H). apply bind_ok in H1 as (s0 & Hl & H1). apply Ok_inj in H1. subst st1.
  destruct (listing_ok _ _ _ M Hl) as [Hi Hs]. rewrite map_flat_map, foldM_flat in H.
  change (foldM (sub_scan sep d) (rev (get_children v12_table o)) (Some s0) = Ok st) in H.
  destruct (children_scan sep d j (rev (get_children v12_table o))) with (s := s0) (st := st) as (s' & -> & (S1 & S2 & S3 & S4) & Nd & G).
  { intros k x I. apply in_rev in I. eapply listing_child_cases; eauto. } { exact H. }
  exists s'. split; [reflexivity|]. rewrite Hs in *. cbn [s_info s_tags s_defs s_paths s_secs] in *. split; [now rewrite S1|]. split; [exact S2|]. split; [exact S3|]. split; [exact S4|].
  split; [apply Nd; constructor|]. split.
  - intros n v I. destruct (listing_child_all _ _ _ _ M N I) as (x & Ix & Mx). destruct (G (jp_encode n)) as [(k1 & x1 & n1 & v1 & dd & I1 & A & B & C & E)|[G1 _]].
    + apply jp_encode_inj in B. subst n1. destruct A as (A & _). rewrite (nodup_in_eq _ _ _ _ N I A). eauto.
    + exfalso. apply (G1 (auth_key n) x n v); [now apply -> in_rev|split; auto|reflexivity].
  - intros name Hn. destruct (G name) as [(k1 & x1 & n1 & v1 & dd & I1 & (A & _) & B & _)|[_ G2]]; [exists n1, v1; auto|]. rewrite G2 in Hn. contradiction.
Qed.
