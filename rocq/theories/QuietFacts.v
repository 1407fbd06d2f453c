(** Resolving references that are answered without a change of the application. *)
From Coq Require Import String Ascii List Bool Arith Lia.
From Verif Require Import PyStr PyStrFacts PyVal PyValFacts Jp UrlLib Urls Obj Classes_v2_0 Classes_v3_0_0 Store Scan App Main SpecRefs RefFacts.
Import ListNotations.
Open Scope string_scope. Open Scope nat_scope.

Section Quiet.
  Variable ask : query -> M (sobj * string).
  Variables (path2url abspath : string -> string) (V url : string).
  Hypothesis HV : V = "2.0" \/ V = "3.0.0".
  Variable a : app.
  Let T := table_of V.
  (** [o] in place of a [b] has no reference, or one that is answered in the state [a] without a change;
      the references written in 3.0.0 *)
  Inductive quiet (b : builder) : obj -> ref_updates -> Prop :=
  | q_prim j : quiet b (OPrim j) []
  | q_list b' p es : quiet b (OList b' p es) []
  | q_map b' p es : quiet b (OMap b' p es) []
  | q_other c p s kids : ~ In c ["Reference"; "PathItem"] -> (V = "2.0" -> oattr T (OObj c p s kids) "ref" = Err AttributeError) -> quiet b (OObj c p s kids) []
  | q_none c p s kids j : c <> "Reference" -> oattr T (OObj c p s kids) "ref" = Ok (OPrim j) -> truthy j = false -> quiet b (OObj c p s kids) []
  | q_ref c p s kids old n y w r : In c (normalized_classes V) -> oattr T (OObj c p s kids) "ref" = Ok (OPrim (JStr old)) -> old <> "" -> 
      normalize_jr (Some old) (Some url) = Ok (Some n) -> ask (request V (a_original a) n b) a = (a, Ok (y, w)) -> so_truthy y = true ->
      new_ref path2url abspath old w = Ok r -> quiet b (OObj c p s kids) (if String.eqb V "2.0" then [] else assigned p r []).
  Lemma quiet_resolve b o u k u0 : quiet b o u -> run ask (resolve_with path2url abspath V url b o k u0) a = run ask (k (u ++ u0)%list) a.
  Proof.
    intros Q. unfold resolve_with. destruct HV as [E|E]; rewrite E; cbn [String.eqb Ascii.eqb Bool.eqb].
    - inversion Q as [j|b' p es|b' p es|c p s kids NI OA|c p s kids j NR OA TJ|c p s kids old n y w r IC OA NE NJ AK TY NR]; subst o u; unfold resolve20; unfold T in *; rewrite E in *; cbn [List.app].
      + destruct (truthy_obj (OPrim j)) eqn:TJ; [|reflexivity]. reflexivity.
      + destruct (truthy_obj (OList b' p es)); reflexivity.
      + destruct (truthy_obj (OMap b' p es)); reflexivity.
      + cbn [truthy_obj]. now rewrite (OA eq_refl).
      + cbn [truthy_obj]. rewrite OA. cbn [truthy_obj]. now rewrite TJ.
      + cbn [truthy_obj]. rewrite OA. assert (TR : truthy_str old = true) by (destruct old; [congruence|reflexivity]). cbn [truthy_obj truthy]. rewrite TR.
        unfold normalized. rewrite OA. cbn [bind]. rewrite TR, NJ. cbn [run]. unfold bindm. unfold request in AK. cbn [String.eqb Ascii.eqb Bool.eqb] in AK. rewrite AK. cbn [fst]. rewrite TY. reflexivity.
    - inversion Q as [j|b' p es|b' p es|c p s kids NI OA|c p s kids j NR OA TJ|c p s kids old n y w r IC OA NE NJ AK TY NR]; subst o u; unfold resolve30; unfold T in *; rewrite E in *; cbn [List.app].
      + reflexivity.
      + reflexivity.
      + reflexivity.
      + destruct (String.eqb_spec c "Reference") as [->|]; [destruct NI; cbn; auto|]. destruct (String.eqb_spec c "PathItem") as [->|]; [destruct NI; cbn; auto|]. reflexivity.
      + destruct (String.eqb_spec c "Reference") as [->|]; [congruence|]. cbn [orb]. destruct (String.eqb c "PathItem"); [|reflexivity].
        unfold normalized. rewrite OA. cbn [bind]. destruct j as [| | | |t| |]; try (rewrite TJ; reflexivity). cbn [truthy] in TJ. rewrite TJ. reflexivity.
      + assert (TR : truthy_str old = true) by (destruct old; [congruence|reflexivity]).
        assert (CC : (String.eqb c "Reference" || String.eqb c "PathItem") = true) by (cbn in IC; destruct IC as [<-|[<-|[]]]; reflexivity).
        rewrite CC. unfold normalized. rewrite OA. cbn [bind]. rewrite TR, NJ. cbn [run]. unfold bindm, get_original. unfold request in AK. cbn [String.eqb Ascii.eqb Bool.eqb] in AK.
        unfold from30. rewrite AK. cbn [fst snd]. rewrite TY, NR. assert (AS : assigned p r u0 = (assigned p r [] ++ u0)%list) by (destruct p; reflexivity). now rewrite AS.
  Qed.
  Inductive quiets : list (builder * obj) -> ref_updates -> Prop :=
  | qs_nil : quiets [] []
  | qs_cons b o l u us : quiet b o u -> quiets l us -> quiets ((b, o) :: l) (us ++ u)%list.
  Lemma quiets_app l l' : forall u, quiets (l ++ l')%list u -> exists u1 u2, quiets l u1 /\ quiets l' u2 /\ u = (u2 ++ u1)%list.
  Proof.
    induction l as [|[b o] l IH]; intros u Q; [exists [], u; split; [constructor|]; split; [exact Q|now rewrite app_nil_r]|].
    cbn [List.app] in Q. inversion Q as [|? ? ? u1 us Q1 Q2]; subst. destruct (IH us Q2) as (v1 & v2 & A & B & ->). exists (v1 ++ u1)%list, v2.
    split; [now constructor|]. split; [exact B|]. now rewrite app_assoc.
  Qed.
  Lemma quiets_ex l : (forall b o, In (b, o) l -> exists u, quiet b o u) -> exists u, quiets l u.
  Proof.
    induction l as [|[b o] l IH]; intros H; [exists []; constructor|]. destruct (H b o (or_introl eq_refl)) as (u & Q). destruct IH as (us & QS); [intros; apply H; now right|].
    exists (us ++ u)%list. now constructor.
  Qed.
  Lemma quiets_from l u q r : quiets l u -> In (q, r) u -> exists b c s kids old n y w, In (b, OObj c (Some q) s kids) l /\ In c (normalized_classes V) /\
    oattr T (OObj c (Some q) s kids) "ref" = Ok (OPrim (JStr old)) /\ normalize_jr (Some old) (Some url) = Ok (Some n) /\
    ask (request V (a_original a) n b) a = (a, Ok (y, w)) /\ new_ref path2url abspath old w = Ok r /\ old <> "".
  Proof.
    intros QS I. induction QS as [|b o l u us Q QS IH]; [contradiction|]. apply in_app_or in I as [I|I].
    - destruct (IH I) as (b' & c & s & kids & old & n & y & w & IL & R). exists b', c, s, kids, old, n, y, w. split; [now right|exact R].
    - inversion Q as [j|b' p es|b' p es|c p s kids NI OA|c p s kids j NR OA TJ|c p s kids old n y w r' IC OA NE NJ AK TY NR]; subst o u; try contradiction.
      destruct (String.eqb V "2.0"); [contradiction|]. destruct p as [p|]; [|contradiction]. destruct I as [I|[]]. injection I as -> ->.
      exists b, c, s, kids, old, n, y, w. split; [now left|]. repeat (split; [assumption|]). assumption.
  Qed.
  Lemma quiets_has l u b c q s kids old : V = "3.0.0" -> quiets l u -> In (b, OObj c (Some q) s kids) l -> In c (normalized_classes V) ->
    oattr T (OObj c (Some q) s kids) "ref" = Ok (OPrim (JStr old)) -> old <> "" -> exists r, In (q, r) u.
  Proof.
    intros E3 QS I IC OA NE. induction QS as [|b' o l u us Q QS IH]; [contradiction|]. destruct I as [I|I].
    - injection I as -> ->. inversion Q as [j|b2 p es|b2 p es|c' p s' kids' NI OA'|c' p s' kids' j NR OA' TJ|c' p s' kids' old' n y w r' IC' OA' NE' NJ AK TY NR]; subst; try (rewrite OA in OA'; try discriminate OA').
      + destruct NI. rewrite E3 in IC. exact IC.
      + injection OA' as <-. cbn in TJ. destruct old; [congruence|discriminate TJ].
      + exists r'. apply in_or_app. right. rewrite E3. now left.
    - destruct (IH I) as (r & IR). exists r. apply in_or_app. now left.
  Qed.

  Definition plain (F : cont -> cont) (l : list (builder * obj)) : Prop := forall k u u0, quiets l u -> run ask (F k u0) a = run ask (k (u ++ u0)%list) a.
  Lemma plain_fold {X} (f : X -> cont -> cont) (g : X -> res (list (builder * obj))) os l :
    (forall x lx, In x os -> g x = Ok lx -> plain (f x) lx) -> rmap (@concat _) (mapM g os) = Ok l -> plain (fun k => fold_right f k os) l.
  Proof.
    revert l. induction os as [|x os IH]; intros l H E k u u0 Q; cbn [mapM rmap] in E.
    - injection E as <-. cbn in Q. inversion Q; subst. reflexivity.
    - destruct (g x) as [lx|] eqn:G; [|discriminate E]. cbn [bind] in E. destruct (mapM g os) as [ls|] eqn:M; [|discriminate E]. cbn [bind rmap] in E. injection E as <-. cbn [concat] in Q.
      apply quiets_app in Q as (u1 & u2 & Q1 & Q2 & ->). cbn [fold_right]. rewrite (H x lx (or_introl eq_refl) G (fold_right f k os) u1 u0 Q1).
      assert (PL : plain (fun k => fold_right f k os) (concat ls)) by (apply IH; [intros y ly I; apply H; now right|reflexivity]).
      rewrite (PL k u2 (u1 ++ u0)%list Q2). now rewrite app_assoc.
  Qed.
  Lemma plain_target o t l : rmap (fun x => map (fun y => (snd x, y)) (fst x)) (pick T o t) = Ok l -> plain (resolve_target path2url abspath V url o t) l.
  Proof.
    unfold resolve_target. fold T. destruct (pick T o t) as [[os b]|]; [|discriminate]. cbn [rmap fst snd]. intros [= <-] k u u0 Q.
    revert u u0 Q. induction os as [|x os IH]; intros u u0 Q; cbn [map] in Q; inversion Q as [|? ? ? u1 us Q1 Q2]; subst; [reflexivity|].
    cbn [fold_right]. rewrite (quiet_resolve b x u1 _ u0 Q1), (IH us (u1 ++ u0)%list Q2). now rewrite app_assoc.
  Qed.
  Lemma plain_refs o l : tasks V o = Ok l -> plain (resolve_obj_refs path2url abspath V url o) l.
  Proof.
    unfold tasks, resolve_obj_refs. destruct o as [j|c p s kids|b p es|b p es]; try (intros [= <-] k u u0 Q; inversion Q; subst; reflexivity).
    intros E. apply (plain_fold _ (fun t => rmap (fun x => map (fun y => (snd x, y)) (fst x)) (pick (table_of V) (OObj c p s kids) t)) _ _); [|exact E].
    intros t lt _ Et. now apply plain_target.
  Qed.
  Theorem quiet_all os l u k : all_tasks V os = Ok l -> quiets l u -> run ask (fold_right (resolve_obj_refs path2url abspath V url) k os []) a = run ask (k u) a.
  Proof.
    intros E Q. assert (PL := plain_fold (resolve_obj_refs path2url abspath V url) (tasks V) os l (fun x lx _ G => plain_refs x lx G) E).
    specialize (PL k u [] Q). rewrite app_nil_r in PL. exact PL.
  Qed.
End Quiet.
