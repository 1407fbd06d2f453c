(** References rewritten to what they are already. *)
From Coq Require Import String Ascii List Bool Arith Lia.
From Verif Require Import PyStr PyStrFacts PyVal PyValFacts Jp JpFacts NatDecFacts Urls Obj ObjFacts SpecJson SpecObj ShapeFacts DumpFacts ResolveFacts PropertiesObjAux
  Classes_v1_2 Classes_v2_0 Classes_v3_0_0 Store Scan App Main MainFacts SpecTables SpecOpen RewriteFacts.
Import ListNotations.
Open Scope string_scope. Open Scope nat_scope.

Lemma dict_ext {A} (d d' : list (string * A)) : keys d = keys d' -> NoDup (keys d) -> (forall k v v', lookup k d = Some v -> lookup k d' = Some v' -> v = v') -> d = d'.
Proof.
  intros K N H. assert (F := dict_pairs (fun _ v v' => v = v') d d' K N H). clear -F. induction F as [|[k v] [k' v'] d d' [E1 E2] F IH]; [reflexivity|]. cbn in E1, E2. congruence.
Qed.
Lemma nth_error_ext {A} : forall (l l' : list A), (forall n, nth_error l n = nth_error l' n) -> l = l'.
Proof.
  induction l as [|x l IH]; intros [|y l'] H; try reflexivity; try (specialize (H 0); discriminate H). f_equal; [specialize (H 0); now injection H|]. apply IH. intros n. exact (H (S n)).
Qed.
Section Still.
  Variables (T : ctable) (u : ref_updates).
  Hypothesis WD : well_declared T.
  Hypothesis NOREF : forall c cd ch, lookup c T = Some cd -> In ch (c_children cd) -> ch_name ch <> "$ref".
  Definition still (o : obj) : Prop := forall ts c q d kids r r0, within o ts (OObj c (Some q) (JDict d) kids) -> lookup q u = Some r -> lookup "$ref" d = Some (JStr r0) -> r = r0.
  Lemma graft_still : forall j, wf_json j -> forall b p o, construct T j b p [] = Ok o -> still o -> graft (rewrite_refs u o) j = j.
  Proof.
    induction j as [j IH] using json_part_ind. intros W b p o C ST. rewrite construct_eq in C. apply bind_ok in C as (k & K & C).
    destruct k as [v|c|b'|b'|]; cbn [con_core] in C.
    - injection C as <-. reflexivity.
    - rewrite split_nil in C. cbn [bind] in C. destruct (lookup c T) as [cd|] eqn:Tc; [|discriminate C]. apply bind_ok in C as (kids & CK & E). injection E as <-.
      assert (ND : NoDup (map ch_name (c_children cd))).
      { pose proof (WD c cd Tc) as D. unfold distinct_names in D. apply NoDup_app_iff_local in D. first [exact (proj1 D)|exact (proj1 (proj2 D))]. }
      rewrite rewrite_obj. set (kids' := map (fun kx => (fst kx, rewrite_refs u (snd kx))) kids).
      assert (Dj : (exists d, j = JDict d) \/ forall d, j <> JDict d) by (destruct j; eauto; right; discriminate).
      destruct Dj as [(d & ->)|Hd].
      + rewrite graft_kids_entries, own_ref_dict. cbn [graft]. f_equal. pose proof W as W0. apply wf_dict in W as [Nd Wd].
        assert (LK : forall k, lookup k kids' = option_map (rewrite_refs u) (lookup k kids)) by (intros k; apply lookup_map).
        assert (NR : lookup "$ref" kids = None).
        { apply PyValFacts.lookup_none. intros I. apply (con_kids_keys _ _ _ _ _ _ _ CK) in I. apply in_map_iff in I as (ch & E & I). exact (NOREF _ _ _ Tc I E). }
        assert (KID : forall k x, lookup k kids = Some x -> exists ch v, In ch (c_children cd) /\ ch_name ch = k /\ lookup k d = Some v /\ v <> JNull /\ part v (JDict d) /\ construct T v (ch_builder ch) (sub_path p k) [] = Ok x).
        { intros k x Lx. assert (I : In k (keys kids)) by (apply PyValFacts.lookup_In in Lx; now apply (in_map fst) in Lx).
          apply (con_kids_keys _ _ _ _ _ _ _ CK) in I. apply in_map_iff in I as (ch & <- & I). pose proof (con_kids_lookup _ _ _ _ _ _ ch CK ND I) as CC. rewrite Lx in CC.
          unfold con_child in CC. rewrite ovr_get_nil, ovr_here_nil in CC. destruct (lookup (ch_name ch) d) as [v|] eqn:Lv; [|destruct (ch_required ch); discriminate CC].
          assert (PV : part v (JDict d)) by (exists (ch_name ch); now apply PyValFacts.lookup_In).
          exists ch, v. destruct v; try discriminate CC; (apply rmap_some in CC; repeat (split; [first [reflexivity|discriminate|assumption]|]); exact CC). }
        symmetry. apply dict_ext; [now rewrite own_update_keys, keys_graft|exact Nd|]. intros k v v' Lv Lv'. destruct (string_dec k "$ref") as [->|N].
        * assert (LG : lookup "$ref" (graft_entries kids' d) = Some v) by (rewrite lookup_graft, Lv, LK, NR; reflexivity).
          destruct p as [q|]; cbn [own_update] in Lv'; [|congruence]. destruct (lookup q u) as [r|] eqn:LU; [|congruence]. rewrite LG in Lv'.
          destruct v as [| | | |r0| |]; try congruence. rewrite lookup_dict_set_eq in Lv'. injection Lv' as <-. f_equal. symmetry.
          exact (ST [] c q d kids r r0 (wi_here _) LU Lv).
        * rewrite own_update_other in Lv' by exact N. rewrite lookup_graft, Lv, LK in Lv'. cbn [option_map] in Lv'. injection Lv' as <-.
          destruct (lookup k kids) as [x|] eqn:Lx; [|reflexivity]. cbn [option_map opt_graft].
          destruct (KID _ _ Lx) as (ch' & v' & I' & E' & Lv' & Nv & PV & Cx). rewrite Lv in Lv'. injection Lv' as <-.
          symmetry. apply (IH v PV (wf_part _ _ W0 PV) _ _ _ Cx). intros ts c1 q d1 k1 r r0 W1. apply (ST (k :: ts) c1 q d1 k1 r r0). econstructor; eauto.
      + cbn [graft]. assert (G : graft_kids kids' j = j) by (destruct j; try reflexivity; now destruct (Hd d)). rewrite G.
        assert (E' : own_ref u p j = j) by (unfold own_ref; destruct p; [|reflexivity]; destruct j; try reflexivity; now destruct (Hd d)). rewrite E'. now destruct j.
    - rewrite split_nil in C. cbn [bind] in C. destruct j as [| | | | |l|]; try discriminate C. apply bind_ok in C as (es & CL & E). injection E as <-.
      rewrite rewrite_list, graft_list. f_equal. apply con_list_ok in CL as [Ln CL]. apply nth_error_ext. intros n. rewrite graft_items_nth by (rewrite map_length; congruence). rewrite nth_error_map.
      destruct (nth_error es n) as [e|] eqn:E; cbn [option_map].
      + destruct (nth_error l n) as [x|] eqn:X; [|reflexivity]. f_equal. assert (I : In x l) by exact (nth_error_In _ _ X).
        apply (IH x I (proj1 (wf_list l) W x I) _ _ _ (CL n x e X E)). intros ts c1 q d1 k1 r r0 W1. apply (ST (nat_dec n :: ts) c1 q d1 k1 r r0). econstructor; [apply index_text_nat_dec; reflexivity|exact E|exact W1].
      + symmetry. apply nth_error_None. apply nth_error_None in E. lia.
    - rewrite split_nil in C. cbn [bind] in C. destruct j as [| | | | | |d]; try discriminate C. apply bind_ok in C as (es & CM & E). injection E as <-.
      rewrite rewrite_map, graft_map. f_equal. apply con_map_ok in CM. pose proof W as W0. apply wf_dict in W as [Nd Wd]. symmetry. apply dict_ext; [now rewrite keys_graft|exact Nd|].
      intros k v v' Lv Lv'. rewrite lookup_graft, Lv, lookup_map in Lv'. cbn [option_map] in Lv'. injection Lv' as <-. destruct (lookup k es) as [e|] eqn:E; cbn [option_map opt_graft]; [|reflexivity].
      assert (I : part v (JDict d)) by (exists k; now apply PyValFacts.lookup_In).
      assert (CX : construct T v b' (sub_path p k) [] = Ok e).
      { clear -CM Lv E. induction CM as [|[k1 x1] [k2 e2] d es [H1 H2] F IH]; [discriminate Lv|]. cbn [fst snd] in *. subst k2. cbn [lookup] in *. destruct (String.eqb_spec k k1) as [->|]; [|auto]. now injection Lv as <-; injection E as <-. }
      symmetry. apply (IH v I (wf_part _ _ W0 I) _ _ _ CX). intros ts c1 q d1 k1 r r0 W1. apply (ST (k :: ts) c1 q d1 k1 r r0). econstructor; eauto.
    - destruct j; try discriminate C. injection C as <-. reflexivity.
  Qed.
  Lemma rewrite_still j b p o : wf_json j -> construct T j b p [] = Ok o -> still o -> rewrite_refs u o = o.
  Proof.
    intros W C ST. destruct (construct_rewrite T u WD NOREF j W b p o C) as (C' & _). rewrite (graft_still j W b p o C ST) in C'. congruence.
  Qed.
End Still.
