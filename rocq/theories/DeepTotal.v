(** Calls on nested values, whether they apply or not (C80, C82). *)
From Coq Require Import String Lia.
From Verif Require Import GoStd Json Spec SpecProofs SpecFlat Domains Core Skip Errors Api Parse Focus Updates Ops History Typed TypedProofs SpecTyped Make Flat SpecMade Made SpecDeep Deep.
From Verif Require LookupFails SpecFails.

Local Open Scope N_scope.

Lemma change_none f p : forall m, m_change m p f = None -> m_at m p = None \/ exists x, m_at m p = Some x /\ f x = None.
Proof.
  induction p as [|y p IH]; intros m E; cbn [m_change m_at] in *; [right; exists m; auto|]. destruct (m_child m y) as [c|]; [|auto]. apply IH. destruct (m_change c p f); [discriminate|reflexivity].
Qed.
Definition side (t : bytes) (m' : made) (x : bytes) : Prop := match m' with MStr _ => False | MMap _ => new_in t x | MList _ => True end.
Lemma tells_lost t p : forall m, m_tells t m p -> m_at m p = None -> exists q x r m', p = q ++ x :: r /\ m_at m q = Some m' /\ m_child m' x = None /\ side t m' x.
Proof.
  induction p as [|y p IH]; intros m Ht Ha; cbn [m_tells m_at] in *; [discriminate|].
  assert (K : match m_child m y with Some v => m_tells t v p | None => side t m y end).
  { destruct m as [s|ps|ms]; [contradiction| |]; cbn [m_child side] in *; [destruct (assoc y ps); exact Ht|exact Ht]. }
  destruct (m_child m y) as [c|] eqn:E.
  - destruct (IH c K Ha) as (q & x & r & m' & -> & H1 & H2 & H3). exists (y :: q), x, r, m'. split; [reflexivity|]. cbn [m_at]. rewrite E. auto.
  - exists [], y, p, m. auto.
Qed.
Lemma tells_app t p : forall m q x, m_tells t m (p ++ q) -> m_at m p = Some x -> m_tells t x q.
Proof.
  induction p as [|y p IH]; intros m q x Ht Ha; cbn [app m_at] in *; [injection Ha as <-; exact Ht|]. cbn [m_tells] in Ht. destruct (m_child m y) as [c|] eqn:E; [|discriminate].
  apply (IH c q x); [|exact Ha]. destruct m as [s|ps|ms]; [contradiction| |]; [cbn [m_child] in E; rewrite E in Ht; exact Ht|]. exact Ht.
Qed.
Lemma tells_first t p : forall m q, m_tells t m (p ++ q) -> m_tells t m p.
Proof.
  induction p as [|y p IH]; intros m q Ht; [exact I|]. cbn [app m_tells] in *. destruct m as [s|ps|ms]; [contradiction| |].
  - destruct (assoc y ps); [eapply IH; exact Ht|exact Ht].
  - destruct (m_child (MList ms) y); [eapply IH; exact Ht|exact I].
Qed.

Lemma not_looks pf s : fit pf s -> looks 91 93 (tree (cont pf (MStr s))) = false /\ looks 123 125 (tree (cont pf (MStr s))) = false /\ is_arr (tree (cont pf (MStr s))) = false /\ is_obj (tree (cont pf (MStr s))) = false.
Proof.
  intro H. cbn [cont]. destruct (tok_simple pf s H) as [(-> & _)|(-> & _)]; [repeat split|]. destruct H as (_ & _ & H). unfold fenced in H. apply orb_false_iff in H. destruct H as [H1 H2].
  cbn [tree looks is_arr is_obj]. destruct s; [repeat split|]. cbn [hd] in *. auto.
Qed.

Theorem deep_total pf m c : good pf m -> filled m -> m_sure pf m c ->
  match m_effect c m with
  | Some m' => do_mcmd pf c (make pf m) = Done (make pf m') /\ good pf m' /\ filled m'
  | None => exists e, do_mcmd pf c (make pf m) = Fail (Some (make pf m)) e
  end.
Proof.
  intros H Hf Hs. destruct (m_effect c m) as [m'|] eqn:E.
  - apply deep_call; try assumption. destruct c as [p v|p x|p k v|p k v|p x k|p v|p i v]; cbn [m_sure mcmd_ok m_effect] in *; try tauto.
    + destruct Hs as (H1 & H2 & H3 & H4). split; [exact H1|]. split; [exact H2|]. destruct (change_at _ _ _ _ E) as (u & Hu & Hn). pose proof (tells_app _ _ _ _ _ H3 Hu) as Ht.
      destruct u as [s|ps|ms]; [contradiction Hn; reflexivity| |contradiction Hn; reflexivity]. cbn [m_tells] in Ht. destruct (assoc k ps) as [w|] eqn:Ek; [left|right; exact Ht].
      rewrite m_at_app, Hu. cbn [m_at m_child]. rewrite Ek. discriminate.
    + destruct Hs as (H1 & H2 & H3 & H4 & H5). split; [exact H2|]. split; [exact H3|]. destruct (change_at _ _ _ _ E) as (u & Hu & Hn). destruct u as [s|ps|ms]; [contradiction Hn; reflexivity| |contradiction Hn; reflexivity].
      destruct (H5 ps Hu) as [Hk|Hk]; [|exact Hk]. destruct (assoc k ps); [contradiction Hn; reflexivity|contradiction Hk; reflexivity].
    + destruct Hs as (H1 & H2 & H3 & H4). split; [exact H2|]. destruct (change_at _ _ _ _ E) as (u & Hu & Hn). destruct u as [s|ps|ms]; [contradiction Hn; reflexivity| |contradiction Hn; reflexivity].
      destruct (H4 ps Hu) as [Hk|Hk]; [|exact Hk]. destruct (assoc k ps); [contradiction Hn; reflexivity|contradiction Hk; reflexivity].
  - pose proof (make_text pf m H Hf) as Et. destruct (cont_ok pf m H) as (W & _). apply plain_wf in W.
    assert (L : forall p u, m_at m p = Some u -> lookup (d_val (plain (cont pf m))) p = Some (tree (cont pf u))) by (intros p u Hu; apply flat_lookup; rewrite cont_at, Hu by exact H; reflexivity).
    assert (G : forall p r, m_tells (make pf m) m p -> m_at m p = None -> exists e, Get (make pf m) (p ++ r) = Err e).
    { intros p r Ht Ha. destruct (tells_lost _ _ _ Ht Ha) as (q & x & r' & m' & -> & H1 & H2 & H3). eexists. rewrite <- app_assoc. cbn [app]. exact (proj1 (deep_refused pf m q m' x (r' ++ r) H Hf H1 H2 H3)). }
    assert (G0 : forall p, m_tells (make pf m) m p -> m_at m p = None -> exists e, Get (make pf m) p = Err e) by (intros p H1 H2; destruct (G p [] H1 H2) as (e & He); rewrite app_nil_r in He; exists e; exact He).
    assert (U : forall p, m_tells (make pf m) m p -> m_at m p = None -> exists e, forall new key value index,
      Set_ (make pf m) new p = Fail (Some (make pf m)) e /\ Delete (make pf m) p = Fail (Some (make pf m)) e /\ Add_ (make pf m) new p = Fail (Some (make pf m)) e /\
      AddKeyValue (make pf m) key value p = Fail (Some (make pf m)) e /\ Insert (make pf m) index new p = Fail (Some (make pf m)) e).
    { intros p H1 H2. destruct (G0 p H1 H2) as (e & He). exists e. apply LookupFails.updates_fail, He. }
    destruct c as [p v|p x|p k v|p k v|p x k|p v|p i v]; cbn [m_sure m_effect do_mcmd] in *; apply change_none in E.
    + destruct Hs as (Hp & Hv & Ht). destruct E as [E|(u & _ & E)]; [|discriminate]. destruct (U p Ht E) as (e & He). exists e. apply (He _ [] None 0%Z).
    + assert (A : m_at m (p ++ [x]) = None).
      { rewrite m_at_app. destruct E as [->|(u & -> & E)]; [reflexivity|]. cbn [m_at]. replace (m_child u x) with (@None made); [reflexivity|].
        destruct u as [s|ps|ms]; cbn [m_remove m_child] in *; [reflexivity|destruct (assoc x ps); [discriminate|reflexivity]|]. destruct (atoi x); [|reflexivity]. destruct (nth_z ms z); [discriminate|reflexivity]. }
      destruct (U _ Hs A) as (e & He). exists e. apply (He [] [] None 0%Z).
    + destruct Hs as (H1 & H2 & H3 & H4). destruct E as [E|(u & Hu & E)].
      * pose proof (tells_first _ _ _ _ H3) as Ht. destruct (G p [k] Ht E) as (e & He). unfold StoreString. rewrite (LookupFails.store_fails _ _ _ _ _ He). destruct (SpecFails.not_found e); [|eexists; reflexivity].
        destruct (U p Ht E) as (e' & He'). exists e'. apply (He' [] _ _ 0%Z).
      * exfalso. pose proof (tells_app _ _ _ _ _ H3 Hu) as Ht. destruct u as [s|ps|ms]; [exact Ht|discriminate|exact (H4 ms Hu)].
    + destruct Hs as (H1 & H2 & H3 & H4 & H5). destruct E as [E|(u & Hu & E)].
      * destruct (U p H4 E) as (e & He). exists e. unfold AddKeyValueString. destruct k; [contradiction|]. apply (He [] _ _ 0%Z).
      * destruct u as [s|ps|ms].
        -- destruct (not_looks pf s (good_at pf p m _ H Hu)) as (_ & N2 & _ & N4). destruct (lookup_focus _ _ _ (L p _ Hu)) as (pre & post & Hfo). unfold AddKeyValueString. destruct k; [contradiction|]. rewrite Et. eexists. eapply add_kv_not_object; [exact W|exact Hfo|exact N4|intros _; exact N2].
        -- destruct (assoc k ps) as [w|] eqn:Ek; [|discriminate]. eexists. exact (proj1 (deep_taken pf m p ps k w H Hf Hu Ek H1) (make pf v)).
        -- destruct (lookup_focus _ _ _ (L p _ Hu)) as (pre & post & Hfo). unfold AddKeyValueString. destruct k; [contradiction|]. rewrite Et. eexists. eapply add_kv_not_object; [exact W|exact Hfo|reflexivity|intros _; reflexivity].
    + destruct Hs as (H1 & H2 & H3 & H4). destruct (LookupFails.set_key_fails (make pf m) k p x H1) as (_ & F2 & F3).
      assert (K : (exists e, Get (make pf m) (p ++ [k]) = Err e) -> (exists e, Get (make pf m) (p ++ [x]) = Err e) -> exists e, SetKey (make pf m) k (p ++ [x]) = Fail (Some (make pf m)) e).
      { intros (e & He) (e' & He'). destruct (SpecFails.not_found e) eqn:En; eexists; [exact (F3 e e' He En He')|exact (F2 e He En)]. }
      destruct E as [E|(u & Hu & E)].
      * pose proof (tells_first _ _ _ _ H3) as Ht. apply K; apply G; assumption.
      * pose proof (tells_app _ _ _ _ _ H3 Hu) as Ht. destruct u as [s|ps|ms]; [contradiction| |].
        -- destruct (assoc k ps) as [w|] eqn:Ek; [eexists; exact (proj2 (deep_taken pf m p ps k w H Hf Hu Ek H1) x)|]. destruct (assoc x ps) as [w|] eqn:Ex; [discriminate|].
           destruct (H4 ps Hu) as [H5|H5]; [congruence|]. cbn [m_tells] in Ht. rewrite Ex in Ht.
           apply K; eexists; [exact (proj1 (deep_refused pf m p (MMap ps) k [] H Hf Hu Ek H5))|exact (proj1 (deep_refused pf m p (MMap ps) x [] H Hf Hu Ex Ht))].
        -- destruct (lookup_focus _ _ _ (L p _ Hu)) as (pre & post & Hfo). rewrite Et. eapply setkey_array; [exact W|exact H1|exact Hfo].
    + destruct Hs as (H1 & H2). destruct E as [E|(u & Hu & E)].
      * destruct (U p H2 E) as (e & He). exists e. apply (He _ [] None 0%Z).
      * destruct (lookup_focus _ _ _ (L p _ Hu)) as (pre & post & Hfo). unfold AddString. rewrite Et. destruct u as [s|ps|ms]; [| |discriminate].
        -- destruct (not_looks pf s (good_at pf p m _ H Hu)) as (N1 & _ & N3 & _). eexists. eapply add_not_array; [exact W|exact Hfo|exact N3|intros _; exact N1].
        -- eexists. eapply add_not_array; [exact W|exact Hfo|reflexivity|intros _; reflexivity].
    + destruct Hs as (H0 & H1 & H2 & H3). unfold InsertString. replace (i <? 0)%Z with false by lia. destruct E as [E|(u & Hu & E)].
      * destruct (U p H3 E) as (e & He). exists e. apply (He _ [] None i).
      * destruct (lookup_focus _ _ _ (L p _ Hu)) as (pre & post & Hfo). rewrite Et. destruct u as [s|ps|ms].
        -- destruct (not_looks pf s (good_at pf p m _ H Hu)) as (N1 & _ & N3 & _). eexists. eapply insert_not_array; [exact W|exact Hfo|exact N3|intros _; exact N1].
        -- eexists. eapply insert_not_array; [exact W|exact Hfo|reflexivity|intros _; reflexivity].
        -- eexists. eapply insert_range; [exact W|exact H1|exact (L p _ Hu)|]. rewrite nth_z_map, nth_z_map. destruct (nth_z ms i); [discriminate|reflexivity].
Qed.
