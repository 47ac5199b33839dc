(** Walking a document made of nested Go maps and slices (C80). *)
From Coq Require Import String Lia.
From Verif Require Focus IterMisc.
From Verif Require Import GoStd Json Spec SpecProofs SpecFlat Domains Core Skip Errors Api Updates Iter SpecIter SpecParser SpecWalk Walk WalkProofs WalkTotal
  Typed TypedProofs SpecTyped Make Flat SpecMade Made SpecDeep Deep.

Local Open Scope N_scope.

Lemma full_map ps : m_full (MMap ps) -> Forall (fun kv => m_full (snd kv)) ps.
Proof. cbn [m_full]. intros (_ & _ & H). induction ps as [|kv ps IH]; [constructor|]. cbn [fold_right] in H. destruct H. constructor; auto. Qed.
Lemma full_list ms : m_full (MList ms) -> Forall m_full ms.
Proof. cbn [m_full]. intros (_ & H). induction ms as [|m ms IH]; [constructor|]. cbn [fold_right] in H. destruct H. constructor; auto. Qed.

Section walk.
  Context (pf : bytes -> bool).
  Lemma cont_objects m : good pf m -> m_full m -> forall p q ms, In (q, ms) (objects dec p (tree (cont pf m))) -> ms <> [] /\ NoDup (map m_key ms).
  Proof.
    induction m as [s|ps IH|ms IH] using made_ind'; intros H Hf p q l Hi.
    - cbn [cont] in Hi. destruct (tok_simple pf s H) as [(E & _)|(E & _)]; rewrite E in Hi; destruct Hi.
    - apply good_map in H. pose proof (full_map ps Hf) as Hf'. cbn [m_full] in Hf. destruct Hf as (Hn & Hd & _). cbn [cont tree] in Hi. rewrite map_map in Hi. cbn [objects] in Hi. destruct Hi as [Hi|Hi].
      + injection Hi as <- <-. split; [destruct ps; [contradiction|discriminate]|]. rewrite map_map. exact Hd.
      + clear Hn Hd. revert IH H Hf' Hi. induction ps as [|[k v] ps IHp]; intros IH H Hf' Hi; [destruct Hi|]. inversion IH; inversion H; inversion Hf'; subst. cbn [map fst snd] in *. apply in_app_or in Hi. destruct Hi as [Hi|Hi].
        * match goal with X : good pf v -> _ |- _ => refine (X _ _ _ _ _ Hi) end; tauto.
        * apply IHp; assumption.
    - apply good_list in H. apply full_list in Hf. cbn [cont tree] in Hi. rewrite map_map in Hi. cbn [objects] in Hi. revert IH H Hf Hi. generalize O.
      induction ms as [|v ms IHm]; intros i IH H Hf Hi; [destruct Hi|]. inversion IH; inversion H; inversion Hf; subst. cbn [map] in *. apply in_app_or in Hi. destruct Hi as [Hi|Hi].
      + match goal with X : good pf v -> _ |- _ => refine (X _ _ _ _ _ Hi) end; assumption.
      + eapply IHm; eassumption.
  Qed.
  Lemma cont_filled m : good pf m -> m_full m -> SpecWalk.filled (tree (cont pf m)) = true.
  Proof.
    induction m as [s|ps IH|ms IH] using made_ind'; intros H Hf.
    - cbn [cont]. destruct (tok_simple pf s H) as [(-> & _)|(-> & _)]; reflexivity.
    - apply good_map in H. apply full_map in Hf. cbn [cont tree SpecWalk.filled]. rewrite map_map. rewrite forallb_forall. intros x Hx. apply in_map_iff in Hx. destruct Hx as (kv & <- & Hi).
      rewrite Forall_forall in *. cbn [fst snd]. apply IH; [exact Hi|apply H, Hi|apply Hf, Hi].
    - pose proof Hf as [Hn _]. apply good_list in H. apply full_list in Hf. cbn [cont tree SpecWalk.filled]. rewrite map_map. destruct ms as [|v ms]; [contradiction|].
      cbn [map]. change (forallb (fun e : elem jv => match e with Elem _ u _ => SpecWalk.filled u end) (map (fun x => Elem [] (tree (cont pf x)) []) (v :: ms)) = true).
      rewrite forallb_forall. intros x Hx. apply in_map_iff in Hx. destruct Hx as (kv & <- & Hi). rewrite Forall_forall in *. apply IH; auto.
  Qed.
  Lemma cont_leaves m : good pf m -> forall p, leaves dec p (tree (cont pf m)) = map (fun l => (fst l, tree (tok pf (snd l)))) (m_leaves p m).
  Proof.
    induction m as [s|ps IH|ms IH] using made_ind'; intros H p.
    - cbn [cont m_leaves map fst snd]. destruct (tok_simple pf s H) as [(-> & _)|(-> & _)]; reflexivity.
    - apply good_map in H. cbn [cont tree m_leaves]. rewrite map_map. cbn [leaves]. induction ps as [|[k v] ps IHp]; [reflexivity|]. inversion IH; inversion H; subst. cbn [map fst snd] in *. rewrite map_app. f_equal; [|apply IHp; assumption].
      match goal with X : good pf v -> _ |- _ => apply X end. tauto.
    - apply good_list in H. cbn [cont tree m_leaves]. rewrite map_map. cbn [leaves]. generalize O. induction ms as [|v ms IHm]; intro i; [reflexivity|]. inversion IH; inversion H; subst. cbn [map] in *. rewrite map_app.
      f_equal; [|apply IHm; assumption]. match goal with X : good pf v -> _ |- _ => apply X end. assumption.
  Qed.
  (** The paths are not empty below the root, and the strings are good. *)
  Lemma leaves_ok m : good pf m -> forall p l, In l (m_leaves p m) -> fit pf (snd l) /\ exists q, fst l = p ++ q /\ (SpecDeep.filled m -> q <> []).
  Proof.
    induction m as [s|ps IH|ms IH] using made_ind'; intros H p l Hi.
    - destruct Hi as [<-|[]]. split; [exact H|]. exists []. cbn [fst]. rewrite app_nil_r. split; [reflexivity|intros []].
    - apply good_map in H. cbn [m_leaves] in Hi. induction ps as [|[k v] ps IHp]; [destruct Hi|]. inversion IH; inversion H; subst. cbn [fst snd] in *. apply in_app_or in Hi. destruct Hi as [Hi|Hi]; [|apply IHp; assumption].
      match goal with X : good pf v -> _ |- _ => destruct (X ltac:(tauto) _ _ Hi) as (F & q & E & _) end. split; [exact F|]. exists (k :: q). rewrite E, <- app_assoc. split; [reflexivity|discriminate].
    - apply good_list in H. cbn [m_leaves] in Hi. revert Hi. generalize O. induction ms as [|v ms IHm]; intros i Hi; [destruct Hi|]. inversion IH; inversion H; subst. apply in_app_or in Hi. destruct Hi as [Hi|Hi]; [|eapply IHm; eassumption].
      match goal with X : good pf v -> _ |- _ => destruct (X ltac:(assumption) _ _ Hi) as (F & q & E & _) end. split; [exact F|]. eexists. rewrite E, <- app_assoc. split; [reflexivity|discriminate].
  Qed.

  Theorem deep_walk (St : Type) pf' m (cb : St -> bytes -> bytes -> list bytes -> St * (bool * option err)) s :
    good pf m -> SpecDeep.filled m -> m_full m -> fits (make pf m) -> (forall s k v p, snd (snd (cb s k v p)) = None) ->
    Walk pf' (make pf m) cb s = WDone (fold_left (fun s l => fst (cb s (last (fst l) []) (snd l) (fst l))) (m_leaves [] m) s) None.
  Proof.
    intros H Hf Hfull Hfit Hcb. rewrite (make_text pf m H Hf) in *. destruct (cont_ok pf m H) as (W & _).
    pose proof (cont_objects m H Hfull []) as O. change (tree (cont pf m)) with (d_val (plain (cont pf m))) in O.
    rewrite (Walk_expected pf' (plain (cont pf m)) cb s (plain_wf _ W) Hfit).
    - unfold expected. cbn [plain d_val]. rewrite cont_leaves by exact H. pose proof (leaves_ok m H []) as LO. revert s LO. generalize (m_leaves [] m).
      assert (V : forall l s, (forall x, In x l -> fit pf (snd x) /\ exists q, fst x = [] ++ q /\ (SpecDeep.filled m -> q <> [])) ->
        visit (fun s (l : list bytes * jv) => keep_going cb s (leaf_key (fst l)) (shown_leaf (plain (cont pf m)) (fst l) (snd l)) (fst l)) (map (fun l => (fst l, tree (tok pf (snd l)))) l) s =
        (fold_left (fun s l => fst (cb s (last (fst l) []) (snd l) (fst l))) l s, None)).
      { induction l as [|[p v] l IH]; intros s0 L; [reflexivity|]. cbn [map visit fold_left fst snd]. destruct (L (p, v) (or_introl eq_refl)) as (Fv & q & Eq & Hq). cbn [fst snd app] in *. subst q.
        replace (shown_leaf (plain (cont pf m)) p (tree (tok pf v))) with v.
        - unfold keep_going at 1. pose proof (Hcb s0 (leaf_key p) v p) as E. unfold leaf_key in *. destruct (cb s0 (last p []) v p) as [s1 [g e]]. cbn [fst snd] in *. subst e. apply IH. intros x Hx. apply L. right. exact Hx.
        - unfold shown_leaf. specialize (Hq Hf). destruct p; [contradiction|]. rewrite bare_shown. symmetry. apply tok_fit. left. exact Fv. }
      intros l s0 L. rewrite (V l s0 L). reflexivity.
    - intros q ms Hi. apply (O q ms Hi).
    - intros q Hi. destruct (O q [] Hi) as [N _]. contradiction N. reflexivity.
    - destruct m as [x|ps|ms]; [contradiction| |]; cbn [m_full] in Hfull; destruct Hfull as [N _].
      + destruct ps as [|[k v] ps]; [contradiction|]. apply bytes_eqb_neq. exact (flat_long _ [] k (cont pf v) (mv (cont pf) ps) eq_refl).
      + rewrite plain_text. cbn [cont]. unfold flat. cbn [tree]. rewrite Focus.render_arr. discriminate.
    - apply cont_filled; assumption.
    - right. exact Hcb.
  Qed.

  Theorem deep_types m p x : good pf m -> SpecDeep.filled m -> m_at m p = Some x ->
    IsArray (make pf m) p = Ok (match x with MList _ => true | _ => false end) /\ IsValue (make pf m) p = Ok (match x with MStr _ => true | _ => false end).
  Proof.
    intros H Hf Ha. rewrite (make_text pf m H Hf). destruct (cont_ok pf m H) as (W & _). apply plain_wf in W.
    assert (L : lookup (d_val (plain (cont pf m))) p = Some (tree (cont pf x))) by (apply flat_lookup; rewrite cont_at, Ha by exact H; reflexivity).
    rewrite (IterMisc.is_array _ p _ W L), (IterMisc.is_value _ p _ W L). pose proof (good_at pf p m x H Ha) as Hx.
    destruct x as [s|ps|ms]; [|split; reflexivity|split; reflexivity]. cbn [cont]. destruct (tok_simple pf s Hx) as [(-> & _)|(-> & _)]; split; reflexivity.
  Qed.
End walk.
