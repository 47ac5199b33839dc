(** Nested values made, changed and read by the functions as written in Go (C81). *)
From Coq Require Import String Lia.
From Verif Require Import GoStd Json Spec Errors Core Api Iter Typed Make GoLang AsWritten Octets UpdateGo UpdateGoProofs TypedGo TypedGoProofs SpecMade SpecDeep Deep SpecDeepGo.
From Verif Require MakeGoProofs SplitGo ListGo WalkGo SplitGoProofs ListGoProofs WalkGoProofs DeepWalk DeepParser ParserGo ParserGoWritten Pointers Parser Walk.
From Verif Require Import AsWrittenProofs.

Local Open Scope N_scope.

Lemma make_go_spec pf m : make_go pf m = Ret (make pf m).
Proof.
  induction m as [s|ps IH|ms IH] using made_ind'; cbn [make_go make]; [reflexivity| |].
  - match goal with |- after (?f ps) _ = _ => assert (E : f ps = Ret (map (fun kv => (fst kv, make pf (snd kv))) ps)) end.
    { induction IH as [|[k v] r Hv _ IHr]; [reflexivity|]. cbn [snd] in Hv. rewrite Hv. cbn [after]. rewrite IHr. reflexivity. }
    rewrite E. cbn [after]. apply MakeGoProofs.MakeJsonWithMap_go_spec.
  - match goal with |- after (?f ms) _ = _ => assert (E : f ms = Ret (map (make pf) ms)) end.
    { induction IH as [|v r Hv _ IHr]; [reflexivity|]. rewrite Hv. cbn [after]. rewrite IHr. reflexivity. }
    rewrite E. cbn [after]. apply MakeGoProofs.MakeArrayString_go_spec.
Qed.
Lemma octets_build o c items : (o <? 256) = true -> (c <? 256) = true -> Forall octets items -> octets (build o c items).
Proof.
  intros Ho Hc Hi. unfold build. apply octets_app; [|apply octets_cons; [exact Hc|constructor]].
  assert (K : octets (o :: concat (map (fun i => i ++ [44]) items))).
  { apply octets_cons; [exact Ho|]. induction Hi as [|i r Hi _ IH]; [constructor|]. cbn [map concat]. apply octets_app; [|exact IH]. apply octets_app; [exact Hi|]. apply octets_cons; [reflexivity|constructor]. }
  revert K. generalize (o :: concat (map (fun i => i ++ [44]) items)). intros l K. unfold octets in *. rewrite Forall_forall in *. intros x Hx. apply K.
  clear -Hx. induction l as [|y l IH]; [contradiction|]. cbn [removelast] in Hx. destruct l; [contradiction|]. destruct Hx as [<-|Hx]; [left; reflexivity|right; apply IH; exact Hx].
Qed.
Lemma octets_make pf m : m_octets m -> octets (make pf m).
Proof.
  induction m as [s|ps IH|ms IH] using made_ind'; cbn [m_octets make]; intro H; [exact H| |].
  - destruct ps as [|kv ps]; [cbn; oct|]. cbn [nonnil map MakeJsonWithMap]. apply octets_build; [reflexivity..|].
    change (Forall octets (map (pair_item pf) (map (fun kv => (fst kv, make pf (snd kv))) (kv :: ps)))).
    induction IH as [|[k v] r Hv _ IHr]; [constructor|]. destruct H as (Hk & H1 & H2). constructor; [|apply IHr, H2]. cbn [fst snd] in *. unfold pair_item. cbn [fst snd].
    pose proof (octets_format pf _ (Hv H1)). oct.
  - destruct ms as [|v ms]; [cbn; oct|]. cbn [nonnil map MakeArrayString]. apply octets_build; [reflexivity..|].
    change (Forall octets (map (formatType pf) (map (make pf) (v :: ms)))).
    induction IH as [|x r Hx _ IHr]; [constructor|]. destruct H as (H1 & H2). constructor; [|apply IHr, H2]. apply octets_format, Hx, H1.
Qed.

Definition mcmd_path (c : mcmd) : list bytes := match c with MSet p _ | MStore p _ _ | MAddKey p _ _ | MAppend p _ | MInsert p _ _ => p | MDelete p x | MRename p x _ => p ++ [x] end.
Lemma do_mcmd_spec pf c t : octets t -> forall fuel, (length t < fuel)%nat -> (S (length (mcmd_path c)) < fuel)%nat -> do_mcmd_go fuel pf c t = outcome (do_mcmd pf c t).
Proof.
  intros Ht fuel Hj Hp. destruct c; cbn [do_mcmd_go do_mcmd mcmd_path] in *; rewrite ?make_go_spec; cbn [after].
  - apply set_t_spec; assumption.
  - apply Delete_go_spec; try assumption; lia.
  - apply store_t_spec; assumption.
  - apply add_key_value_t_spec; assumption.
  - apply SetKey_go_spec; try assumption; lia.
  - apply add_t_spec; assumption.
  - apply insert_t_spec; assumption.
Qed.
Lemma do_mcmd_keeps pf c t t' : octets t -> mcmd_octets c -> do_mcmd pf c t = Done t' -> octets t'.
Proof.
  intros Ht Hc E. assert (K : keeps (do_mcmd pf c t)); [|rewrite E in K; exact K]. destruct c; cbn [do_mcmd mcmd_octets] in *.
  - apply keeps_set; [exact Ht|]. apply octets_format, octets_make, Hc.
  - apply keeps_delete, Ht.
  - apply keeps_store; [exact Ht|apply Hc|]. apply octets_format, octets_make, Hc.
  - unfold AddKeyValueString. destruct k; [exact octets_nil|]. apply keeps_add_kv; [exact Ht|apply Hc|]. apply octets_format, octets_make, Hc.
  - apply keeps_set_key; assumption.
  - apply keeps_add; [exact Ht|]. apply octets_format, octets_make, Hc.
  - unfold InsertString. destruct (_ <? _)%Z; [exact octets_nil|]. apply keeps_insert; [exact Ht|]. apply octets_format, octets_make, Hc.
Qed.

Lemma run_mcmds_spec pf cs : forall m m', good pf m -> filled m -> octets (make pf m) -> Forall mcmd_octets cs -> m_goes pf cs m m' ->
  eventually (fun fuel => run_mcmds_go fuel pf cs (make pf m) = Ret (make pf m', None)) /\ good pf m' /\ filled m' /\ octets (make pf m').
Proof.
  induction cs as [|c r IH]; intros m m' H Hf Ho Hc Hg; cbn [m_goes run_mcmds_go] in *.
  - rewrite <- ?Hg in *. split; [exists 0%nat; reflexivity|]. try subst m'. auto.
  - destruct Hg as (H1 & x & H2 & H3). apply Forall_cons_iff in Hc. destruct Hc as [Hc Hr]. destruct (deep_call pf m c x H Hf H1 H2) as (E & Hx & Hxf).
    pose proof (do_mcmd_keeps pf c _ _ Ho Hc E) as Hxo. destruct (IH x m' Hx Hxf Hxo Hr H3) as ([n Hn] & H4). split; [|exact H4].
    exists (n + S (length (make pf m)) + S (S (length (mcmd_path c))))%nat. intros fuel Hl. rewrite do_mcmd_spec, E by (assumption || lia). cbn [outcome after fst snd]. apply Hn. lia.
Qed.
Theorem deep_written pf cs m m' : good pf m -> filled m -> m_octets m -> Forall mcmd_octets cs -> m_goes pf cs m m' ->
  eventually (fun fuel => after (make_go pf m) (run_mcmds_go fuel pf cs) = Ret (make pf m', None)) /\ make_go pf m' = Ret (make pf m') /\ good pf m' /\ filled m' /\ octets (make pf m').
Proof.
  intros H Hf Ho Hc Hg. destruct (run_mcmds_spec pf cs m m' H Hf (octets_make pf m Ho) Hc Hg) as ([n Hn] & H1). split; [|split; [apply make_go_spec|exact H1]].
  exists n. intros fuel Hl. rewrite make_go_spec. apply Hn, Hl.
Qed.

Theorem deep_reads_written pf m p x : good pf m -> filled m -> octets (make pf m) -> m_at m p = Some x ->
  eventually (fun fuel =>
    (p <> [] -> SplitGo.Get_go fuel (make pf m) p = Ret (make pf x, None)) /\
    match x with
    | MStr _ => True
    | MMap ps => ps <> [] -> ListGo.GetKeys_go fuel (make pf m) p = Ret (map fst ps, None) /\ ListGo.GetValues_go fuel (make pf m) p = Ret (map (fun kv => make pf (snd kv)) ps, None) /\
        ListGo.Length_go fuel (make pf m) p = Ret (Z.of_nat (length ps), None)
    | MList ms => ms <> [] -> SplitGo.GetStringArray_go fuel (make pf m) p = Ret (map (make pf) ms, None) /\
        (p <> [] \/ (2 <= length ms)%nat -> ListGo.Length_go fuel (make pf m) p = Ret (Z.of_nat (length ms), None))
    end /\
    WalkGo.IsArray_go fuel (make pf m) p = Ret (match x with MList _ => true | _ => false end, None) /\
    WalkGo.IsValue_go fuel (make pf m) p = Ret (match x with MStr _ => true | _ => false end, None)).
Proof.
  intros H Hf Ho Ha. destruct (deep_reads pf m p x H Hf Ha) as (R1 & R2). destruct (DeepWalk.deep_types pf m p x H Hf Ha) as (T1 & T2). apply (from (make pf m) p). intros fuel Hj Hp.
  rewrite WalkGoProofs.IsArray_go_spec, WalkGoProofs.IsValue_go_spec, T1, T2 by (assumption || lia). split; [|split; [|split; reflexivity]].
  - intro Hq. rewrite SplitGoProofs.Get_go_spec by (assumption || lia). rewrite (R1 Hq). reflexivity.
  - destruct x as [s|ps|ms]; [exact I| |]; intro Hn.
    + destruct (R2 Hn) as (E1 & E2 & E3). rewrite ListGoProofs.GetKeys_go_spec, ListGoProofs.GetValues_go_spec, ListGoProofs.Length_go_spec, E1, E2, E3 by (assumption || lia). repeat split.
    + destruct (R2 Hn) as (E1 & E2). split.
      * rewrite SplitGoProofs.GetStringArray_go_spec by (assumption || lia). rewrite E1. reflexivity.
      * intro Hc. rewrite ListGoProofs.Length_go_spec, (E2 Hc) by (assumption || lia). reflexivity.
Qed.
Theorem deep_walk_written pf (St : Type) pf' m (cb : St -> bytes -> bytes -> list bytes -> St * (bool * option err)) s :
  good pf m -> filled m -> octets (make pf m) -> m_full m -> SpecParser.fits (make pf m) -> (forall s k v p, snd (snd (cb s k v p)) = None) ->
  eventually (fun fuel => WalkGo.Walk_go pf' fuel (make pf m) cb (S (S (length (make pf m)))) s =
    Ret (fold_left (fun s l => fst (cb s (last (fst l) []) (snd l) (fst l))) (m_leaves [] m) s, None)).
Proof.
  intros H Hf Ho Hm Hz Hc. exists (S (S (S (length (make pf m))))). intros fuel Hl. rewrite WalkGoProofs.Walk_go_spec by (assumption || cbn [length]; lia).
  rewrite (DeepWalk.deep_walk pf St pf' m cb s H Hf Hm Hz Hc). reflexivity.
Qed.
Theorem deep_parser_written pf m : good pf m -> filled m -> octets (make pf m) ->
  exists p, eventually (fun fuel => ParserGo.Parse_go (ParserGo.as_written fuel) (make pf m) = Ret (Some p, None)) /\ Pointers.q_json p = make pf m /\
    forall q x, q <> [] -> m_at m q = Some x -> m_straight m q -> eventually (fun fuel => ParserGo.Get_p (ParserGo.as_written fuel) p q = Ret (make pf x, None)).
Proof.
  intros H Hf Ho. destruct (DeepParser.deep_parser pf m H Hf) as (p & Ep & Ej & Eg & _). pose proof (ParserGoWritten.history_written (make pf m) [] Ho (Forall_nil _)) as W. rewrite Ep in W.
  destruct W as (r & Hr & r' & [n Hc] & Hj & Hget & _). specialize (Hc n (le_n n)). injection Hc as <-. exists r. split; [exact Hr|]. split; [rewrite Hj; exact Ej|].
  intros q x Hq Ha Hs. pose proof (Hget q) as Z. rewrite (Eg q x Hq Ha Hs) in Z. exact Z.
Qed.
