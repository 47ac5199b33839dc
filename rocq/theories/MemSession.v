(** Programs that use the library cannot tell its byte slices from byte strings, unless they write to shared bytes. *)
From Coq Require Import String.
From Verif Require Import GoStd Core Errors Api Format GoMem Mem SpecMem MemProofs.

Local Open Scope nat_scope.

Lemma the_out hs i : length hs <= i -> the hs i = Bsl 0 0 0 0.
Proof. intro H. unfold the. apply nth_overflow. exact H. Qed.
Lemma txt_out vs i : length vs <= i -> txt vs i = [] /\ fam vs i = length vs.
Proof. intro H. unfold txt, fam. rewrite nth_overflow by exact H. split; reflexivity. Qed.
Lemma the_app hs x i : i < length hs -> the (hs ++ [x]) i = the hs i.
Proof. intro H. unfold the. apply app_nth1. exact H. Qed.
Lemma the_last hs x : the (hs ++ [x]) (length hs) = x.
Proof. unfold the. apply nth_middle. Qed.
Lemma txt_app vs x i : i < length vs -> txt (vs ++ [x]) i = txt vs i /\ fam (vs ++ [x]) i = fam vs i.
Proof.
  intro H. unfold txt, fam. rewrite !app_nth1 by exact H. rewrite (nth_indep vs (length (vs ++ [x]), []) (length vs, []) H). split; reflexivity.
Qed.
Lemma txt_last vs x : txt (vs ++ [x]) (length vs) = snd x /\ fam (vs ++ [x]) (length vs) = fst x.
Proof. unfold txt, fam. rewrite nth_middle. split; reflexivity. Qed.

Section Shows.
  Variables (h : mem) (hs : list bsl) (vs : vstate).
  Hypothesis S : shows h hs vs.

  Lemma shows_valid i : valid h (the hs i).
  Proof.
    destruct S as (_ & S2 & _). destruct (Nat.lt_ge_cases i (length hs)) as [H|H]; [apply S2; exact H|].
    rewrite the_out by exact H. apply nil_valid.
  Qed.
  Lemma shows_txt i : content h (the hs i) = txt vs i.
  Proof.
    destruct S as (S1 & S2 & _). destruct (Nat.lt_ge_cases i (length hs)) as [H|H]; [apply S2; exact H|].
    rewrite the_out by exact H. rewrite (proj1 (txt_out vs i ltac:(lia))). reflexivity.
  Qed.
  Lemma shows_fam i : fam vs i <= length vs.
  Proof.
    destruct S as (S1 & S2 & _). destruct (Nat.lt_ge_cases i (length hs)) as [H|H]; [apply Nat.lt_le_incl; apply S2; exact H|].
    rewrite (proj2 (txt_out vs i ltac:(lia))). lia.
  Qed.
  Lemma shows_later h' : extends h h' -> shows h' hs vs.
  Proof.
    intro E. destruct S as (S1 & S2 & S3). split; [exact S1|]. split; [|exact S3]. intros i Hi. destruct (S2 i Hi) as (V & C & F).
    split; [exact (extends_valid _ _ _ E V)|]. split; [|exact F]. rewrite (extends_content h h') by assumption. exact C.
  Qed.
  Lemma shows_push out f : valid h out -> f <= length vs ->
    (forall i, i < length hs -> fam vs i <> f -> b_arr (the hs i) <> b_arr out \/ b_len (the hs i) = 0 \/ b_len out = 0) ->
    shows h (hs ++ [out]) (vs ++ [(f, content h out)]).
  Proof.
    intros V F A. destruct S as (S1 & S2 & S3). split; [rewrite !app_length, S1; reflexivity|].
    assert (K : forall i, i < length (hs ++ [out]) -> i < length hs \/ i = length hs) by (intro i; rewrite app_length; cbn [length]; lia).
    split.
    - intros i Hi. rewrite app_length. cbn [length]. destruct (K i Hi) as [L| ->].
      + rewrite the_app by exact L. destruct (txt_app vs (f, content h out) i ltac:(lia)) as [-> ->]. destruct (S2 i L) as (X1 & X2 & X3).
        split; [exact X1|]. split; [exact X2|lia].
      + rewrite the_last, S1. destruct (txt_last vs (f, content h out)) as [-> ->]. cbn [fst snd]. split; [exact V|]. split; [reflexivity|lia].
    - intros i j Hi Hj. destruct (K i Hi) as [Li| ->]; destruct (K j Hj) as [Lj| ->].
      + rewrite !the_app by assumption. destruct (txt_app vs (f, content h out) i ltac:(lia)) as [_ ->].
        destruct (txt_app vs (f, content h out) j ltac:(lia)) as [_ ->]. apply S3; assumption.
      + rewrite the_last, the_app by exact Li. rewrite S1. destruct (txt_app vs (f, content h out) i ltac:(lia)) as [_ ->].
        destruct (txt_last vs (f, content h out)) as [_ ->]. cbn [fst]. apply A. exact Li.
      + rewrite the_last, the_app by exact Lj. rewrite S1. destruct (txt_app vs (f, content h out) j ltac:(lia)) as [_ ->].
        destruct (txt_last vs (f, content h out)) as [_ ->]. cbn [fst]. intro N. destruct (A j Lj ltac:(congruence)) as [X|[X|X]]; auto.
      + intro N. congruence.
  Qed.
  (** A window of handle [i], or the handle itself. *)
  Lemma shows_push_same i v a e : valid h v -> window (the hs i) v a e -> shows h (hs ++ [v]) (vs ++ [(fam vs i, content h v)]).
  Proof.
    intros V (W0 & W1 & W2 & W3). apply shows_push; [exact V|apply shows_fam|]. intros j Hj N. rewrite W1.
    destruct (Nat.lt_ge_cases i (length hs)) as [L|L].
    - destruct S as (S1 & S2 & S3). destruct (S3 j i Hj L N) as [X|[X|X]]; [auto|auto|]. right. right. lia.
    - rewrite the_out in W0 by exact L. cbn in W0. right. right. lia.
  Qed.
  Lemma shows_push_fresh h' out : extends h h' -> valid h' out -> fresh h out ->
    shows h' (hs ++ [out]) (vs ++ [(length vs, content h' out)]).
  Proof.
    intros E V F. pose proof (shows_later h' E) as S'. destruct S as (S1 & S2 & S3).
    assert (A : forall i, i < length hs -> b_arr (the hs i) <> b_arr out \/ b_len (the hs i) = 0 \/ b_len out = 0).
    { intros i Hi. destruct (S2 i Hi) as (Vi & _ & _). destruct (Nat.lt_ge_cases (b_arr (the hs i)) (length h)) as [X|X].
      - left. unfold fresh in F. lia.
      - right. left. apply (nowhere h _ Vi X). }
    clear S S2 S3. destruct S' as (T1 & T2 & T3). split; [rewrite !app_length, S1; reflexivity|].
    assert (K : forall i, i < length (hs ++ [out]) -> i < length hs \/ i = length hs) by (intro i; rewrite app_length; cbn [length]; lia).
    split.
    - intros i Hi. rewrite app_length. cbn [length]. destruct (K i Hi) as [L| ->].
      + rewrite the_app by exact L. destruct (txt_app vs (length vs, content h' out) i ltac:(lia)) as [-> ->]. destruct (T2 i L) as (X1 & X2 & X3).
        split; [exact X1|]. split; [exact X2|lia].
      + rewrite the_last, S1. destruct (txt_last vs (length vs, content h' out)) as [-> ->]. cbn [fst snd]. split; [exact V|]. split; [reflexivity|lia].
    - intros i j Hi Hj. destruct (K i Hi) as [Li| ->]; destruct (K j Hj) as [Lj| ->].
      + rewrite !the_app by assumption. destruct (txt_app vs (length vs, content h' out) i ltac:(lia)) as [_ ->].
        destruct (txt_app vs (length vs, content h' out) j ltac:(lia)) as [_ ->]. apply T3; assumption.
      + intros _. rewrite the_last, the_app by exact Li. apply A. exact Li.
      + intros _. rewrite the_last, the_app by exact Lj. destruct (A j Lj) as [X|[X|X]]; auto.
      + intro N. congruence.
  Qed.

  Lemma self_window s : window s s 0 (b_len s).
  Proof. unfold window. lia. Qed.

  Lemma sole_spec i : sole vs i = true -> forall j, j < length vs -> j <> i -> fam vs j <> fam vs i.
  Proof.
    unfold sole. intros H j Hj N. rewrite forallb_forall in H. specialize (H j). rewrite in_seq in H. specialize (H ltac:(lia)).
    apply orb_true_iff in H. destruct H as [H|H]; [apply Nat.eqb_eq in H; contradiction|]. apply negb_true_iff, Nat.eqb_neq in H. exact H.
  Qed.

  Lemma shows_write i p c : i < length hs -> p < b_len (the hs i) -> sole vs i = true ->
    shows (poke (the hs i) p [c] h) hs (vwrite vs i p c).
  Proof.
    intros Hi Hp SO. pose proof (shows_valid i) as Vi. pose proof (shows_txt i) as Ci. destruct S as (S1 & S2 & S3).
    assert (Lw : length (vwrite vs i p c) = length vs) by (unfold vwrite; rewrite map_length, seq_length; reflexivity).
    assert (Nw : forall j, j < length vs -> forall d, nth j (vwrite vs i p c) d =
      if j =? i then (fam vs j, firstn p (txt vs j) ++ c :: skipn (1 + p) (txt vs j)) else (fam vs j, txt vs j)).
    { intros j Hj d. unfold vwrite. set (F := fun j => _). rewrite (nth_indep _ d (F 0)) by (rewrite map_length, seq_length; exact Hj).
      rewrite map_nth, seq_nth by exact Hj. reflexivity. }
    assert (Fw : forall j, j < length vs -> fam (vwrite vs i p c) j = fam vs j).
    { intros j Hj. unfold fam at 1. rewrite Nw by exact Hj. destruct (j =? i); reflexivity. }
    assert (Tw : forall j, j < length vs -> j <> i -> txt (vwrite vs i p c) j = txt vs j).
    { intros j Hj N. unfold txt at 1. rewrite Nw by exact Hj. apply Nat.eqb_neq in N. rewrite N. reflexivity. }
    assert (Ti : txt (vwrite vs i p c) i = firstn p (txt vs i) ++ c :: skipn (1 + p) (txt vs i)).
    { unfold txt at 1. rewrite Nw by lia. rewrite Nat.eqb_refl. reflexivity. }
    destruct Vi as [Vi1 Vi2].
    split; [lia|]. rewrite Lw. split.
    - intros j Hj. destruct (S2 j Hj) as (Vj & Cj & Fj). split; [apply poke_valid; [split; assumption|cbn [length]; lia|exact Vj]|].
      rewrite Fw by lia. split; [|exact Fj]. destruct (Nat.eq_dec j i) as [->|N].
      + rewrite poke_content by (try (split; assumption); cbn [length]; lia). rewrite Ci, Ti. unfold overwrite. cbn [length app].
        rewrite (Nat.add_comm p). reflexivity.
      + rewrite Tw by lia. rewrite <- Cj. pose proof (sole_spec i SO j ltac:(lia) N) as NF.
        destruct (S3 j i Hj Hi NF) as [X|[X|X]]; [apply poke_other; congruence| |lia].
        unfold content. rewrite X. reflexivity.
    - intros a e Ha He. rewrite !Fw by lia. apply S3; assumption.
  Qed.
End Shows.

Section Run.
  Variable grow : nat -> nat.

  Lemma keep_follows h hs vs i (m : M mupd) u : shows h hs vs -> behaves h (the hs i) (m h) u ->
    follows (keep hs m h) (vkeep vs i u).
  Proof.
    intros S B. unfold keep, mbind. destruct (m h) as [[[o|o e] h']|]; cbn [behaves] in B; cbn [ret].
    - destruct B as (B1 & B2 & B3 & ->). cbn [vkeep follows]. exists (hs ++ [o]), h'. split; [reflexivity|]. apply (shows_push_fresh h); assumption.
    - destruct B as (B1 & -> & ->). cbn [vkeep follows]. exists (hs ++ [the hs i]), h'. split; [reflexivity|].
      pose proof (shows_later h hs vs S h' B1) as S'. rewrite <- (extends_content h h') by (try exact B1; apply (shows_valid h hs vs S)).
      apply (shows_push_same h' hs vs S' i (the hs i) 0 (b_len (the hs i))); [apply (shows_valid h' hs vs S')|apply self_window].
    - rewrite B. reflexivity.
  Qed.

  Lemma mstep_follows c h hs vs : shows h hs vs -> follows (mstep grow c hs h) (vstep c vs).
  Proof.
    intro S. pose proof (shows_valid h hs vs S) as V. pose proof (shows_txt h hs vs S) as T.
    assert (TV : forall v, option_map (txt vs) v = option_map (content h) (option_map (the hs) v)).
    { intros [v|]; cbn [option_map]; [rewrite T; reflexivity|reflexivity]. }
    assert (VV : forall v s, option_map (the hs) v = Some s -> valid h s).
    { intros [v|] s; cbn [option_map]; intro H; inversion H. apply V. }
    destruct c as [i path|i v path|i key path|i path|i v path|i key v path|i index v path|i key v path|i|i|i p x]; cbn [mstep vstep];
      try (rewrite <- !T, ?TV; apply keep_follows; [exact S|]).
    - unfold mbind. pose proof (GetM_spec h (the hs i) path (V i)) as G. rewrite T in G.
      destruct (GetM (the hs i) path h) as [[[e|v] h']|]; cbn [ret].
      + destruct G as [-> ->]. cbn [follows]. exists hs, h. split; [reflexivity|exact S].
      + destruct G as (-> & Gv & (a & e & W) & ->). cbn [follows]. exists (hs ++ [v]), h. split; [reflexivity|].
        exact (shows_push_same h hs vs S i v a e Gv W).
      + rewrite G. reflexivity.
    - apply SetM_spec; apply V.
    - apply SetKeyM_spec; apply V.
    - apply DeleteM_spec; apply V.
    - apply AddM_spec; apply V.
    - apply AddKeyValueM_spec; [apply V|apply VV].
    - apply InsertM_spec; apply V.
    - apply StoreM_spec; [apply V|apply VV].
    - unfold mbind. destruct (FlattenM_spec grow h (the hs i) (V i)) as (o & h' & -> & B1 & B2 & B3 & B4). rewrite T in B4. rewrite <- B4. cbn [ret follows].
      exists (hs ++ [o]), h'. split; [reflexivity|]. apply (shows_push_fresh h); assumption.
    - unfold mbind. pose proof (IndentM_spec grow h (the hs i) (V i)) as B. rewrite T in B. unfold behaves_res in B.
      destruct (IndentM grow (the hs i) h) as [[o h']|]; [|rewrite B; reflexivity]. destruct B as (B1 & B2 & B3 & ->). cbn [ret follows].
      exists (hs ++ [o]), h'. split; [reflexivity|]. apply (shows_push_fresh h); assumption.
    - unfold mbind, store. rewrite <- T, content_len by apply V. destruct (p <? b_len (the hs i)) eqn:E; [|reflexivity]. apply Nat.ltb_lt in E.
      destruct (sole vs i) eqn:SO; [|exact I]. cbn [ret follows]. exists hs, (poke (the hs i) p [x] h). split; [reflexivity|].
      apply shows_write; try assumption. destruct (Nat.lt_ge_cases i (length hs)) as [L|L]; [exact L|]. rewrite the_out in E by exact L. cbn in E. lia.
  Qed.

  Theorem mrun_follows : forall cs h hs vs, shows h hs vs -> follows (mrun grow cs hs h) (vrun cs vs).
  Proof.
    induction cs as [|c cs IH]; intros h hs vs S; cbn [mrun vrun].
    - cbn [ret follows]. exists hs, h. split; [reflexivity|exact S].
    - pose proof (mstep_follows c h hs vs S) as F. unfold follows in F. unfold mbind. destruct (vstep c vs) as [[vs' e]| |].
      + destruct F as (hs' & h' & -> & S'). cbn [fst snd]. specialize (IH h' hs' vs' S'). unfold follows in IH.
        destruct (vrun cs vs') as [[vs'' es]| |]; [|rewrite IH; reflexivity|exact I].
        destruct IH as (hs'' & h'' & -> & S''). cbn [ret follows fst snd]. exists hs'', h''. split; [reflexivity|exact S''].
      + rewrite F. reflexivity.
      + exact I.
  Qed.
End Run.

(** ** Programs that do not write *)
Lemma vkeep_grows vs i u vs' e : vkeep vs i u = Next (vs', e) -> exists l, vs' = vs ++ l.
Proof. destruct u as [o|[o|] er|]; cbn [vkeep]; intro H; inversion H; subst; eexists; reflexivity. Qed.
Lemma vkeep_not_shared vs i u : vkeep vs i u <> Shared.
Proof. destruct u as [o|[o|] er|]; cbn [vkeep]; discriminate. Qed.
Lemma vstep_grows c vs : writes c = false ->
  vstep c vs <> Shared /\ forall vs' e, vstep c vs = Next (vs', e) -> exists l, vs' = vs ++ l.
Proof.
  assert (N : exists l, vs = vs ++ l) by (exists []; symmetry; apply app_nil_r).
  intro W. destruct c; cbn [vstep writes] in *; try discriminate W;
    try (split; [apply vkeep_not_shared|intros vs' er; apply vkeep_grows]).
  - destruct (Get _ _); (split; [discriminate|]); intros vs' er H; inversion H; subst; [eexists; reflexivity|exact N].
  - split; [discriminate|]. intros vs' er H; inversion H; subst. eexists. reflexivity.
  - destruct (Indent _); (split; [discriminate|]); intros vs' er H; inversion H; subst. eexists. reflexivity.
Qed.
Lemma vrun_grows : forall cs vs, forallb (fun c => negb (writes c)) cs = true ->
  vrun cs vs <> Shared /\ forall vs' es, vrun cs vs = Next (vs', es) -> exists l, vs' = vs ++ l.
Proof.
  induction cs as [|c cs IH]; intros vs H; cbn [vrun forallb] in *.
  - split; [discriminate|]. intros vs' es E. inversion E. exists []. symmetry. apply app_nil_r.
  - apply andb_true_iff in H. destruct H as [H1 H2]. apply negb_true_iff in H1. destruct (vstep_grows c vs H1) as [N G].
    destruct (vstep c vs) as [[vs1 e]| |]; [|split; [discriminate|intros; discriminate]|contradiction].
    destruct (G vs1 e eq_refl) as [l ->]. destruct (IH (vs ++ l) H2) as [N2 G2].
    destruct (vrun cs (vs ++ l)) as [[vs2 es]| |]; [|split; [discriminate|intros; discriminate]|contradiction].
    split; [discriminate|]. intros vs' es' E. inversion E. subst. destruct (G2 vs' es eq_refl) as [l2 ->]. exists (l ++ l2). symmetry. apply app_assoc.
Qed.

(** What a program holds keeps its bytes. *)
Theorem mrun_keeps grow cs h hs vs : shows h hs vs -> forallb (fun c => negb (writes c)) cs = true ->
  match mrun grow cs hs h with
  | None => vrun cs vs = Crash
  | Some ((hs', es), h') =>
      exists more vmore, hs' = hs ++ more /\ vrun cs vs = Next (vs ++ vmore, es) /\ shows h' hs' (vs ++ vmore) /\
        forall s, valid h s -> content h' s = content h s
  end.
Proof.
  revert h hs vs. induction cs as [|c cs IH]; intros h hs vs S W; cbn [mrun vrun forallb] in *.
  - cbn [ret]. exists [], []. rewrite !app_nil_r. split; [reflexivity|]. split; [reflexivity|]. split; [exact S|reflexivity].
  - apply andb_true_iff in W. destruct W as [W1 W2]. apply negb_true_iff in W1.
    pose proof (mstep_follows grow c h hs vs S) as F. destruct (vstep_grows c vs W1) as [N G]. unfold mbind.
    assert (X : forall hs1 e h1, mstep grow c hs h = Some ((hs1, e), h1) -> (exists more, hs1 = hs ++ more) /\ extends h h1).
    { pose proof (shows_valid h hs vs S) as V.
      assert (KK : forall i m u hs1 e h1, behaves h (the hs i) (m h) u -> keep hs m h = Some ((hs1, e), h1) -> (exists more, hs1 = hs ++ more) /\ extends h h1).
      { intros i m u hs1 e h1 B. unfold keep, mbind. destruct (m h) as [[[o|o er] h2]|]; cbn [ret behaves] in *; intro H; inversion H; subst;
          (split; [eexists; reflexivity|apply B]). }
      assert (VV : forall v s, option_map (the hs) v = Some s -> valid h s).
      { intros [v|] s; cbn [option_map]; intro H; inversion H. apply V. }
      clear F G N. intros hs1 e h1. destruct c as [i path|i v path|i key path|i path|i v path|i key v path|i index v path|i key v path|i|i|i p x]; cbn [mstep].
      - unfold mbind. pose proof (GetM_spec h (the hs i) path (V i)) as Q.
        destruct (GetM (the hs i) path h) as [[[er|v] h2]|]; cbn [ret]; intro H; inversion H; subst; destruct Q as [-> _];
          (split; [|apply extends_refl]); [exists []; symmetry; apply app_nil_r|eexists; reflexivity].
      - eapply KK. apply (SetM_spec grow); apply V.
      - eapply KK. apply (SetKeyM_spec grow); apply V.
      - eapply KK. apply (DeleteM_spec grow); apply V.
      - eapply KK. apply (AddM_spec grow); apply V.
      - eapply KK. apply (AddKeyValueM_spec grow); [apply V|apply VV].
      - eapply KK. apply (InsertM_spec grow); apply V.
      - eapply KK. apply (StoreM_spec grow); [apply V|apply VV].
      - unfold mbind. destruct (FlattenM_spec grow h (the hs i) (V i)) as (o & h2 & -> & B1 & _). cbn [ret]. intro H; inversion H; subst.
        split; [eexists; reflexivity|exact B1].
      - unfold mbind. pose proof (IndentM_spec grow h (the hs i) (V i)) as B. unfold behaves_res in B.
        destruct (IndentM grow (the hs i) h) as [[o h2]|]; cbn [ret]; intro H; inversion H; subst. split; [eexists; reflexivity|apply B].
      - discriminate W1. }
    destruct (mstep grow c hs h) as [[[hs1 e] h1]|].
    + destruct (X hs1 e h1 eq_refl) as [[more ->] E1]. cbn [fst snd]. unfold follows in F.
      destruct (vstep c vs) as [[vs1 e1]| |]; [|discriminate F|contradiction]. destruct F as (hs1' & h1' & F1 & S1).
      injection F1 as <- <- <-. destruct (G vs1 e eq_refl) as [l ->]. specialize (IH h1 (hs ++ more) (vs ++ l) S1 W2).
      destruct (mrun grow cs (hs ++ more) h1) as [[[hs2 es] h2]|]; cbn [ret fst snd].
      * destruct IH as (m2 & l2 & -> & -> & S2 & K2). exists (more ++ m2), (l ++ l2). rewrite !app_assoc. split; [reflexivity|].
        split; [reflexivity|]. split; [exact S2|]. intros s Vs. rewrite K2 by exact (extends_valid _ _ _ E1 Vs). apply extends_content; assumption.
      * rewrite IH. reflexivity.
    + unfold follows in F. destruct (vstep c vs) as [[vs1 e1]| |]; [|reflexivity|contradiction].
      destruct F as (hs1' & h1' & F1 & _). discriminate F1.
Qed.

(** Writing through one slice and looking through another that lies in another array. *)
Theorem store_apart h s t p c h' : b_arr s <> b_arr t -> store s p c h = Some (tt, h') -> content h' t = content h t.
Proof. unfold store. destruct (p <? b_len s); intros N H; inversion H. apply poke_other. exact N. Qed.

Theorem success_independent h json r u out t : behaves h json (Some r) u -> fst r = MDone out -> valid h t -> forall p c h',
  (store t p c (snd r) = Some (tt, h') -> content h' out = content (snd r) out) /\
  (store out p c (snd r) = Some (tt, h') -> content h' t = content h t).
Proof.
  destruct r as [m h1]. cbn [fst snd]. intros B -> V p c h'. destruct B as (B1 & B2 & B3 & _).
  destruct (Nat.lt_ge_cases (b_arr t) (length h)) as [L|L].
  - assert (N : b_arr t <> b_arr out) by (unfold fresh in B3; lia). split; intro H.
    + exact (store_apart _ _ _ _ _ _ N H).
    + rewrite (store_apart _ _ t _ _ _ (not_eq_sym N) H). apply extends_content; assumption.
  - destruct (nowhere h t V L) as (_ & Z & _). split; intro H.
    + unfold store in H. rewrite Z in H. destruct p; discriminate H.
    + unfold content. rewrite Z. reflexivity.
Qed.

Theorem get_shares : ~ (forall (h : mem) (json v : bsl) (path : list bytes) (p : nat) (c : N) (h' : mem),
  valid h json -> path <> [] -> GetM json path h = Some (inr v, h) -> store v p c h = Some (tt, h') -> content h' json = content h json).
Proof.
  intro H. assert (E : content [b "{""a"":7}"] (Bsl 0 0 7 7) = content [b "{""a"":1}"] (Bsl 0 0 7 7)).
  { apply (H [b "{""a"":1}"] (Bsl 0 0 7 7) (Bsl 0 5 1 2) [b "a"] 0 55%N [b "{""a"":7}"]); [vm_compute; lia|discriminate|reflexivity|reflexivity]. }
  vm_compute in E. discriminate E.
Qed.

Theorem failed_update_shares : ~ (forall (h : mem) (json new out : bsl) (path : list bytes) (e : err) (h' h'' : mem) (p : nat) (c : N),
  valid h json -> valid h new -> SetM (fun _ => 0) json new path h = Some (MFail out e, h') -> store out p c h' = Some (tt, h'') ->
  content h'' json = content h json).
Proof.
  intro H. assert (E : content [b "{""a"":7}"; b "2"] (Bsl 0 0 7 7) = content [b "{""a"":1}"; b "2"] (Bsl 0 0 7 7)).
  { apply (H [b "{""a"":1}"; b "2"] (Bsl 0 0 7 7) (Bsl 1 0 1 1) (Bsl 0 0 7 7) [b "z"] (EKeyNotFound (b "z")) [b "{""a"":1}"; b "2"]
             [b "{""a"":7}"; b "2"] 5 55%N); [vm_compute; lia|vm_compute; lia|reflexivity|reflexivity]. }
  vm_compute in E. discriminate E.
Qed.
