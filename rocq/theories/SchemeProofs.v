(** Schemes over any history: refinement of the slice-level model to plain lists, and which slices stay intact. *)
From Coq Require Import String.
From Verif Require Import GoStd Heap SpecScheme Scheme.

Lemma has_key_spec ks k : has_key ks k = mem_key k ks.
Proof. induction ks as [|x ks IH]; cbn; [reflexivity|]. destruct (bytes_eqb x k); [reflexivity|exact IH]. Qed.

(** Split conjunctions that are visible, without unfolding anything. *)
Ltac both := repeat match goal with |- _ /\ _ => split end.

Section Scheme.
  Variable grow : nat -> nat.

  Definition inv (h : heap) (s : scheme) : Prop :=
    slc_ok h (originalKeys s) /\ slc_ok h (keys_ s) /\
    (s_arr (originalKeys s) = s_arr (keys_ s) -> s_end (originalKeys s) <= s_end (keys_ s)).

  (** [t] does not reach beyond the end of the current keys if they share the array. *)
  Definition below (h : heap) (t s : slc) : Prop := slc_ok h t /\ (s_arr t = s_arr s -> s_end t <= s_end s).

  (** [h'] has everything [h] has, and [t] shows the same in both. *)
  Definition intact (h h' : heap) (t : slc) : Prop := slc_ok h' t /\ view h' t = view h t.

  Lemma intact_refl h t : slc_ok h t -> intact h h t.
  Proof. split; auto. Qed.
  Lemma intact_trans h h1 h2 t : intact h h1 t -> intact h1 h2 t -> intact h h2 t.
  Proof. unfold intact. intros [A B] [C D]. split; congruence. Qed.

  (** The loop of Remove. *)
  Lemma remove_spec n ks key : forall h new r h' new' r', n <= s_arr new -> slc_ok h new ->
    remove_loop grow h new ks key r = (h', new', r') ->
    slc_ok h' new' /\ n <= s_arr new' /\ length h <= length h' /\
    view h' new' = view h new ++ filter (fun x => negb (bytes_eqb x key)) ks /\
    r' = orb r (mem_key key ks) /\
    forall t, s_arr t < n -> slc_ok h t -> intact h h' t.
  Proof.
    induction ks as [|k ks IH]; intros h new r h' new' r' Hn Hok; cbn [remove_loop].
    - intro H. injection H as <- <- <-. rewrite app_nil_r. cbn. rewrite orb_false_r. both; auto using intact_refl.
    - cbn [filter mem_key existsb]. destruct (bytes_eqb k key) eqn:E; intro H.
      + destruct (IH _ _ _ _ _ _ Hn Hok H) as (A & B & C & D & F & G). both; auto.
        rewrite F. cbn. rewrite orb_true_r. reflexivity.
      + destruct (append1 grow h new k) as [h1 new1] eqn:Ea. cbn [negb].
        destruct (append_view grow h h1 new new1 k Hok Ea) as [Ok1 V1].
        pose proof Hok as (Hlt & _).
        assert (Hn1 : n <= s_arr new1 /\ length h <= length h1).
        { destruct (append_end grow h h1 new new1 k Ea) as [(? & ? & ?)|(? & ?)]; lia. }
        destruct (IH _ _ _ _ _ _ (proj1 Hn1) Ok1 H) as (A & B & C & D & F & G).
        both; auto; try lia.
        * rewrite D, V1, <- app_assoc. reflexivity.
        * intros. eapply intact_trans; [|apply G; [assumption|]].
          -- apply (append_keeps grow h h1 new new1 k Hok Ea); [assumption|]. lia.
          -- apply (append_keeps grow h h1 new new1 k Hok Ea); [assumption|]. lia.
  Qed.

  (** One step: what it does to the lists, the invariant, and every slice [t] that stays below the current keys. *)
  Lemma step_spec op h s h' s' x : inv h s -> sch_step grow op h s = (h', s', x) ->
    inv h' s' /\
    spec_step op (view h (originalKeys s), view h (keys_ s)) = ((view h' (originalKeys s'), view h' (keys_ s')), x) /\
    (forall t, below h t (keys_ s) -> intact h h' t) /\
    (forall t, below h t (keys_ s) -> op <> SRestore -> below h' t (keys_ s')) /\
    (forall t, below h t (keys_ s) -> below h t (originalKeys s) -> below h' t (keys_ s') /\ below h' t (originalKeys s')).
  Proof.
    intros (Io & Ik & Ie) H. destruct op as [k|k| | | |]; cbn [sch_step] in H.
    - unfold Scheme_Add in H. rewrite has_key_spec in H. cbn [spec_step]. destruct (mem_key k (view h (keys_ s))) eqn:Em.
      + injection H as <- <- <-. unfold inv, below, intact. both; auto; intros; tauto.
      + destruct (append1 grow h (keys_ s) k) as [h1 ks] eqn:Ea. injection H as <- <- <-. cbn [originalKeys keys_].
        destruct (append_view grow _ _ _ _ _ Ik Ea) as [Ok1 V1].
        destruct (append_keeps grow _ _ _ _ _ Ik Ea _ Io Ie) as [Oo Vo].
        pose proof (append_end grow _ _ _ _ _ Ea) as He.
        assert (Hin : forall t, below h t (keys_ s) -> intact h h1 t).
        { intros t (T1 & T2). apply (append_keeps grow _ _ _ _ _ Ik Ea t T1 T2). }
        assert (Hb : forall t, below h t (keys_ s) -> below h1 t ks).
        { intros t Ht. split; [apply Hin; exact Ht|]. destruct Ht as (T1 & T2). destruct T1 as (T1 & _). intro E.
          destruct He as [(E1 & E2 & _)|(E1 & _)]; [rewrite E1 in E; specialize (T2 E); lia|lia]. }
        split; [|split; [|split; [|split]]].
        * split; [exact Oo|]. split; [exact Ok1|]. apply (Hb (originalKeys s)). split; assumption.
        * rewrite V1, Vo. reflexivity.
        * exact Hin.
        * intros t Ht _. apply Hb. exact Ht.
        * intros t Ht (T1 & T2). split; [apply Hb; exact Ht|]. split; [apply Hin; exact Ht|exact T2].
    - unfold Scheme_Remove in H. destruct (alloc h [] (s_len (keys_ s))) as [h1 new] eqn:Ea.
      pose proof (alloc_view h [] (s_len (keys_ s))) as A. rewrite Ea in A. destruct A as (A1 & A2 & A3 & A4).
      destruct (remove_loop grow h1 new (view h (keys_ s)) k false) as [[h2 new'] r] eqn:Er. injection H as <- <- <-.
      destruct (remove_spec (length h) _ _ _ _ _ _ _ _ (Nat.eq_le_incl _ _ (eq_sym A3)) A1 Er) as (B1 & B2 & B3 & B4 & B5 & B6).
      assert (Hin : forall t, slc_ok h t -> intact h h2 t).
      { intros t Ht. destruct (A4 t Ht) as [C1 C2]. eapply intact_trans; [split; eassumption|]. apply B6; [apply Ht|exact C1]. }
      assert (Hb : forall t, slc_ok h t -> below h2 t new').
      { intros t Ht. split; [apply Hin; exact Ht|]. destruct Ht as (Ht & _). intro. exfalso. lia. }
      cbn [originalKeys keys_]. split; [|split; [|split; [|split]]].
      + split; [apply Hin; exact Io|]. split; [exact B1|]. apply (Hb (originalKeys s) Io).
      + cbn [spec_step]. rewrite B4, A2, B5. rewrite (proj2 (Hin _ Io)). reflexivity.
      + intros t (T & _). apply Hin. exact T.
      + intros t (T & _) _. apply Hb. exact T.
      + intros t (T & _) (_ & T2). split; [apply Hb; exact T|]. split; [apply Hin; exact T|exact T2].
    - injection H as <- <- <-. unfold Scheme_Save. cbn [originalKeys keys_ spec_step]. unfold inv, below, intact.
      both; auto; intros; tauto.
    - injection H as <- <- <-. unfold Scheme_Restore. cbn [originalKeys keys_ spec_step]. unfold inv, below, intact.
      both; auto; intros; try tauto; contradiction.
    - injection H as <- <- <-. unfold GetOriginalKeys. cbn [spec_step]. unfold inv, below, intact. both; auto; intros; tauto.
    - injection H as <- <- <-. unfold GetCurrentKeys. cbn [spec_step]. unfold inv, below, intact. both; auto; intros; tauto.
  Qed.

  Lemma run_spec ops : forall h s h' s' xs, inv h s -> sch_run grow ops h s = (h', s', xs) ->
    inv h' s' /\ spec_run ops (view h (originalKeys s), view h (keys_ s)) = ((view h' (originalKeys s'), view h' (keys_ s')), xs) /\
    (forall t, below h t (keys_ s) -> ~ In SRestore ops -> intact h h' t) /\
    (forall t, below h t (keys_ s) -> below h t (originalKeys s) -> intact h h' t).
  Proof.
    induction ops as [|op ops IH]; intros h s h' s' xs Hi H; cbn [sch_run spec_run] in *.
    - injection H as <- <- <-. unfold below. both; auto; intros; apply intact_refl; tauto.
    - destruct (sch_step grow op h s) as [[h1 s1] x] eqn:E1. destruct (sch_run grow ops h1 s1) as [[h2 s2] ys] eqn:E2.
      injection H as <- <- <-. destruct (step_spec op h s h1 s1 x Hi E1) as (A1 & A2 & A3 & A4 & A5).
      destruct (IH _ _ _ _ _ A1 E2) as (B1 & B2 & B3 & B4). rewrite A2, B2.
      split; [exact B1|]. split; [reflexivity|]. split.
      + intros t Ht Hn. eapply intact_trans; [apply A3; exact Ht|]. apply B3; [|intro; apply Hn; right; assumption].
        apply A4; [exact Ht|]. intros ->. apply Hn. left. reflexivity.
      + intros t Ht Ht2. destruct (A5 t Ht Ht2). eapply intact_trans; [apply A3; exact Ht|]. apply B4; assumption.
  Qed.

  Lemma make_inv h ks : slc_ok h ks -> inv h (MakeScheme ks).
  Proof. intro H. split; [exact H|]. split; [exact H|]. reflexivity. Qed.

  (** ** The theorems *)
  Theorem scheme_history h ks ops h' s' xs : slc_ok h ks -> sch_run grow ops h (MakeScheme ks) = (h', s', xs) ->
    spec_run ops (view h ks, view h ks) = ((view h' (GetOriginalKeys s'), view h' (GetCurrentKeys s')), xs).
  Proof. intros Hk H. apply (run_spec ops h (MakeScheme ks) h' s' xs (make_inv h ks Hk) H). Qed.

  (** A list handed out as the saved keys is never disturbed afterwards. *)
  Theorem saved_keys_stay h ks ops1 h1 s1 xs1 ops2 h2 s2 xs2 : slc_ok h ks ->
    sch_run grow ops1 h (MakeScheme ks) = (h1, s1, xs1) -> sch_run grow ops2 h1 s1 = (h2, s2, xs2) ->
    view h2 (GetOriginalKeys s1) = view h1 (GetOriginalKeys s1).
  Proof.
    intros Hk H1 H2. destruct (run_spec _ _ _ _ _ _ (make_inv h ks Hk) H1) as (Hi & _).
    destruct (run_spec _ _ _ _ _ _ Hi H2) as (_ & _ & _ & Hs). destruct Hi as (Io & Ik & Ie).
    apply Hs; split; auto.
  Qed.

  (** A list handed out as the current keys is not disturbed until Restore is called. *)
  Theorem current_keys_stay h ks ops1 h1 s1 xs1 ops2 h2 s2 xs2 : slc_ok h ks ->
    sch_run grow ops1 h (MakeScheme ks) = (h1, s1, xs1) -> sch_run grow ops2 h1 s1 = (h2, s2, xs2) -> ~ In SRestore ops2 ->
    view h2 (GetCurrentKeys s1) = view h1 (GetCurrentKeys s1).
  Proof.
    intros Hk H1 H2 Hn. destruct (run_spec _ _ _ _ _ _ (make_inv h ks Hk) H1) as (Hi & _).
    destruct (run_spec _ _ _ _ _ _ Hi H2) as (_ & _ & Hs & _). destruct Hi as (Io & Ik & Ie).
    apply Hs; [|exact Hn]. split; auto.
  Qed.

  (** Any other slice of the caller's is left alone unless it reaches beyond the slice given to MakeScheme. *)
  Theorem other_slices_stay h ks ops h' s' xs t : slc_ok h ks -> slc_ok h t ->
    (s_arr t = s_arr ks -> s_end t <= s_end ks) -> sch_run grow ops h (MakeScheme ks) = (h', s', xs) ->
    view h' t = view h t.
  Proof.
    intros Hk Ht He H. destruct (run_spec _ _ _ _ _ _ (make_inv h ks Hk) H) as (_ & _ & _ & Hs). apply Hs; split; auto.
  Qed.
End Scheme.

(** ** The specification itself: Restore undoes everything since the last Save. *)

Lemma spec_original ops : Forall (fun op => op <> SSave) ops -> forall o ks, fst (fst (spec_run ops (o, ks))) = o.
Proof.
  induction 1 as [|op ops Ho _ IH]; intros o ks; [reflexivity|]. cbn [spec_run].
  destruct (spec_step op (o, ks)) as [[o1 ks1] x] eqn:E. destruct (spec_run ops (o1, ks1)) as [st xs] eqn:E2.
  specialize (IH o1 ks1). rewrite E2 in IH. cbn in *. rewrite IH.
  destruct op as [k|k| | | |]; cbn in E; try (destruct (mem_key k ks)); try congruence.
Qed.

Theorem restore_brings_back ops o ks : Forall (fun op => op <> SSave) ops ->
  fst (spec_run (SSave :: ops ++ [SRestore]) (o, ks)) = (ks, ks).
Proof.
  intro H. cbn [spec_run spec_step]. pose proof (spec_original ops H ks ks) as Ho.
  assert (Happ : forall r st, fst (spec_run (r ++ [SRestore]) st) = fst (spec_step SRestore (fst (spec_run r st)))).
  { clear. induction r as [|op r IH]; intro st.
    - destruct st. reflexivity.
    - cbn [app spec_run]. destruct (spec_step op st) as [st1 x]. specialize (IH st1).
      destruct (spec_run (r ++ [SRestore]) st1) as [a xs]. destruct (spec_run r st1) as [a2 ys]. exact IH. }
  specialize (Happ ops (ks, ks)). destruct (spec_run (ops ++ [SRestore]) (ks, ks)) as [st xs]. cbn [fst] in *. rewrite Happ.
  destruct (spec_run ops (ks, ks)) as [[a c] ys]. cbn in *. subst a. reflexivity.
Qed.
