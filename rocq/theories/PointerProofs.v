(** The parser with arrays and pointers does what the parser on trees does. *)
From Coq Require Import Permutation.
From Verif Require Import GoStd Core Errors Api Iter Typed Parser SpecPtr Pointers.

Local Open Scope N_scope.

(** ** sequence.go *)
Lemma set_nth_length {A} (l : list A) i x : length (set_nth l i x) = length l.
Proof. revert i. induction l; intros [|i]; cbn; [reflexivity..|]. rewrite IHl. reflexivity. Qed.
Lemma set_nth_app {A} (l : list A) y r x : set_nth (l ++ y :: r) (length l) x = l ++ x :: r.
Proof. induction l; cbn; [reflexivity|]. rewrite IHl. reflexivity. Qed.
Lemma set_nth_same {A} (l : list A) i x : (i < length l)%nat -> nth_error (set_nth l i x) i = Some x.
Proof. revert i. induction l; intros [|i] H; cbn in *; [lia|lia|reflexivity|]. apply IHl. lia. Qed.
Lemma set_nth_other {A} (l : list A) i j x : i <> j -> nth_error (set_nth l i x) j = nth_error l j.
Proof. revert i j. induction l; intros [|i] [|j] H; cbn; try reflexivity; [congruence|]. apply IHl. congruence. Qed.

(** The array behind a stack: its used part, the free cells. *)
Definition holds (s : sequance) (st : list Z) : Prop :=
  exists free, sq_list s = rev st ++ free /\ sq_index s = Z.of_nat (length st) /\ sq_length s = Z.of_nat (length (sq_list s)).

Lemma makeSeq_holds n : holds (makeSeq n) [].
Proof. exists (repeat 0%Z n). cbn. rewrite repeat_length. repeat split. Qed.

Lemma push_holds s st z : holds s st -> exists s', sq_push s z = Ok s' /\ holds s' (z :: st).
Proof.
  intros (free & Hl & Hi & Hn). unfold sq_push.
  set (s1 := if (sq_index s >? sq_length s - 1)%Z then _ else s).
  assert (H : exists y free', sq_list s1 = rev st ++ y :: free' /\ sq_index s1 = Z.of_nat (length st) /\ sq_length s1 = Z.of_nat (length (sq_list s1))).
  { unfold s1. rewrite Hi, Hn, Hl, app_length, rev_length. destruct free as [|y free].
    - cbn [length]. replace (Z.of_nat (length st) >? Z.of_nat (length st + 0) - 1)%Z with true by (symmetry; rewrite Z.gtb_ltb; apply Z.ltb_lt; lia).
      cbn [sq_list sq_index sq_length]. unfold copy_into. rewrite repeat_length, app_nil_r, rev_length.
      replace (Z.to_nat (Z.of_nat (length st + 0) + 4)) with (length st + 4)%nat by lia.
      rewrite firstn_all2 by (rewrite rev_length; lia). rewrite repeat_app.
      replace (skipn (length st) (repeat 0%Z (length st) ++ repeat 0%Z 4)) with (repeat 0%Z 4).
      2:{ rewrite skipn_app, repeat_length, Nat.sub_diag. rewrite skipn_all2 by (rewrite repeat_length; lia). reflexivity. }
      cbn [repeat]. do 2 eexists. split; [reflexivity|]. split; [reflexivity|]. rewrite app_length, rev_length. cbn [length]. lia.
    - cbn [length]. replace (Z.of_nat (length st) >? Z.of_nat (length st + S (length free)) - 1)%Z with false by (symmetry; rewrite Z.gtb_ltb; apply Z.ltb_ge; lia).
      exists y, free. auto. }
  destruct H as (y & free' & Hl1 & Hi1 & Hn1). unfold put_int. rewrite Hi1, Hl1.
  replace ((Z.of_nat (length st) <? 0) || (Z.of_nat (length (rev st ++ y :: free')) <=? Z.of_nat (length st)))%Z with false.
  2:{ symmetry. apply orb_false_iff. split; [apply Z.ltb_ge; lia|]. apply Z.leb_gt. rewrite app_length, rev_length. cbn [length]. lia. }
  cbn [bind]. eexists. split; [reflexivity|]. exists free'. cbn [sq_list sq_index sq_length rev].
  assert (E : set_nth (rev st ++ y :: free') (Z.to_nat (Z.of_nat (length st))) z = rev st ++ z :: free').
  { rewrite Nat2Z.id, <- (rev_length st). apply set_nth_app. }
  rewrite E. split; [rewrite <- app_assoc; reflexivity|]. split; [cbn [length]; lia|].
  rewrite Hn1, Hl1, !app_length. reflexivity.
Qed.

Lemma at_top s st z : holds s (z :: st) -> at_int (sq_list s) (sq_index s - 1) = Ok z.
Proof.
  intros (free & Hl & Hi & Hn). unfold at_int. rewrite Hi. cbn [length].
  replace (Z.of_nat (S (length st)) - 1 <? 0)%Z with false by (symmetry; apply Z.ltb_ge; lia).
  replace (Z.to_nat (Z.of_nat (S (length st)) - 1)) with (length (rev st)) by (rewrite rev_length; lia).
  rewrite Hl. cbn [rev]. rewrite <- app_assoc. rewrite nth_error_app2 by lia. rewrite Nat.sub_diag. reflexivity.
Qed.
Lemma at_none s : holds s [] -> at_int (sq_list s) (sq_index s - 1) = Panic.
Proof. intros (free & Hl & Hi & Hn). unfold at_int. rewrite Hi. reflexivity. Qed.

Lemma pop_holds s st : holds s st ->
  match st with
  | [] => sq_pop s = Panic
  | z :: r => exists s', sq_pop s = Ok (z, s') /\ holds s' r
  end.
Proof.
  intro H. unfold sq_pop. pose proof H as (free & Hl & Hi & Hn).
  replace (sq_index s >? -1)%Z with true by (symmetry; rewrite Z.gtb_ltb; apply Z.ltb_lt; lia).
  destruct st as [|z r]; [rewrite at_none by exact H; reflexivity|]. rewrite (at_top _ r z) by exact H. cbn [bind].
  eexists. split; [reflexivity|]. exists (z :: free). cbn [sq_list sq_index sq_length]. split; [rewrite Hl; cbn [rev]; rewrite <- app_assoc; reflexivity|].
  split; [rewrite Hi; cbn [length]; lia|exact Hn].
Qed.

Lemma last_holds s st : holds s st -> sq_last s = match st with [] => Panic | z :: _ => Ok z end.
Proof. intro H. destruct st; [apply at_none; exact H|eapply at_top; exact H]. Qed.

Lemma inc_holds s st : holds s st ->
  match st with
  | [] => sq_inc s = Panic
  | z :: r => exists s', sq_inc s = Ok s' /\ holds s' ((z + 1)%Z :: r)
  end.
Proof.
  intro H. unfold sq_inc. destruct st as [|z r]; [rewrite at_none by exact H; reflexivity|]. rewrite (at_top _ r z) by exact H. cbn [bind].
  destruct H as (free & Hl & Hi & Hn). unfold put_int. rewrite Hi. cbn [length].
  replace ((Z.of_nat (S (length r)) - 1 <? 0) || (Z.of_nat (length (sq_list s)) <=? Z.of_nat (S (length r)) - 1))%Z with false.
  2:{ symmetry. apply orb_false_iff. split; [apply Z.ltb_ge; lia|]. apply Z.leb_gt. rewrite Hl, app_length, rev_length. cbn [length]. lia. }
  cbn [bind]. eexists. split; [reflexivity|]. exists free. cbn [sq_list sq_index sq_length rev] in *.
  replace (Z.to_nat (Z.of_nat (S (length r)) - 1)) with (length (rev r)) by (rewrite rev_length; lia).
  rewrite Hl, <- !app_assoc. cbn [app]. rewrite set_nth_app. split; [reflexivity|]. split; [cbn [length]; lia|].
  rewrite Hn, Hl, !app_length. cbn [length]. rewrite ?app_length. cbn [length]. lia.
Qed.

Lemma step_holds s st o : holds s st ->
  match stack_step st o with
  | None => sq_step s o = Panic
  | Some (st', out) => exists s', sq_step s o = Ok (s', out) /\ holds s' st'
  end.
Proof.
  intro H. destruct o as [z| | |]; cbn [stack_step].
  - destruct (push_holds s st z H) as (s' & E & H'). exists s'. cbn [sq_step]. rewrite E. split; [reflexivity|exact H'].
  - pose proof (pop_holds s st H) as E. destruct st as [|z r]; cbn [sq_step]; [rewrite E; reflexivity|]. destruct E as (s' & E & H'). exists s'. rewrite E. auto.
  - pose proof (last_holds s st H) as E. destruct st as [|z r]; cbn [sq_step]; rewrite E; [reflexivity|]. exists s. auto.
  - pose proof (inc_holds s st H) as E. destruct st as [|z r]; cbn [sq_step]; [rewrite E; reflexivity|]. destruct E as (s' & E & H'). exists s'. rewrite E. auto.
Qed.

Lemma run_holds ops : forall s st, holds s st -> sq_run s ops = match stack_run st ops with Some out => Ok out | None => Panic end.
Proof.
  induction ops as [|o ops IH]; intros s st H; [reflexivity|]. cbn [sq_run stack_run]. pose proof (step_holds s st o H) as E.
  destruct (stack_step st o) as [[st' out]|]; [|rewrite E; reflexivity]. destruct E as (s' & E & H'). rewrite E. cbn [bind]. rewrite (IH s' st' H').
  destruct (stack_run st' ops); reflexivity.
Qed.

Theorem sequence_is_stack n ops : sq_run (makeSeq n) ops = match stack_run [] ops with Some out => Ok out | None => Panic end.
Proof. apply run_holds, makeSeq_holds. Qed.

(** ** Heaps *)
Scheme tree_mut := Minimality for tree Sort Prop
with trees_mut := Minimality for trees Sort Prop.

Definition agree (A : list nat) (h h' : heap) : Prop := forall x, In x A -> nth_error h' x = nth_error h x.
Lemma agree_incl A B h h' : (forall x, In x B -> In x A) -> agree A h h' -> agree B h h'.
Proof. intros H H1 x Hx. apply H1, H, Hx. Qed.

Lemma tree_frame h h' up a n A : tree h up a n A -> agree A h h' -> tree h' up a n A.
Proof.
  intro H. revert up a n A H.
  apply (tree_mut h (fun up a n A => agree A h h' -> tree h' up a n A) (fun a ds ns A => agree A h h' -> trees h' a ds ns A)).
  - intros up a l v ds ns A Hc _ IH Hg. apply T_node with (ds := ds); [rewrite Hg by (left; reflexivity); exact Hc|].
    apply IH. intros x Hx. apply Hg. right. exact Hx.
  - intros a Hg. constructor.
  - intros a d ds n ns A B _ IH1 _ IH2 Hg. constructor; [apply IH1|apply IH2]; intros x Hx; apply Hg, in_or_app; auto.
Qed.
Lemma trees_frame h h' a ds ns A : trees h a ds ns A -> agree A h h' -> trees h' a ds ns A.
Proof.
  induction 1 as [|a d ds n ns A B H1 H2 IH]; intro Hg; constructor.
  - eapply tree_frame; [exact H1|]. intros x Hx. apply Hg, in_or_app. auto.
  - apply IH. intros x Hx. apply Hg, in_or_app. auto.
Qed.

Lemma tree_bound h up a n A : tree h up a n A -> Forall (fun x => (x < length h)%nat) A.
Proof.
  intro H. revert up a n A H.
  apply (tree_mut h (fun up a n A => Forall (fun x => (x < length h)%nat) A) (fun a ds ns A => Forall (fun x => (x < length h)%nat) A)).
  - intros up a l v ds ns A Hc _ IH. constructor; [|exact IH]. apply nth_error_Some. rewrite Hc. discriminate.
  - intros. constructor.
  - intros. apply Forall_app. auto.
Qed.
Lemma trees_bound h a ds ns A : trees h a ds ns A -> Forall (fun x => (x < length h)%nat) A.
Proof. induction 1 as [|a d ds n ns A B H1 H2 IH]; [constructor|]. apply Forall_app. split; [eapply tree_bound; exact H1|exact IH]. Qed.

Lemma trees_app h a ds1 ns1 A1 ds2 ns2 A2 : trees h a ds1 ns1 A1 -> trees h a ds2 ns2 A2 -> trees h a (ds1 ++ ds2) (ns1 ++ ns2) (A1 ++ A2).
Proof. induction 1 as [|a d ds n ns A B H1 H2 IH]; intro H; [exact H|]. cbn [app]. rewrite <- app_assoc. constructor; auto. Qed.
Lemma trees_one h a d n A : tree h (Some a) d n A -> trees h a [d] [n] A.
Proof. intro H. rewrite <- (app_nil_r A). constructor; [exact H|constructor]. Qed.
Lemma trees_snoc h a ds ns A d n B : trees h a ds ns A -> tree h (Some a) d n B -> trees h a (ds ++ [d]) (ns ++ [n]) (A ++ B).
Proof. intros H1 H2. apply trees_app; [exact H1|apply trees_one; exact H2]. Qed.

(** ** The nodes being built *)
Inductive spine (h : heap) (root : nat) : nat -> list frame -> list nat -> list nat -> Prop :=
| Sp_top down ds ch A : nth_error h root = Some (Cell [] [] None (ds ++ ch)) -> trees h root ds (rev down) A ->
    spine h root root [Fr [] [] down] ch (root :: A)
| Sp_in a a' l v down ds ch A r B : nth_error h a = Some (Cell l v (Some a') (ds ++ ch)) -> trees h a ds (rev down) A ->
    spine h root a' r [a] B -> spine h root a (Fr l v down :: r) ch (a :: A ++ B).

Lemma spine_frame h h' root a up ch A : spine h root a up ch A -> agree A h h' -> spine h' root a up ch A.
Proof.
  induction 1 as [down ds ch A Hc Ht|a a' l v down ds ch A r B Hc Ht Hs IH]; intro Hg.
  - apply Sp_top with (ds := ds); [rewrite Hg by (left; reflexivity); exact Hc|]. eapply trees_frame; [exact Ht|]. intros x Hx. apply Hg. right. exact Hx.
  - apply Sp_in with (ds := ds) (a' := a'); [rewrite Hg by (left; reflexivity); exact Hc| |].
    + eapply trees_frame; [exact Ht|]. intros x Hx. apply Hg. right. apply in_or_app. auto.
    + apply IH. intros x Hx. apply Hg. right. apply in_or_app. auto.
Qed.

Lemma spine_bound h root a up ch A : spine h root a up ch A -> Forall (fun x => (x < length h)%nat) A.
Proof.
  induction 1 as [down ds ch A Hc Ht|a a' l v down ds ch A r B Hc Ht Hs IH].
  - constructor; [apply nth_error_Some; rewrite Hc; discriminate|eapply trees_bound; exact Ht].
  - constructor; [apply nth_error_Some; rewrite Hc; discriminate|]. apply Forall_app. split; [eapply trees_bound; exact Ht|exact IH].
Qed.

Lemma spine_ne h root a up ch A : spine h root a up ch A -> exists f r, up = f :: r.
Proof. inversion 1; do 2 eexists; reflexivity. Qed.

(** Everything still open, closed *)
Fixpoint fin (up : list frame) (cs : list node) : list node :=
  match up with
  | [] => cs
  | [f] => rev (fr_down f) ++ cs
  | f :: r => fin r [Node (fr_label f) (fr_value f) (rev (fr_down f) ++ cs)]
  end.
Lemma close_onto_fin up : forall n, close_onto n up = fin up [n].
Proof. induction up as [|f [|g r] IH]; intro n; [reflexivity..|]. change (close_onto n (f :: g :: r)) with (close_onto (close_frame (frame_add n f)) (g :: r)). rewrite IH. reflexivity. Qed.
Lemma close_all_fin up : close_all up = fin up [].
Proof.
  destruct up as [|f [|g r]]; [reflexivity|cbn; rewrite app_nil_r; reflexivity|].
  change (close_all (f :: g :: r)) with (close_onto (close_frame f) (g :: r)). rewrite close_onto_fin. cbn [fin]. rewrite app_nil_r. reflexivity.
Qed.

Lemma spine_close h root a up ch A : spine h root a up ch A -> forall cs C, trees h a ch cs C ->
  exists A', tree h None root (Node [] [] (fin up cs)) A' /\ Permutation A' (A ++ C).
Proof.
  induction 1 as [down ds ch A Hc Ht|a a' l v down ds ch A r B Hc Ht Hs IH]; intros cs C Hcs.
  - exists (root :: A ++ C). split; [|reflexivity]. econstructor; [exact Hc|]. apply trees_app; assumption.
  - assert (Hn : tree h (Some a') a (Node l v (rev down ++ cs)) (a :: A ++ C)) by (econstructor; [exact Hc|apply trees_app; assumption]).
    destruct (IH _ _ (trees_one _ _ _ _ _ Hn)) as (A' & H1 & H2). exists A'. split.
    + destruct (spine_ne _ _ _ _ _ _ Hs) as (f & r' & ->). exact H1.
    + rewrite H2. rewrite (Permutation_app_comm B). cbn [app]. apply perm_skip. rewrite <- !app_assoc. apply Permutation_app_head, Permutation_app_comm.
Qed.

Lemma nth_error_snoc {A} (l : list A) x : nth_error (l ++ [x]) (length l) = Some x.
Proof. rewrite nth_error_app2 by lia. rewrite Nat.sub_diag. reflexivity. Qed.

Lemma deref_ok h a c : nth_error h a = Some c -> deref h (Some a) = Ok (a, c).
Proof. intro H. cbn. rewrite H. reflexivity. Qed.
Lemma write_ok h a c f : nth_error h a = Some c -> write h (Some a) f = Ok (set_nth h a (f c)).
Proof. intro H. unfold write. rewrite (deref_ok _ _ _ H). reflexivity. Qed.

(** A heap where only [a] and new nodes differ *)
Definition only (a : nat) (h h' : heap) : Prop := (length h <= length h')%nat /\ forall x, (x < length h)%nat -> x <> a -> nth_error h' x = nth_error h x.
Lemma only_agree a h h' A : only a h h' -> Forall (fun x => (x < length h)%nat) A -> ~ In a A -> agree A h h'.
Proof. intros [_ H] Hb Hn x Hx. rewrite Forall_forall in Hb. apply H; [apply Hb; exact Hx|]. intros ->. contradiction. Qed.
Lemma only_set h a c : only a h (set_nth h a c).
Proof. split; [rewrite set_nth_length; lia|]. intros x _ Hx. apply set_nth_other. congruence. Qed.

Lemma hang_ok h a ca l v : nth_error h a = Some ca ->
  exists h', hang h (Some a) l v = Ok (h', length h) /\ length h' = S (length h) /\ only a h h' /\
    nth_error h' a = Some (set_down (c_down ca ++ [length h]) ca) /\ nth_error h' (length h) = Some (Cell l v (Some a) []).
Proof.
  intro Ha. assert (Hlt : (a < length h)%nat) by (apply nth_error_Some; rewrite Ha; discriminate).
  unfold hang. cbn [alloc]. unfold push_down. rewrite (write_ok _ a ca).
  2:{ rewrite nth_error_app1 by exact Hlt. exact Ha. }
  cbn [bind]. eexists. split; [reflexivity|]. rewrite set_nth_length, app_length. cbn [length]. split; [lia|]. split.
  { split; [rewrite set_nth_length, app_length; lia|]. intros x Hx Hne. rewrite set_nth_other by congruence. apply nth_error_app1. exact Hx. }
  split; [apply set_nth_same; rewrite app_length; lia|]. rewrite set_nth_other by lia. apply nth_error_snoc.
Qed.

Section Build.
  Variables (root : nat).
  Definition built (h : heap) (a : nat) (up : list frame) (A : list nat) : Prop := spine h root a up [] A /\ NoDup A.
  (** From [h] to [h'] only nodes of [A] and new ones change, and [A'] are nodes of [A] and new ones. *)
  Definition grows (h h' : heap) (A A' : list nat) : Prop :=
    (length h <= length h')%nat /\ (forall x, (x < length h)%nat -> ~ In x A -> nth_error h' x = nth_error h x) /\
    (forall x, In x A' -> In x A \/ (length h <= x)%nat).
  Lemma grows_refl h A : grows h h A A.
  Proof. repeat split; auto. Qed.
  Lemma grows_trans h1 h2 h3 A1 A2 A3 : grows h1 h2 A1 A2 -> grows h2 h3 A2 A3 -> grows h1 h3 A1 A3.
  Proof.
    intros (L1 & K1 & I1) (L2 & K2 & I2). split; [lia|]. split.
    - intros x Hx Hn. rewrite K2; [apply K1; assumption|lia|]. intro H. apply I1 in H. destruct H; [contradiction|lia].
    - intros x Hx. apply I2 in Hx. destruct Hx as [Hx|Hx]; [apply I1 in Hx; exact Hx|right; lia].
  Qed.

  Lemma spine_head h a up A ch : spine h root a up ch A -> exists f r ds A0 B u,
    up = f :: r /\ nth_error h a = Some (Cell (fr_label f) (fr_value f) u (ds ++ ch)) /\ trees h a ds (rev (fr_down f)) A0 /\ A = a :: A0 ++ B /\
    (forall h' f' ds' ch' A', fr_label f = fr_label f' -> fr_value f = fr_value f' \/ r <> [] -> nth_error h' a = Some (Cell (fr_label f') (fr_value f') u (ds' ++ ch')) ->
       trees h' a ds' (rev (fr_down f')) A' -> agree B h h' -> spine h' root a (f' :: r) ch' (a :: A' ++ B)).
  Proof.
    destruct 1 as [down ds ch A Hc Ht|a a' l v down ds ch A r B Hc Ht Hs].
    - exists (Fr [] [] down), [], ds, A, [], None. cbn. rewrite app_nil_r. do 4 (split; [auto|]).
      intros h' [l' v' down'] ds' ch' A' E1 E2 Hc' Ht' _. cbn in *. destruct E2 as [E2|H]; [|congruence]. subst. rewrite app_nil_r. econstructor; eassumption.
    - exists (Fr l v down), r, ds, A, B, (Some a'). cbn. do 4 (split; [auto|]).
      intros h' [l' v' down'] ds' ch' A' E1 _ Hc' Ht' Hg. cbn in *. subst. econstructor; try eassumption. eapply spine_frame; eassumption.
  Qed.

  (** A leaf *)
  Lemma build_leaf h a up A l v : built h a up A ->
    exists h' d up' A', hang h (Some a) l v = Ok (h', d) /\ add_down (Node l v []) up = Ok up' /\ built h' a up' A' /\ grows h h' A A'.
  Proof.
    intros [Hs Hn]. pose proof (spine_bound _ _ _ _ _ _ Hs) as Hb.
    destruct (spine_head _ _ _ _ _ Hs) as (f & r & ds & A0 & B & u & -> & Hc & Ht & -> & Hre). rewrite app_nil_r in Hc.
    destruct (hang_ok h a _ l v Hc) as (h' & E & Hl & Ho & Ha & Hd). exists h', (length h), (frame_add (Node l v []) f :: r), (a :: (A0 ++ [length h]) ++ B).
    split; [exact E|]. split; [reflexivity|]. inversion Hn as [|? ? Hna Hn']; subst. inversion Hb as [|? ? Hba Hb']; subst. apply Forall_app in Hb'. destruct Hb' as [Hb1 Hb2].
    split.
    - split.
      + apply (Hre h' (frame_add (Node l v []) f) (ds ++ [length h]) [] (A0 ++ [length h])).
        * reflexivity.
        * left. reflexivity.
        * rewrite Ha, app_nil_r. reflexivity.
        * cbn [fr_down frame_add rev]. apply trees_snoc.
          -- eapply trees_frame; [exact Ht|]. eapply only_agree; [exact Ho|exact Hb1|]. intro H. apply Hna, in_or_app. auto.
          -- econstructor; [exact Hd|constructor].
        * eapply only_agree; [exact Ho|exact Hb2|]. intro H. apply Hna, in_or_app. auto.
      + apply (Permutation_NoDup (l := length h :: a :: A0 ++ B)).
        { rewrite perm_swap. apply perm_skip. rewrite <- app_assoc. cbn [app]. apply Permutation_middle. }
        constructor; [|exact Hn]. rewrite Forall_forall in Hb. intro H. apply Hb in H. lia.
    - split; [lia|]. split.
      + intros x Hx Hnx. apply Ho; [exact Hx|]. intros ->. apply Hnx. left. reflexivity.
      + intros x [<-|Hx]; [left; left; reflexivity|]. rewrite <- app_assoc in Hx. apply in_app_or in Hx. destruct Hx as [Hx|[<-|Hx]]; [|right; lia|];
          left; right; apply in_or_app; auto.
  Qed.

  (** A container opens *)
  Lemma build_open h a up A l : built h a up A ->
    exists h' d A', hang h (Some a) l [] = Ok (h', d) /\ built h' d (Fr l [] [] :: up) A' /\ grows h h' A A'.
  Proof.
    intros [Hs Hn]. pose proof (spine_bound _ _ _ _ _ _ Hs) as Hb.
    destruct (spine_head _ _ _ _ _ Hs) as (f & r & ds & A0 & B & u & -> & Hc & Ht & -> & Hre). rewrite app_nil_r in Hc.
    destruct (hang_ok h a _ l [] Hc) as (h' & E & Hl & Ho & Ha & Hd). exists h', (length h), (length h :: a :: A0 ++ B).
    split; [exact E|]. inversion Hn as [|? ? Hna Hn']; subst. inversion Hb as [|? ? Hba Hb']; subst. apply Forall_app in Hb'. destruct Hb' as [Hb1 Hb2].
    split.
    - split.
      + apply (Sp_in h' root (length h) a l [] [] [] [] [] (f :: r) (a :: A0 ++ B)); [exact Hd|constructor|].
        apply (Hre h' f ds [length h] A0); [reflexivity|left; reflexivity|exact Ha| |].
        * eapply trees_frame; [exact Ht|]. eapply only_agree; [exact Ho|exact Hb1|]. intro H. apply Hna, in_or_app. auto.
        * eapply only_agree; [exact Ho|exact Hb2|]. intro H. apply Hna, in_or_app. auto.
      + constructor; [|exact Hn]. rewrite Forall_forall in Hb. intro H. apply Hb in H. lia.
    - split; [lia|]. split.
      + intros x Hx Hnx. apply Ho; [exact Hx|]. intros ->. apply Hnx. left. reflexivity.
      + intros x [<-|Hx]; [right; lia|left; exact Hx].
  Qed.

  (** A container closes *)
  Lemma build_close h a f g r A v : built h a (f :: g :: r) A ->
    exists h' cc a' up' A', write h (Some a) (set_value v) = Ok h' /\ deref h' (Some a) = Ok (a, cc) /\ c_up cc = Some a' /\
      go_up v (f :: g :: r) = Ok up' /\ length up' = S (length r) /\ built h' a' up' A' /\ grows h h' A A'.
  Proof.
    intros [Hs Hn]. pose proof (spine_bound _ _ _ _ _ _ Hs) as Hb. inversion Hs as [|? a' l v0 down ds ? A0 ? B Hc Ht Hs']; subst. rewrite app_nil_r in Hc.
    pose proof (write_ok h a _ (set_value v) Hc) as E. cbn [set_value c_label c_up c_down] in E.
    set (h' := set_nth h a (Cell l v (Some a') ds)) in *. pose proof (only_set h a (Cell l v (Some a') ds)) as Ho. fold h' in Ho.
    inversion Hn as [|? ? Hna Hn']; subst. inversion Hb as [|? ? Hba Hb']; subst. apply Forall_app in Hb'. destruct Hb' as [Hb1 Hb2].
    assert (Ha : nth_error h' a = Some (Cell l v (Some a') ds)) by (apply set_nth_same; exact Hba).
    destruct (spine_head _ _ _ _ _ Hs') as (g' & r' & dg & Ag & Bg & ug & Eg & Hcg & Htg & -> & Hre). injection Eg as <- <-.
    assert (Hagree : agree (a' :: Ag ++ Bg) h h') by (eapply only_agree; [exact Ho|exact Hb2|]; intro H; apply Hna, in_or_app; auto).
    assert (Htree : tree h' (Some a') a (Node l v (rev down)) (a :: A0)).
    { econstructor; [exact Ha|]. eapply trees_frame; [exact Ht|]. eapply only_agree; [exact Ho|exact Hb1|]. intro H. apply Hna, in_or_app. auto. }
    exists h', (Cell l v (Some a') ds), a', (frame_add (Node l v (rev down)) g :: r), (a' :: (Ag ++ a :: A0) ++ Bg).
    split; [exact E|]. split; [apply deref_ok; exact Ha|]. split; [reflexivity|]. split; [reflexivity|]. split; [reflexivity|]. split.
    - split.
      + apply (Hre h' (frame_add (Node l v (rev down)) g) (dg ++ [a]) [] (Ag ++ a :: A0)).
        * reflexivity.
        * left. reflexivity.
        * rewrite app_nil_r. rewrite Hagree by (left; reflexivity). exact Hcg.
        * cbn [fr_down frame_add rev]. apply trees_snoc; [|exact Htree]. eapply trees_frame; [exact Htg|]. eapply agree_incl; [|exact Hagree].
          intros x Hx. right. apply in_or_app. auto.
        * eapply agree_incl; [|exact Hagree]. intros x Hx. right. apply in_or_app. auto.
      + eapply Permutation_NoDup; [|exact Hn]. rewrite <- app_assoc. cbn [app].
        apply perm_trans with ((a :: A0) ++ a' :: Ag ++ Bg); [reflexivity|]. rewrite <- Permutation_middle. apply perm_skip.
        change (a :: A0 ++ Bg) with ((a :: A0) ++ Bg). rewrite !app_assoc. apply Permutation_app_tail, Permutation_app_comm.
    - split; [unfold h'; rewrite set_nth_length; lia|]. split.
      + intros x Hx Hnx. apply Ho; [exact Hx|]. intros ->. apply Hnx. left. reflexivity.
      + intros x Hx. left. cbn [In] in Hx |- *. rewrite !in_app_iff in *. cbn [In] in *. rewrite in_app_iff. tauto.
  Qed.
End Build.

Lemma add_down_length n up up' : add_down n up = Ok up' -> length up' = length up.
Proof. destruct up; intro E; [discriminate|]. injection E as <-. reflexivity. Qed.
Lemma slice_int_nat json s e : slice_int json (Z.of_nat s) e = slice json s e.
Proof. unfold slice_int. destruct (Z.ltb_spec (Z.of_nat s) 0) as [H|H]; [lia|]. rewrite Nat2Z.id. reflexivity. Qed.
Lemma slice_not_err json s e x : slice json s e <> Err x.
Proof. unfold slice. destruct (_ && _); discriminate. Qed.

(** What the loop builds *)
Definition loops (root : nat) (h : heap) (A : list nat) (q : res heap) (r : res (list node)) : Prop :=
  match r with
  | Ok ns => exists h' A', q = Ok h' /\ tree h' None root (Node [] [] ns) A' /\ NoDup A' /\ grows h h' A A'
  | Err e => q = Err e
  | Panic => q = Panic
  end.
Lemma loops_grow root h h1 A A1 q r : grows h h1 A A1 -> loops root h1 A1 q r -> loops root h A q r.
Proof.
  intros Hg. destruct r as [ns|e|]; auto. intros (h' & A' & E & Ht & Hn & Hg'). exists h', A'. repeat split; auto; eapply grows_trans; eassumption.
Qed.

Lemma grows_perm h h' A A' B : grows h h' A A' -> Permutation B A' -> grows h h' A B.
Proof. intros (L & K & I) Hp. split; [exact L|]. split; [exact K|]. intros x Hx. apply I. eapply Permutation_in; eassumption. Qed.

Lemma loop_sim root json rest : forall i inq start stop key vs last bs is braces idx h a up A,
  built root h a up A -> holds bs (map Z.of_nat braces) -> holds is (map Z.of_nat idx) -> length up = S (length braces) ->
  loops root h A (q_loop json rest i inq start stop key vs last bs is h (Some a)) (p_loop json rest i inq start stop key vs last braces idx up).
Proof.
  induction rest as [|c r IH]; intros i inq start stop key vs last bs is braces idx h a up A Hb Hbs His Hlen.
  - cbn [q_loop p_loop loops]. destruct Hb as [Hs Hn]. rewrite close_all_fin.
    destruct (spine_close _ _ _ _ _ _ Hs [] [] (T_nil _ _)) as (A' & Ht & Hp). rewrite app_nil_r in Hp.
    exists h, A'. split; [reflexivity|]. split; [exact Ht|]. split; [eapply Permutation_NoDup; [symmetry; exact Hp|exact Hn]|].
    eapply grows_perm; [apply grows_refl|exact Hp].
  - cbn [q_loop p_loop]. destruct (c =? 34).
    { destruct inq; [|apply IH; assumption]. destruct (qscan json i) as [[]|]; apply IH; assumption. }
    destruct inq; [apply IH; assumption|].
    pose proof (last_holds _ _ His) as Hla.
    destruct (is_open c).
    { unfold open_label.
      assert (El : (if last =? 58 then Ok key else do n <- sq_last is; Ok (itoa n)) = (if last =? 58 then Ok key else do n <- seq_top idx; Ok (itoa (Z.of_nat n)))).
      { rewrite Hla. destruct idx; reflexivity. }
      rewrite El. clear El. destruct (if last =? 58 then Ok key else _) as [lbl|e|]; cbn [bind]; [|exact eq_refl..].
      destruct (build_open root h a up A lbl Hb) as (h' & d & A' & E & Hb' & Hg). rewrite E. cbn [bind].
      destruct (push_holds _ _ 0%Z His) as (is' & E1 & His'). rewrite E1. cbn [bind].
      destruct (push_holds _ _ (Z.of_nat i) Hbs) as (bs' & E2 & Hbs'). rewrite E2. cbn [bind].
      destruct up as [|f up]; [discriminate|]. eapply loops_grow; [exact Hg|]. apply IH; [exact Hb'|exact Hbs'|exact His'|]. cbn [length] in *. lia. }
    destruct (is_close c).
    { assert (Hrest : forall vs h1 up1 A1, built root h1 a up1 A1 -> length up1 = length up ->
        loops root h1 A1
          (do '(bp, braces) <- sq_pop bs; do v <- slice_int json bp (S i); do h <- write h1 (Some a) (set_value v);
           do '(_, idx) <- sq_pop is; do '(_, cc) <- deref h (Some a); q_loop json r (S i) false start stop key vs c braces idx h (c_up cc))
          (do '(bp, braces) <- seq_pop braces; do v <- slice json bp (S i); do '(_, idx) <- seq_pop idx; do up <- go_up v up1;
           p_loop json r (S i) false start stop key vs c braces idx up)).
      { intros vs1 h1 up1 A1 Hb1 Hl1. pose proof (pop_holds _ _ Hbs) as Hp1. destruct braces as [|bp braces]; cbn [map seq_pop] in *; [rewrite Hp1; exact eq_refl|].
        destruct Hp1 as (bs' & -> & Hbs'). cbn [bind]. rewrite slice_int_nat. pose proof (slice_not_err json bp (S i)) as Hne.
        destruct (slice json bp (S i)) as [v|e|]; cbn [bind]; [|exact eq_refl..].
        destruct up1 as [|f [|g up1]]; [cbn in *; lia|cbn in *; lia|].
        destruct (build_close root h1 a f g up1 A1 v Hb1) as (h2 & cc & a' & up2 & A2 & E1 & E2 & E3 & E4 & Hl2 & Hb2 & Hg). rewrite E1. cbn [bind].
        pose proof (pop_holds _ _ His) as Hp2. destruct idx as [|ix idx]; cbn [map seq_pop] in *; [rewrite Hp2; exact eq_refl|].
        destruct Hp2 as (is' & -> & His'). cbn [bind]. rewrite E2, E4. cbn [bind]. rewrite E3. eapply loops_grow; [exact Hg|].
        apply IH; [exact Hb2|exact Hbs'|exact His'|]. cbn [length] in *. lia. }
      destruct (last =? 58).
      { destruct (slice json vs i) as [v|e|]; cbn [bind]; [|exact eq_refl..].
        destruct (build_leaf root h a up A key v Hb) as (h1 & d & up1 & A1 & E1 & E2 & Hb1 & Hg). rewrite E1, E2. cbn [bind].
        eapply loops_grow; [exact Hg|]. apply Hrest; [exact Hb1|eapply add_down_length; exact E2]. }
      destruct (last =? 44); [|cbn [bind]; apply Hrest; [exact Hb|reflexivity]].
      rewrite Hla. destruct idx as [|ix idx]; [exact eq_refl|]. cbn [map seq_top bind].
      destruct (slice json vs i) as [v|e|]; cbn [bind]; [|exact eq_refl..].
      destruct (build_leaf root h a up A (itoa (Z.of_nat ix)) v Hb) as (h1 & d & up1 & A1 & E1 & E2 & Hb1 & Hg). rewrite E1, E2. cbn [bind].
      eapply loops_grow; [exact Hg|]. apply Hrest; [exact Hb1|eapply add_down_length; exact E2]. }
    destruct (c =? 58).
    { destruct (slice json start stop) as [k|e|]; cbn [bind]; [|exact eq_refl..]. apply IH; assumption. }
    destruct (c =? 44); [|apply IH; assumption].
    assert (Hrest : forall h1 up1 A1, built root h1 a up1 A1 -> length up1 = length up ->
      loops root h1 A1 (do idx <- sq_inc is; q_loop json r (S i) false start stop key (S i) 44 bs idx h1 (Some a))
        (do idx <- seq_inc idx; p_loop json r (S i) false start stop key (S i) 44 braces idx up1)).
    { intros h1 up1 A1 Hb1 Hl1. pose proof (inc_holds _ _ His) as Hp. destruct idx as [|ix idx]; cbn [map seq_inc] in *; [rewrite Hp; exact eq_refl|].
      destruct Hp as (is' & -> & His'). cbn [bind]. apply IH; [exact Hb1|exact Hbs| |lia]. cbn [map]. rewrite Nat2Z.inj_succ. exact His'. }
    destruct (last =? 58).
    { destruct (slice json vs i) as [v|e|]; cbn [bind]; [|exact eq_refl..].
      destruct (build_leaf root h a up A key v Hb) as (h1 & d & up1 & A1 & E1 & E2 & Hb1 & Hg). rewrite E1, E2. cbn [bind].
      eapply loops_grow; [exact Hg|]. apply Hrest; [exact Hb1|eapply add_down_length; exact E2]. }
    destruct ((last =? 44) || (last =? 91)); [|cbn [bind]; apply Hrest; [exact Hb|reflexivity]].
    rewrite Hla. destruct idx as [|ix idx]; [exact eq_refl|]. cbn [map seq_top bind].
    destruct (slice json vs i) as [v|e|]; cbn [bind]; [|exact eq_refl..].
    destruct (build_leaf root h a up A (itoa (Z.of_nat ix)) v Hb) as (h1 & d & up1 & A1 & E1 & E2 & Hb1 & Hg). rewrite E1, E2. cbn [bind].
    eapply loops_grow; [exact Hg|]. apply Hrest; [exact Hb1|eapply add_down_length; exact E2].
Qed.

(** pCore on a node without anything *)
Lemma core_sim json h root : nth_error h root = Some (Cell [] [] None []) -> loops root h [root] (q_core json h root) (pCore json).
Proof.
  intro Hr. assert (Hb : built root h root [Fr [] [] []] [root]).
  { split; [|constructor; [intros []|constructor]]. apply (Sp_top h root [] [] [] []); [exact Hr|constructor]. }
  unfold q_core, pCore. destruct (length json <? 2)%nat.
  - exists h, [root]. split; [reflexivity|]. split; [econstructor; [exact Hr|constructor]|]. split; [constructor; [intros []|constructor]|apply grows_refl].
  - destruct (push_holds _ _ 0%Z (makeSeq_holds 4)) as (is & E & His). rewrite E. cbn [bind].
    destruct (skip_space json 0) as [start|e|]; cbn [bind]; [|exact eq_refl..]. apply loop_sim; [exact Hb|apply makeSeq_holds|exact His|reflexivity].
Qed.

(** ** Walking down *)
Definition unlabelled (x : bytes) (ns : list node) : Prop := Forall (fun n => bytes_eqb (n_label n) x = false) ns.

Lemma tree_label h up a n A : tree h up a n A -> exists c, nth_error h a = Some c /\ c_label c = n_label n /\ c_value c = n_value n /\ c_up c = up.
Proof. destruct 1 as [up a l v ds ns A Hc _]. eexists. split; [exact Hc|]. repeat split. Qed.

Lemma find_past h x a ds1 ns1 A1 : trees h a ds1 ns1 A1 -> unlabelled x ns1 -> forall ds, q_find h x (ds1 ++ ds) = q_find h x ds.
Proof.
  induction 1 as [|a d ds n ns A B H1 H2 IH]; intros Hu ds0; [reflexivity|]. inversion Hu as [|? ? Hx Hu']; subst.
  destruct (tree_label _ _ _ _ _ H1) as (c & Hc & Hl & _). cbn [app q_find]. rewrite (deref_ok _ _ _ Hc). cbn [bind]. rewrite Hl, Hx. apply IH. exact Hu'.
Qed.
Lemma find_here h x d c ds : nth_error h d = Some c -> bytes_eqb (c_label c) x = true -> q_find h x (d :: ds) = Ok (Some d).
Proof. intros Hc Hx. cbn [q_find]. rewrite (deref_ok _ _ _ Hc). cbn [bind]. rewrite Hx. reflexivity. Qed.

Lemma find_split x h a ds ns A : trees h a ds ns A ->
  match find_node x ns with
  | None => q_find h x ds = Ok None /\ unlabelled x ns
  | Some m => exists ds1 d ds2 ns1 ns2 A1 Am A2, ds = ds1 ++ d :: ds2 /\ ns = ns1 ++ m :: ns2 /\ trees h a ds1 ns1 A1 /\
      tree h (Some a) d m Am /\ trees h a ds2 ns2 A2 /\ A = A1 ++ Am ++ A2 /\ unlabelled x ns1 /\ bytes_eqb (n_label m) x = true
  end.
Proof.
  induction 1 as [|a d ds n ns A B H1 H2 IH]; [split; [reflexivity|constructor]|]. cbn [find_node].
  destruct (bytes_eqb (n_label n) x) eqn:E.
  - exists [], d, ds, [], ns, [], A, B. do 2 (split; [reflexivity|]). split; [constructor|]. split; [exact H1|]. split; [exact H2|].
    split; [reflexivity|]. split; [constructor|exact E].
  - destruct (find_node x ns) as [m|].
    + destruct IH as (ds1 & d' & ds2 & ns1 & ns2 & A1 & Am & A2 & -> & -> & T1 & T2 & T3 & -> & Hu & Hx).
      exists (d :: ds1), d', ds2, (n :: ns1), ns2, (A ++ A1), Am, A2. do 2 (split; [reflexivity|]). split; [constructor; assumption|].
      split; [exact T2|]. split; [exact T3|]. split; [rewrite <- app_assoc; reflexivity|]. split; [constructor; assumption|exact Hx].
    + destruct IH as [IH Hu]. destruct (tree_label _ _ _ _ _ H1) as (c & Hc & Hl & _). split; [|constructor; assumption].
      cbn [q_find]. rewrite (deref_ok _ _ _ Hc). cbn [bind]. rewrite Hl, E. exact IH.
Qed.

Lemma upd_first_split x f ns1 m ns2 : unlabelled x ns1 -> bytes_eqb (n_label m) x = true -> upd_first x f (ns1 ++ m :: ns2) = ns1 ++ f m :: ns2.
Proof. induction 1 as [|n ns1 Hn Hu IH]; intro Hx; cbn [app upd_first]; [rewrite Hx; reflexivity|]. rewrite Hn, IH by exact Hx. reflexivity. Qed.

Definition same_label (h h' : heap) (a : nat) : Prop := option_map c_label (nth_error h' a) = option_map c_label (nth_error h a).

Lemma walk_err path : forall h up a n A e, tree h up a n A -> n_walk n path = Err e -> q_walk h a path = Err e.
Proof.
  induction path as [|x path IH]; intros h up a n A e Ht E; [discriminate|]. destruct Ht as [up a l v ds ns A Hc Hts].
  cbn [n_walk q_walk n_down] in *. rewrite (deref_ok _ _ _ Hc). cbn [bind c_down]. pose proof (find_split x h a ds ns A Hts) as Hf.
  destruct (find_node x ns) as [k|].
  - destruct Hf as (ds1 & d & ds2 & ns1 & ns2 & A1 & Ak & A2 & -> & -> & T1 & T2 & T3 & -> & Hu & Hx).
    destruct (tree_label _ _ _ _ _ T2) as (c & Hcd & Hl & _).
    rewrite (find_past _ _ _ _ _ _ T1 Hu), (find_here h x d c ds2 Hcd) by (rewrite Hl; exact Hx). cbn [bind]. eapply IH; eassumption.
  - destruct Hf as [-> _]. cbn [bind]. congruence.
Qed.
Lemma walk_no_panic path : forall n, n_walk n path <> Panic.
Proof. induction path as [|x path IH]; intro n; [discriminate|]. cbn [n_walk]. destruct (find_node x (n_down n)); [apply IH|discriminate]. Qed.

Lemma plug path : forall h up a n A m, tree h up a n A -> n_walk n path = Ok m ->
  exists c u Am C, q_walk h a path = Ok c /\ tree h u c m Am /\ Permutation A (C ++ Am) /\ (path <> [] -> In a C) /\ (path = [] -> c = a) /\
    (forall h' m' Am' f, agree C h h' -> f m = m' -> tree h' u c m' Am' ->
       (exists A', tree h' up a (upd_node path f n) A' /\ Permutation A' (C ++ Am')) /\
       forall p1 p2, path = p1 ++ p2 -> p2 <> [] \/ same_label h h' c -> q_walk h' a p1 = q_walk h a p1).
Proof.
  induction path as [|x path IH]; intros h up a n A m Ht Hw.
  - injection Hw as <-. exists a, up, A, []. split; [reflexivity|]. split; [exact Ht|]. split; [reflexivity|]. split; [congruence|]. split; [reflexivity|].
    intros h' m' Am' f _ Hf Ht'. split; [exists Am'; split; [cbn [upd_node]; rewrite Hf; exact Ht'|reflexivity]|].
    intros [|] p2 E _; [reflexivity|discriminate].
  - inversion Ht as [up0 a0 l v ds ns A0 Hc Hts]; subst. cbn [n_walk q_walk n_down] in *. rewrite (deref_ok _ _ _ Hc). cbn [bind c_down].
    pose proof (find_split x h a ds ns A0 Hts) as Hf. destruct (find_node x ns) as [k|]; [|discriminate].
    destruct Hf as (ds1 & d & ds2 & ns1 & ns2 & A1 & Ak & A2 & -> & -> & T1 & T2 & T3 & -> & Hu & Hx).
    destruct (tree_label _ _ _ _ _ T2) as (cd & Hcd & Hl & _).
    rewrite (find_past _ _ _ _ _ _ T1 Hu), (find_here h x d cd ds2 Hcd) by (rewrite Hl; exact Hx). cbn [bind].
    destruct (IH h (Some a) d k Ak m T2 Hw) as (c & u & Am & C & E & Tm & Hp & Hin & Hca & Hplug).
    exists c, u, Am, (a :: A1 ++ A2 ++ C). split; [exact E|]. split; [exact Tm|]. split.
    { cbn [app]. apply perm_skip. rewrite <- !app_assoc. apply Permutation_app_head. rewrite (Permutation_app_comm Ak). apply Permutation_app_head. exact Hp. }
    split; [intros _; left; reflexivity|]. split; [discriminate|]. intros h' m' Am' f Hg Hf' Tm'.
    assert (G1 : agree A1 h h') by (intros y Hy; apply Hg; right; apply in_or_app; auto).
    assert (G2 : agree A2 h h') by (intros y Hy; apply Hg; right; rewrite !in_app_iff; auto).
    assert (G3 : agree C h h') by (intros y Hy; apply Hg; right; rewrite !in_app_iff; auto).
    assert (Hc' : nth_error h' a = Some (Cell l v up (ds1 ++ d :: ds2))) by (rewrite Hg by (left; reflexivity); exact Hc).
    destruct (Hplug h' m' Am' f G3 Hf' Tm') as [(A' & T' & Hp') Hq]. split.
    + exists (a :: A1 ++ A' ++ A2). split.
      * cbn [upd_node]. rewrite upd_first_split by assumption. econstructor; [exact Hc'|]. apply trees_app; [eapply trees_frame; eassumption|].
        constructor; [exact T'|eapply trees_frame; eassumption].
      * cbn [app]. apply perm_skip. rewrite <- !app_assoc. apply Permutation_app_head. rewrite (Permutation_app_comm A'). apply Permutation_app_head. exact Hp'.
    + intros [|y p1] p2 E12 Hor; [reflexivity|]. injection E12 as <- E12. cbn [q_walk]. rewrite (deref_ok _ _ _ Hc), (deref_ok _ _ _ Hc'). cbn [bind c_down].
      rewrite (find_past h _ _ _ _ _ T1 Hu), (find_past h' _ _ _ _ _ (trees_frame _ _ _ _ _ _ T1 G1) Hu).
      assert (Hd' : same_label h h' d).
      { destruct path as [|z path]; [|unfold same_label; rewrite (G3 d) by (apply Hin; discriminate); reflexivity].
        symmetry in E12. apply app_eq_nil in E12. destruct E12 as [-> ->]. destruct Hor as [Hor|Hor]; [congruence|]. rewrite <- Hca by reflexivity. exact Hor. }
      unfold same_label in Hd'. rewrite Hcd in Hd'. destruct (nth_error h' d) as [cd'|] eqn:Hcd'; [|discriminate]. cbn in Hd'. injection Hd' as Hd'.
      rewrite (find_here h x d cd ds2 Hcd), (find_here h' x d cd' ds2 Hcd') by (rewrite ?Hd', Hl; exact Hx). cbn [bind]. eapply Hq; eassumption.
Qed.

Lemma nodup_app {X} (l r : list X) : NoDup (l ++ r) <-> NoDup l /\ NoDup r /\ forall x, In x l -> ~ In x r.
Proof.
  induction l as [|y l IH]; cbn [app].
  - split; [intro H; repeat split; [constructor|exact H|intros x []]|intros (_ & H & _); exact H].
  - split.
    + intro H. inversion H as [|? ? Hn H']; subst. apply IH in H'. destruct H' as (H1 & H2 & H3). rewrite in_app_iff in Hn. repeat split; [constructor; auto|exact H2|].
      intros x [->|Hx]; [auto|apply H3; exact Hx].
    + intros (H1 & H2 & H3). inversion H1 as [|? ? Hn H']; subst. constructor.
      * rewrite in_app_iff. intros [H|H]; [contradiction|]. apply (H3 y); [left; reflexivity|exact H].
      * apply IH. repeat split; auto. intros x Hx. apply H3. right. exact Hx.
Qed.

(** The node reached by [path] changes from [m] to [f m]; the nodes outside stay. *)
Lemma upd_sim path h up a n A m : tree h up a n A -> NoDup A -> n_walk n path = Ok m ->
  exists c u Am, q_walk h a path = Ok c /\ tree h u c m Am /\ NoDup Am /\ (path = [] -> c = a) /\ (forall x, In x Am -> In x A) /\
    (forall h' m' Am' f, grows h h' Am Am' -> NoDup Am' -> f m = m' -> tree h' u c m' Am' ->
       (exists A', tree h' up a (upd_node path f n) A' /\ NoDup A' /\ grows h h' A A') /\
       forall p1 p2, path = p1 ++ p2 -> p2 <> [] \/ same_label h h' c -> q_walk h' a p1 = q_walk h a p1).
Proof.
  intros Ht Hn Hw. destruct (plug path h up a n A m Ht Hw) as (c & u & Am & C & E & Tm & Hp & _ & Hca & Hplug).
  assert (Hn' : NoDup (C ++ Am)) by (eapply Permutation_NoDup; eassumption).
  destruct (proj1 (nodup_app C Am) Hn') as (HnC & HnA & Hdis).
  pose proof (tree_bound _ _ _ _ _ Ht) as Hb. rewrite Forall_forall in Hb.
  assert (Hin : forall x, In x C \/ In x Am -> In x A) by (intros x Hx; eapply Permutation_in; [symmetry; exact Hp|]; apply in_or_app; exact Hx).
  exists c, u, Am. split; [exact E|]. split; [exact Tm|]. split; [exact HnA|]. split; [exact Hca|]. split; [auto|].
  intros h' m' Am' f (GL & GK & GI) HnA' Hf Tm'.
  assert (Hg : agree C h h') by (intros x Hx; apply GK; [apply Hb, Hin; auto|apply Hdis; exact Hx]).
  destruct (Hplug h' m' Am' f Hg Hf Tm') as [(A' & T' & Hp') Hq]. split; [|exact Hq].
  exists A'. split; [exact T'|]. split.
  - eapply Permutation_NoDup; [symmetry; exact Hp'|]. apply nodup_app. repeat split; [exact HnC|exact HnA'|].
    intros x Hx H. destruct (GI x H) as [H'|H']; [exact (Hdis x Hx H')|]. specialize (Hb x (Hin x (or_introl Hx))). lia.
  - split; [exact GL|]. split; [intros x Hx Hnx; apply GK; [exact Hx|]; intro H; apply Hnx, Hin; auto|].
    intros x Hx. apply (Permutation_in x Hp') in Hx. apply in_app_or in Hx. destruct Hx as [Hx|Hx]; [left; apply Hin; auto|].
    destruct (GI x Hx) as [H|H]; [left; apply Hin; auto|right; exact H].
Qed.

(** ** Parsers *)
Definition sim (q : qparser) (p : parser) : Prop := q_json q = p_json p /\ stands (q_heap q) (q_root q) (p_core p).
Definition same_result (r : qres) (s : pres) : Prop :=
  match r, s with
  | QRet q e, PRet p e' => e = e' /\ sim q p
  | QPanic, PPanic => True
  | _, _ => False
  end.

Lemma parse_sim json :
  match Q_Parse json, Parse json with
  | Ok q, Ok p => sim q p
  | Err e, Err e' => e = e'
  | Panic, Panic => True
  | _, _ => False
  end.
Proof.
  unfold Q_Parse, Parse. cbn [createNode alloc length app]. pose proof (core_sim json [Cell [] [] None []] 0 eq_refl) as H. unfold loops in H.
  destruct (pCore json) as [ns|e|]; [|rewrite H; reflexivity|rewrite H; exact I].
  destruct H as (h' & A' & E & Ht & Hn & _). rewrite E. cbn [bind]. inversion Ht as [? ? ? ? ds ? A Hc Hts]; subst. rewrite (deref_ok _ _ _ Hc). cbn [bind c_down].
  destruct Hts as [|a d ds n ns A B H1 H2]; [reflexivity|]. split; [reflexivity|]. exists (Some a), A. split; [exact H1|].
  inversion Hn; subst. eapply (proj1 (nodup_app A B)). assumption.
Qed.

Lemma walk_app p1 : forall h a p2, q_walk h a (p1 ++ p2) = do c <- q_walk h a p1; q_walk h c p2.
Proof.
  induction p1 as [|x p1 IH]; intros h a p2; [reflexivity|]. cbn [app q_walk]. destruct (deref h (Some a)) as [[a' c]|e|]; cbn [bind]; [|reflexivity..].
  destruct (q_find h x (c_down c)) as [[d|]|e|]; cbn [bind]; [apply IH|reflexivity..].
Qed.
Lemma walk_ok path h up a n A c : tree h up a n A -> q_walk h a path = Ok c -> exists m, n_walk n path = Ok m.
Proof.
  intros Ht E. destruct (n_walk n path) as [m|e|] eqn:Ew; [eexists; reflexivity| |destruct (walk_no_panic _ _ Ew)].
  rewrite (walk_err _ _ _ _ _ _ _ Ht Ew) in E. discriminate.
Qed.

(** The [up] pointer of a node reached *)
Lemma walk_parent h up a n A p x c u m Am : tree h up a n A -> q_walk h a (p ++ [x]) = Ok c -> tree h u c m Am ->
  exists c', u = Some c' /\ q_walk h a p = Ok c'.
Proof.
  intros Ht E Hm. rewrite walk_app in E. destruct (q_walk h a p) as [c'|e|] eqn:Ep; [|discriminate..]. cbn [bind] in E.
  exists c'. split; [|reflexivity]. destruct (walk_ok _ _ _ _ _ _ _ Ht Ep) as [k Hk].
  destruct (plug p h up a n A k Ht Hk) as (c1 & u1 & Ak & C & E1 & Tk & _). rewrite Ep in E1. injection E1 as <-.
  destruct Tk as [u1 c' l v ds ns Ak Hc Hts]. cbn [q_walk] in E. rewrite (deref_ok _ _ _ Hc) in E. cbn [bind c_down] in E.
  pose proof (find_split x h c' ds ns Ak Hts) as Hf. destruct (find_node x ns) as [k|].
  - destruct Hf as (ds1 & d & ds2 & ns1 & ns2 & A1 & Ad & A2 & -> & -> & T1 & T2 & T3 & -> & Hu & Hx).
    destruct (tree_label _ _ _ _ _ T2) as (cd & Hcd & Hl & _ & Hup).
    rewrite (find_past _ _ _ _ _ _ T1 Hu), (find_here h x d cd ds2 Hcd) in E by (rewrite Hl; exact Hx). cbn [bind] in E. injection E as <-.
    destruct (tree_label _ _ _ _ _ Hm) as (cd' & Hcd' & _ & _ & Hup'). congruence.
  - destruct Hf as [Hf _]. rewrite Hf in E. discriminate.
Qed.

(** ** Changes of one node *)
Lemma cell_local h u c m Am g gl gv : tree h u c m Am -> NoDup Am -> (forall l v u ds, g (Cell l v u ds) = Cell (gl l) (gv v) u ds) ->
  exists h', write h (Some c) g = Ok h' /\ tree h' u c (Node (gl (n_label m)) (gv (n_value m)) (n_down m)) Am /\ grows h h' Am Am /\
    length h' = length h /\ only c h h'.
Proof.
  intros Ht Hn Hg. inversion Ht as [u0 c0 l v ds ns A Hc Hts]; subst. inversion Hn as [|? ? Hna Hn']; subst.
  pose proof (trees_bound _ _ _ _ _ Hts) as Hb. rewrite (write_ok _ _ _ _ Hc), Hg. eexists. split; [reflexivity|].
  pose proof (only_set h c (Cell (gl l) (gv v) u ds)) as Ho. split.
  - econstructor; [apply set_nth_same; apply nth_error_Some; rewrite Hc; discriminate|]. eapply trees_frame; [exact Hts|]. eapply only_agree; eassumption.
  - split; [|split; [apply set_nth_length|exact Ho]]. split; [rewrite set_nth_length; lia|]. split; [|auto].
    intros x Hx Hnx. apply Ho; [exact Hx|]. intros ->. apply Hnx. left. reflexivity.
Qed.
Lemma tree_same_label h h' u c m Am u' m' Am' : tree h u c m Am -> tree h' u' c m' Am' -> n_label m' = n_label m -> same_label h h' c.
Proof.
  intros H1 H2 E. destruct (tree_label _ _ _ _ _ H1) as (c1 & E1 & L1 & _). destruct (tree_label _ _ _ _ _ H2) as (c2 & E2 & L2 & _).
  unfold same_label. rewrite E1, E2. cbn. congruence.
Qed.

(** ** Going up again *)
Fixpoint prefixes (n m : nat) (path : list bytes) : list (list bytes) :=
  match n with O => [] | S n => firstn m path :: prefixes n (pred m) path end.
Lemma prefixes_snoc n : forall m path, prefixes (S n) m path = prefixes n m path ++ [firstn (m - n) path].
Proof.
  induction n as [|n IH]; intros m path; [cbn; rewrite Nat.sub_0_r; reflexivity|].
  change (prefixes (S (S n)) m path) with (firstn m path :: prefixes (S n) (pred m) path). rewrite IH. cbn [prefixes app]. do 3 f_equal. f_equal. lia.
Qed.
Lemma prefixes_cons n : forall m x path, (n <= m)%nat -> prefixes n (S m) (x :: path) = map (cons x) (prefixes n m path).
Proof.
  induction n as [|n IH]; intros m x path H; [reflexivity|]. cbn [prefixes map firstn]. f_equal. destruct m as [|m]; [lia|]. cbn [pred]. apply IH. lia.
Qed.
Lemma ancestors_prefixes path : ancestors path = prefixes (length path) (length path) path.
Proof.
  induction path as [|x path IH]; [reflexivity|]. cbn [ancestors length]. rewrite prefixes_snoc, prefixes_cons by lia. rewrite IH.
  do 2 f_equal. replace (S (length path) - length path)%nat with 1%nat by lia. reflexivity.
Qed.
Lemma ancestors_tl path : tl (ancestors path) = prefixes (length path - 1) (length path - 1) path.
Proof. rewrite ancestors_prefixes. destruct path; [reflexivity|]. cbn [length prefixes tl pred]. rewrite Nat.sub_succ, Nat.sub_0_r. reflexivity. Qed.
Lemma ancestors_removelast path : removelast (ancestors path) = prefixes (length path - 1) (length path) path.
Proof.
  rewrite ancestors_prefixes. destruct path as [|x path]; [reflexivity|]. change (length (x :: path)) with (S (length path)) at 1.
  rewrite prefixes_snoc, removelast_last. cbn [length]. rewrite Nat.sub_succ, Nat.sub_0_r. reflexivity.
Qed.

Definition rfr (quiet : bool) : list (list bytes) -> parser -> pres := if quiet then refresh_quiet else refresh.
Lemma firstn_snoc {X} m (l : list X) : (m < length l)%nat -> exists x, firstn (S m) l = firstn m l ++ [x].
Proof. revert m. induction l as [|y l IH]; intros m H; [cbn in H; lia|]. destruct m as [|m]; [exists y; reflexivity|]. destruct (IH m) as [x E]; [cbn in H; lia|]. exists x. cbn [firstn app]. rewrite <- E. reflexivity. Qed.

Lemma refresh_sim quiet path : forall n m curr q p, sim q p -> (n <= m <= length path)%nat ->
  (n <> O -> exists cc c', nth_error (q_heap q) curr = Some cc /\ c_up cc = Some c' /\ q_walk (q_heap q) (q_root q) (firstn m path) = Ok c') ->
  same_result (q_refresh quiet n m path curr q) (rfr quiet (prefixes n m path) p).
Proof.
  induction n as [|n IH]; intros m curr [h a j] [core j'] [Ej Hs] Hm Hc; cbn [q_heap q_root q_json p_core p_json] in *; subst j'.
  { destruct quiet; (split; [reflexivity|]; split; [reflexivity|exact Hs]). }
  destruct (Hc ltac:(discriminate)) as (cc & c' & Hcc & Hup & Hw). clear Hc. destruct Hs as (up & A & Ht & Hn).
  destruct (walk_ok _ _ _ _ _ _ _ Ht Hw) as [k Hk].
  destruct (upd_sim _ h up a core A k Ht Hn Hk) as (c & u & Ak & E & Tk & HnA & _ & _ & Hupd). rewrite Hw in E. injection E as <-.
  cbn [q_refresh prefixes q_heap q_json]. rewrite (deref_ok _ _ _ Hcc). cbn [q_pure]. rewrite Hup.
  destruct (tree_label _ _ _ _ _ Tk) as (ck & Hck & _). rewrite (deref_ok _ _ _ Hck). cbn [q_pure].
  assert (Hput : forall v, exists h', write h (Some c') (set_value v) = Ok h' /\ sim (QPar h' a j) (Par (upd_node (firstn m path) (with_value v) core) j) /\
    (n <> O -> exists cc c'', nth_error h' c' = Some cc /\ c_up cc = Some c'' /\ q_walk h' a (firstn (pred m) path) = Ok c'')).
  { intro v. destruct (cell_local h u c' k Ak (set_value v) (fun l => l) (fun _ => v) Tk HnA ltac:(reflexivity)) as (h' & E & T' & Hg & _ & _).
    exists h'. split; [exact E|]. destruct (Hupd h' (Node (n_label k) v (n_down k)) Ak (with_value v) Hg HnA ltac:(destruct k; reflexivity) T') as [(A' & T2 & Hn2 & _) Hq]. split.
    - split; [reflexivity|]. exists up, A'. split; assumption.
    - intro Hn0. destruct m as [|m]; [lia|]. destruct (firstn_snoc m path ltac:(lia)) as [x Ex]. cbn [pred].
      rewrite Ex in Hw. destruct (walk_parent h up a core A _ x c' u k Ak Ht Hw Tk) as (c'' & -> & Hw').
      destruct (tree_label _ _ _ _ _ T') as (ck' & Hck' & _ & _ & Hup'). exists ck', c''. split; [exact Hck'|]. split; [exact Hup'|].
      rewrite (Hq (firstn m path) [x] Ex) by (left; discriminate). exact Hw'. }
  assert (Hstep : forall v, exists h', write h (Some c') (set_value v) = Ok h' /\ sim (QPar h' a j) (Par (upd_node (firstn m path) (with_value v) core) j) /\
    same_result (q_refresh quiet n (pred m) path c' (QPar h' a j)) (rfr quiet (prefixes n (pred m) path) (Par (upd_node (firstn m path) (with_value v) core) j))).
  { intro v. destruct (Hput v) as (h' & E & Hs' & Hc'). exists h'. split; [exact E|]. split; [exact Hs'|]. apply IH; [exact Hs'|lia|exact Hc']. }
  unfold rfr in *. destruct (Get j (firstn m path)) as [v|e|] eqn:Eg.
  - destruct (Hstep v) as (h' & E & Hs' & Hr). rewrite E. destruct quiet; cbn [q_pure refresh refresh_quiet p_json p_core]; rewrite Eg; exact Hr.
  - destruct (Hstep []) as (h' & E & Hs' & Hr). rewrite E. destruct quiet; cbn [q_pure refresh refresh_quiet p_json p_core]; rewrite Eg; [exact Hr|].
    split; [reflexivity|exact Hs'].
  - destruct quiet; cbn [refresh refresh_quiet p_json]; rewrite Eg; exact I.
Qed.

(** ** Set and SetKey *)
Lemma n_walk_app p1 : forall n p2, n_walk n (p1 ++ p2) = do m <- n_walk n p1; n_walk m p2.
Proof. induction p1 as [|x p1 IH]; intros n p2; [reflexivity|]. cbn [app n_walk]. destruct (find_node x (n_down n)); [apply IH|reflexivity]. Qed.
Lemma upd_first_ext x f g ns : (forall n, f n = g n) -> upd_first x f ns = upd_first x g ns.
Proof. intro H. induction ns as [|n ns IH]; [reflexivity|]. cbn [upd_first]. rewrite H, IH. reflexivity. Qed.
Lemma upd_node_app p1 : forall p2 f n, upd_node (p1 ++ p2) f n = upd_node p1 (upd_node p2 f) n.
Proof. induction p1 as [|x p1 IH]; intros p2 f [l v d]; [reflexivity|]. cbn [app upd_node]. f_equal. apply upd_first_ext. intro n. apply IH. Qed.

Lemma find_sim x h a ds ns A : trees h a ds ns A -> exists o, q_find h x ds = Ok o /\ has_label x ns = match o with Some _ => true | None => false end.
Proof.
  intro H. pose proof (find_split x h a ds ns A H) as Hf. unfold has_label. destruct (find_node x ns) as [k|].
  - destruct Hf as (ds1 & d & ds2 & ns1 & ns2 & A1 & Ad & A2 & -> & -> & T1 & T2 & T3 & -> & Hu & Hx).
    destruct (tree_label _ _ _ _ _ T2) as (cd & Hcd & Hl & _).
    exists (Some d). split; [|reflexivity]. rewrite (find_past _ _ _ _ _ _ T1 Hu). eapply find_here; [exact Hcd|]. rewrite Hl. exact Hx.
  - exists None. split; [apply Hf|reflexivity].
Qed.

(** A node and the one above it *)
Lemma parent_view h up a n A p x m : tree h up a n A -> NoDup A -> n_walk n (p ++ [x]) = Ok m ->
  exists c' u' lk vk ds1 d ds2 ns1 ns2 A1 Am A2,
    q_walk h a p = Ok c' /\ n_walk n p = Ok (Node lk vk (ns1 ++ m :: ns2)) /\ nth_error h c' = Some (Cell lk vk u' (ds1 ++ d :: ds2)) /\
    trees h c' ds1 ns1 A1 /\ tree h (Some c') d m Am /\ trees h c' ds2 ns2 A2 /\ NoDup (c' :: A1 ++ Am ++ A2) /\
    unlabelled x ns1 /\ bytes_eqb (n_label m) x = true /\ q_walk h a (p ++ [x]) = Ok d /\
    (forall h' m' Am' f, grows h h' (c' :: A1 ++ Am ++ A2) Am' -> NoDup Am' -> f (Node lk vk (ns1 ++ m :: ns2)) = m' -> tree h' u' c' m' Am' ->
       (exists A', tree h' up a (upd_node p f n) A' /\ NoDup A' /\ grows h h' A A') /\
       forall p1 p2, p = p1 ++ p2 -> p2 <> [] \/ same_label h h' c' -> q_walk h' a p1 = q_walk h a p1).
Proof.
  intros Ht Hn Hw. rewrite n_walk_app in Hw. destruct (n_walk n p) as [k|e|] eqn:Ek; [|discriminate..]. cbn [bind n_walk] in Hw.
  destruct (upd_sim p h up a n A k Ht Hn Ek) as (c' & u' & Ak & E & Tk & HnA & _ & _ & Hupd). inversion Tk as [u0 c0 lk vk ds ns A0 Hc Hts]; subst.
  cbn [n_down] in Hw. pose proof (find_split x h c' ds ns A0 Hts) as Hf. destruct (find_node x ns) as [k|]; [|discriminate]. injection Hw as ->.
  destruct Hf as (ds1 & d & ds2 & ns1 & ns2 & A1 & Am & A2 & -> & -> & T1 & T2 & T3 & -> & Hu & Hx).
  exists c', u', lk, vk, ds1, d, ds2, ns1, ns2, A1, Am, A2. do 9 (split; [assumption || reflexivity|]). split; [|exact Hupd].
  rewrite walk_app, E. cbn [bind q_walk]. rewrite (deref_ok _ _ _ Hc). cbn [bind c_down]. destruct (tree_label _ _ _ _ _ T2) as (cd & Hcd & Hl & _).
  rewrite (find_past _ _ _ _ _ _ T1 Hu), (find_here h x d cd ds2 Hcd) by (rewrite Hl; exact Hx). reflexivity.
Qed.

Lemma take_sim q p r k1 k2 : q_json q = p_json p -> (forall out, same_result (k1 (QPar (q_heap q) (q_root q) out)) (k2 (Par (p_core p) out))) ->
  same_result (q_take q r k1) (take_text p r k2).
Proof. intros E H. destruct r; cbn; [apply H|apply H|exact I]. Qed.
Lemma take_or_fail_sim q p r k1 k2 : sim q p -> (forall out, same_result (k1 (QPar (q_heap q) (q_root q) out)) (k2 (Par (p_core p) out))) ->
  same_result (q_take_or_fail q r k1) (take_or_fail p r k2).
Proof. intros [E Hs] H. destruct r; cbn; [apply H| |exact I]. split; [reflexivity|]. split; [reflexivity|exact Hs]. Qed.

Lemma path_end (path : list bytes) : path <> [] -> exists x, path = removelast path ++ [x] /\ firstn (length path - 1) path = removelast path.
Proof.
  intro H. exists (last path []). split; [apply app_removelast_last; exact H|]. rewrite removelast_firstn_len, Nat.sub_1_r. reflexivity.
Qed.

Lemma refresh_from quiet path h a core j curr c' : stands h a core -> path <> [] ->
  (exists cc, nth_error h curr = Some cc /\ c_up cc = Some c') -> q_walk h a (removelast path) = Ok c' ->
  same_result (q_refresh quiet (length path - 1) (length path - 1) path curr (QPar h a j)) (rfr quiet (tl (ancestors path)) (Par core j)).
Proof.
  intros Hs Hne (cc & Hcc & Hup) Hw. rewrite ancestors_tl. apply refresh_sim; [split; [reflexivity|exact Hs]|lia|].
  intros _. exists cc, c'. split; [exact Hcc|]. split; [exact Hup|]. destruct (path_end path Hne) as (x & _ & ->). exact Hw.
Qed.

(** A field of the node at the end of the path is written. *)
Lemma field_sim path h a n g gl gv f m : stands h a n -> path <> [] -> n_walk n path = Ok m ->
  (forall l v u ds, g (Cell l v u ds) = Cell (gl l) (gv v) u ds) -> (forall l v d, f (Node l v d) = Node (gl l) (gv v) d) ->
  exists c h' c', q_walk h a path = Ok c /\ write h (Some c) g = Ok h' /\ stands h' a (upd_node path f n) /\
    (exists cc, nth_error h' c = Some cc /\ c_up cc = Some c') /\ q_walk h' a (removelast path) = Ok c' /\ q_walk h a (removelast path) = Ok c' /\
    exists cc, nth_error h c = Some cc /\ c_up cc = Some c'.
Proof.
  intros (up & A & Ht & Hn) Hne Hw Hg Hf. destruct (upd_sim path h up a n A m Ht Hn Hw) as (c & u & Am & E & Tm & HnA & _ & _ & Hupd).
  destruct (cell_local h u c m Am g gl gv Tm HnA Hg) as (h' & Ew & T' & Hgr & _ & _).
  destruct (Hupd h' (Node (gl (n_label m)) (gv (n_value m)) (n_down m)) Am f Hgr HnA ltac:(destruct m; apply Hf) T') as [(A' & T2 & Hn2 & _) Hq].
  destruct (path_end path Hne) as (x & Ep & _). pose proof E as E'. rewrite Ep in E'.
  destruct (walk_parent h up a n A _ x c u m Am Ht E' Tm) as (c' & -> & Hw').
  exists c, h', c'. split; [exact E|]. split; [exact Ew|]. split; [exists up, A'; split; assumption|].
  destruct (tree_label _ _ _ _ _ T') as (cc & Hcc & _ & _ & Hup). destruct (tree_label _ _ _ _ _ Tm) as (cc0 & Hcc0 & _ & _ & Hup0).
  split; [exists cc; split; assumption|]. split; [|split; [exact Hw'|exists cc0; split; assumption]]. rewrite (Hq _ [x] Ep) by (left; discriminate). exact Hw'.
Qed.

(** A node as [pCore] fills it *)
Lemma fresh_core v h :
  match pCore v with
  | Ok ns => exists h1 B, q_core v (h ++ [Cell [] [] None []]) (length h) = Ok h1 /\ tree h1 None (length h) (Node [] [] ns) B /\ NoDup B /\ grows h h1 [] B
  | Err e => q_core v (h ++ [Cell [] [] None []]) (length h) = Err e
  | Panic => q_core v (h ++ [Cell [] [] None []]) (length h) = Panic
  end.
Proof.
  pose proof (core_sim v (h ++ [Cell [] [] None []]) (length h) (nth_error_snoc _ _)) as H. unfold loops in H. destruct (pCore v) as [ns|e|]; [|exact H..].
  destruct H as (h1 & B & E & Ht & Hn & Hg). exists h1, B. split; [exact E|]. split; [exact Ht|]. split; [exact Hn|].
  eapply grows_trans; [|exact Hg]. split; [rewrite app_length; lia|]. split; [intros x Hx _; apply nth_error_app1; exact Hx|]. intros x [<-|[]]. right. lia.
Qed.
Lemma grows_agree h h' B A : grows h h' [] B -> Forall (fun x => (x < length h)%nat) A -> agree A h h'.
Proof. intros (_ & K & _) Hb x Hx. rewrite Forall_forall in Hb. apply K; [apply Hb; exact Hx|intros []]. Qed.

Lemma index_past h x a ds1 ns1 A1 : trees h a ds1 ns1 A1 -> unlabelled x ns1 -> forall d c ds, nth_error h d = Some c -> bytes_eqb (c_label c) x = true ->
  q_index h x (ds1 ++ d :: ds) = Ok (Some (length ds1)).
Proof.
  induction 1 as [|a d0 ds0 n ns A B H1 H2 IH]; intros Hu d c ds Hc Hx.
  - cbn [app q_index]. rewrite (deref_ok _ _ _ Hc). cbn [bind]. rewrite Hx. reflexivity.
  - inversion Hu as [|? ? Hx0 Hu']; subst. destruct (tree_label _ _ _ _ _ H1) as (c0 & Hc0 & Hl & _). cbn [app q_index]. rewrite (deref_ok _ _ _ Hc0). cbn [bind].
    rewrite Hl, Hx0, (IH Hu' d c ds Hc Hx). reflexivity.
Qed.

Lemma unlabelled_eqb x y ns : bytes_eqb y x = true -> unlabelled x ns -> unlabelled y ns.
Proof. intros E H. apply bytes_eqb_eq in E. subst. exact H. Qed.

Lemma ne_match {X Y} (l : list X) (u v : Y) : l <> [] -> match l with [] => u | _ :: _ => v end = v.
Proof. destruct l; congruence. Qed.

(** A container replaces a node. *)
Lemma swap_sim h up a n A path m ns h1 B newVal : tree h up a n A -> NoDup A -> path <> [] -> n_walk n path = Ok m ->
  tree h1 None (length h) (Node [] [] ns) B -> NoDup B -> grows h h1 [] B ->
  exists curr cc cu c' index h2 h3 h4 h5, q_walk h a path = Ok curr /\ deref h1 (Some curr) = Ok (curr, cc) /\
    write h1 (Some (length h)) (set_label (c_label cc)) = Ok h2 /\ write h2 (Some (length h)) (set_up (c_up cc)) = Ok h3 /\
    c_up cc = Some c' /\ deref h3 (Some c') = Ok (c', cu) /\ q_index h3 (c_label cc) (c_down cu) = Ok (Some index) /\
    write h3 (Some c') (fun c => set_down (set_nth (c_down c) index (length h)) c) = Ok h4 /\ write h4 (Some (length h)) (set_value newVal) = Ok h5 /\
    stands h5 a (upd_node path (fun k => Node (n_label k) newVal ns) n) /\ (exists cn, nth_error h5 (length h) = Some cn /\ c_up cn = Some c') /\
    q_walk h5 a (removelast path) = Ok c'.
Proof.
  intros Ht Hn Hne Hw Hnew HnB Hg. destruct (path_end path Hne) as (x & Ep & _). set (pp := removelast path) in *. clearbody pp. subst path.
  destruct (parent_view h up a n A pp x m Ht Hn Hw) as (c' & u' & lk & vk & ds1 & d & ds2 & ns1 & ns2 & A1 & Am & A2 & Hq & Hk & Hc & T1 & T2 & T3 & HnA & Hu & Hx & Hqd & Hupd).
  set (nc := length h) in *. destruct (tree_label _ _ _ _ _ T2) as (cd & Hcd & Hl & _ & Hupd0).
  assert (Hlt : forall y, In y (c' :: A1 ++ Am ++ A2) -> (y < length h)%nat).
  { apply Forall_forall. constructor; [apply nth_error_Some; rewrite Hc; discriminate|]. rewrite !Forall_app.
    repeat split; [eapply trees_bound; exact T1|eapply tree_bound; exact T2|eapply trees_bound; exact T3]. }
  assert (G : forall y, (y < length h)%nat -> nth_error h1 y = nth_error h y) by (intros y Hy; apply Hg; [exact Hy|intros []]).
  assert (HB : forall y, In y B -> (length h <= y)%nat) by (intros y Hy; apply Hg in Hy; destruct Hy as [[]|Hy]; exact Hy).
  inversion Hnew as [? ? ? ? dsn ? B0 Hcn Htn]; subst. inversion HnB as [|? ? HniB HnB0]; subst.
  assert (Hd_lt : (d < nc)%nat) by (apply nth_error_Some; rewrite Hcd; discriminate).
  assert (Hc'_lt : (c' < nc)%nat) by (apply nth_error_Some; rewrite Hc; discriminate).
  assert (Hlt1 : (nc < length h1)%nat) by (apply nth_error_Some; rewrite Hcn; discriminate).
  pose (h2 := set_nth h1 nc (Cell (c_label cd) [] None dsn)). pose (h3 := set_nth h2 nc (Cell (c_label cd) [] (Some c') dsn)).
  pose (h4 := set_nth h3 c' (Cell lk vk u' (ds1 ++ nc :: ds2))). pose (h5 := set_nth h4 nc (Cell (c_label cd) newVal (Some c') dsn)).
  assert (L2 : length h2 = length h1) by apply set_nth_length. assert (L3 : length h3 = length h1) by (unfold h3; rewrite set_nth_length; exact L2).
  assert (L4 : length h4 = length h1) by (unfold h4; rewrite set_nth_length; exact L3).
  assert (N3 : forall y, y <> nc -> nth_error h3 y = nth_error h1 y) by (intros y Hy; unfold h3, h2; rewrite !set_nth_other by congruence; reflexivity).
  assert (N5 : forall y, y <> nc -> y <> c' -> nth_error h5 y = nth_error h1 y).
  { intros y Hy1 Hy2. unfold h5, h4. rewrite !set_nth_other by congruence. apply N3. exact Hy1. }
  assert (N5n : nth_error h5 nc = Some (Cell (c_label cd) newVal (Some c') dsn)) by (apply set_nth_same; lia).
  assert (N5c : nth_error h5 c' = Some (Cell lk vk u' (ds1 ++ nc :: ds2))) by (unfold h5; rewrite set_nth_other by lia; apply set_nth_same; lia).
  assert (Hold : agree (A1 ++ A2) h h3 /\ agree (A1 ++ A2) h h5).
  { assert (Hy : forall y, In y (A1 ++ A2) -> (y < length h)%nat /\ y <> c').
    { intros y Hy. assert (Hy' : In y (A1 ++ Am ++ A2)) by (rewrite !in_app_iff in *; tauto). split; [apply Hlt; right; exact Hy'|].
      intros ->. inversion HnA; subst. contradiction. }
    split; intros y Hy0; destruct (Hy y Hy0) as [H1 H2].
    - rewrite N3 by (unfold nc; lia). apply G. exact H1.
    - rewrite N5 by (unfold nc; lia || exact H2). apply G. exact H1. }
  destruct Hold as [Ho3 Ho5].
  assert (Hxl : bytes_eqb (c_label cd) x = true) by (rewrite Hl; exact Hx).
  exists d, cd, (Cell lk vk u' (ds1 ++ d :: ds2)), c', (length ds1), h2, h3, h4, h5. split; [exact Hqd|].
  split; [apply deref_ok; rewrite G by exact Hd_lt; exact Hcd|]. split; [rewrite (write_ok _ _ _ _ Hcn); reflexivity|].
  split; [rewrite (write_ok h2 nc (Cell (c_label cd) [] None dsn)) by (apply set_nth_same; exact Hlt1); rewrite Hupd0; reflexivity|].
  split; [exact Hupd0|].
  assert (E3 : nth_error h3 c' = Some (Cell lk vk u' (ds1 ++ d :: ds2))) by (rewrite N3 by lia; rewrite G by exact Hc'_lt; exact Hc).
  split; [apply deref_ok; exact E3|]. split.
  { cbn [c_down]. eapply index_past with (c := cd).
    - eapply trees_frame; [exact T1|]. intros y Hy. apply Ho3, in_or_app. auto.
    - eapply unlabelled_eqb; [|exact Hu]. exact Hxl.
    - rewrite N3 by lia. rewrite G by exact Hd_lt. exact Hcd.
    - apply bytes_eqb_refl. }
  split; [rewrite (write_ok _ _ _ _ E3); unfold h4; cbn [c_down set_down c_label c_value c_up]; rewrite set_nth_app; reflexivity|].
  split; [rewrite (write_ok h4 nc (Cell (c_label cd) [] (Some c') dsn)) by (unfold h4; rewrite set_nth_other by lia; apply set_nth_same; lia); reflexivity|].
  assert (Tn : tree h5 (Some c') nc (Node (n_label m) newVal ns) (nc :: B0)).
  { rewrite <- Hl. econstructor; [exact N5n|]. eapply trees_frame; [exact Htn|]. intros y Hy. apply N5; [intros ->; contradiction|].
    assert (H := HB y (or_intror Hy)). lia. }
  assert (Tk : tree h5 u' c' (Node lk vk (ns1 ++ Node (n_label m) newVal ns :: ns2)) (c' :: A1 ++ (nc :: B0) ++ A2)).
  { econstructor; [exact N5c|]. apply trees_app; [eapply trees_frame; [exact T1|]|constructor; [exact Tn|eapply trees_frame; [exact T3|]]];
      intros y Hy; apply Ho5, in_or_app; auto. }
  destruct (Hupd h5 (Node lk vk (ns1 ++ Node (n_label m) newVal ns :: ns2)) (c' :: A1 ++ (nc :: B0) ++ A2)
    (upd_node [x] (fun k => Node (n_label k) newVal ns))) as [(A' & T' & Hn' & _) Hq']; [| | |exact Tk|].
  - split; [unfold h5; rewrite set_nth_length; destruct Hg as [Hg _]; lia|]. split.
    + intros y Hy Hny. rewrite N5; [apply G; exact Hy|unfold nc; lia|]. intros ->. apply Hny. left. reflexivity.
    + intros y [<-|Hy]; [left; left; reflexivity|]. rewrite !in_app_iff in Hy. destruct Hy as [Hy|[Hy|Hy]];
        [left; right; rewrite !in_app_iff; auto|right; apply HB; exact Hy|left; right; rewrite !in_app_iff; auto].
  - inversion HnA as [|? ? Hni Hnd]; subst. apply nodup_app in Hnd. destruct Hnd as (N1 & N2 & D1). apply nodup_app in N2. destruct N2 as (Nm & N2 & D2).
    constructor.
    + rewrite !in_app_iff in *. intros [H|[H|H]]; [tauto| |tauto]. apply HB in H. lia.
    + apply nodup_app. split; [exact N1|]. split.
      * apply nodup_app. split; [exact HnB|]. split; [exact N2|]. intros y Hy H. apply HB in Hy. assert (H' := Hlt y). cbn [In] in H'. rewrite !in_app_iff in H'.
        specialize (H' (or_intror (or_intror (or_intror H)))). lia.
      * intros y Hy. rewrite in_app_iff. intros [H|H].
        -- apply HB in H. assert (H' := Hlt y). cbn [In] in H'. rewrite !in_app_iff in H'. specialize (H' (or_intror (or_introl Hy))). lia.
        -- apply (D1 y Hy), in_or_app. auto.
  - cbn [upd_node]. rewrite upd_first_split by assumption. reflexivity.
  - split; [exists up, A'; split; [rewrite upd_node_app; exact T'|exact Hn']|]. split; [eexists; split; [exact N5n|reflexivity]|].
    rewrite (Hq' pp [] ltac:(rewrite app_nil_r; reflexivity)) by (right; unfold same_label; rewrite N5c, Hc; reflexivity). exact Hq.
Qed.

Theorem Set_sim q p newVal path : sim q p -> same_result (Q_Set q newVal path) (P_Set p newVal path).
Proof.
  destruct q as [h a j], p as [core j']. intros [Ej Hs]. cbn [q_heap q_root q_json p_core p_json] in *. subst j'. unfold Q_Set, P_Set. cbn [q_heap q_root q_json p_core p_json].
  destruct (list_eq_dec (list_eq_dec N.eq_dec) path []) as [->|Hne]; [split; [reflexivity|split; [reflexivity|exact Hs]]|].
  rewrite !(ne_match path _ _ Hne). destruct (n_walk core path) as [m|e|] eqn:Ew; [| |destruct (walk_no_panic _ _ Ew)].
  2:{ pose proof Hs as (up & A & Ht & Hn). rewrite (walk_err _ _ _ _ _ _ _ Ht Ew). split; [reflexivity|split; [reflexivity|exact Hs]]. }
  cbn [p_bind]. destruct ((2 <=? length newVal)%nat && opens newVal).
  - pose proof Hs as (up & A & Ht & Hn). cbn [createNode alloc]. pose proof (fresh_core newVal h) as Hf. destruct (pCore newVal) as [ns|e|].
    2:{ destruct (upd_sim path h up a core A m Ht Hn Ew) as (c & u & Am & E & _). rewrite E. cbn [q_bind]. rewrite Hf. exact I. }
    2:{ destruct (upd_sim path h up a core A m Ht Hn Ew) as (c & u & Am & E & _). rewrite E. cbn [q_bind]. rewrite Hf. exact I. }
    destruct Hf as (h1 & B & E1 & Tn & HnB & Hg).
    destruct (swap_sim h up a core A path m ns h1 B newVal Ht Hn Hne Ew Tn HnB Hg) as (curr & cc & cu & c' & index & h2 & h3 & h4 & h5 & E2 & E3 & E4 & E5 & E6 & E7 & E8 & E9 & E10 & Hs' & Hcn & Hw').
    rewrite E2. cbn [q_bind]. rewrite E1. cbn [q_pure]. rewrite E3. cbn [q_pure]. rewrite E4. cbn [q_pure]. rewrite E5. cbn [q_pure]. rewrite E6, E7. cbn [q_pure].
    rewrite E8. cbn [q_pure]. rewrite E9. cbn [q_pure]. rewrite E10. cbn [q_pure p_pure]. apply take_sim; [reflexivity|]. intro out.
    apply (refresh_from false path h5 a _ out (length h) c' Hs' Hne Hcn Hw').
  - destruct (field_sim path h a core (set_value newVal) (fun l => l) (fun _ => newVal) (with_value newVal) m Hs Hne Ew ltac:(reflexivity) ltac:(reflexivity))
      as (c & h' & c' & E & Ewr & Hs' & Hcc & Hw' & _).
    rewrite E. cbn [q_bind]. rewrite Ewr. cbn [q_pure]. apply take_sim; [reflexivity|]. intro out.
    apply (refresh_from false path h' a _ out c c' Hs' Hne Hcc Hw').
Qed.

Theorem SetKey_sim q p newKey path : sim q p -> same_result (Q_SetKey q newKey path) (P_SetKey p newKey path).
Proof.
  destruct q as [h a j], p as [core j']. intros [Ej Hs]. cbn [q_heap q_root q_json p_core p_json] in *. subst j'. unfold Q_SetKey, P_SetKey. cbn [q_heap q_root q_json p_core p_json].
  destruct (list_eq_dec (list_eq_dec N.eq_dec) path []) as [->|Hne]; [split; [reflexivity|split; [reflexivity|exact Hs]]|].
  rewrite !(ne_match path _ _ Hne). destruct newKey as [|k0 newKey0] eqn:Ek; [split; [reflexivity|split; [reflexivity|exact Hs]]|]. rewrite <- Ek. clear Ek.
  destruct (n_walk core path) as [m|e|] eqn:Ew; [| |destruct (walk_no_panic _ _ Ew)].
  2:{ pose proof Hs as (up & A & Ht & Hn). rewrite (walk_err _ _ _ _ _ _ _ Ht Ew). split; [reflexivity|split; [reflexivity|exact Hs]]. }
  cbn [p_bind].
  destruct (field_sim path h a core (set_label newKey) (fun l => newKey) (fun v => v) (with_label newKey) m Hs Hne Ew ltac:(reflexivity) ltac:(reflexivity))
      as (c & h' & c' & E & Ewr & Hs' & Hcc & Hw' & Hw & cc & Hcc0 & Hup0).
  rewrite E. cbn [q_bind]. rewrite (deref_ok _ _ _ Hcc0). cbn [q_pure]. rewrite Hup0.
  pose proof Hs as (up & A & Ht & Hn). destruct (walk_ok _ _ _ _ _ _ _ Ht Hw) as [k Hk]. rewrite Hk. cbn [p_pure].
  destruct (plug (removelast path) h up a core A k Ht Hk) as (c1 & u1 & Ak & C & E1 & Tk & _). rewrite Hw in E1. injection E1 as <-.
  destruct Tk as [u1 c' l v ds ns Ak Hc Hts]. rewrite (deref_ok _ _ _ Hc). cbn [q_pure c_down n_down].
  destruct (find_sim newKey h c' ds ns Ak Hts) as (o & -> & ->). cbn [q_pure]. destruct o; [split; [reflexivity|split; [reflexivity|exact Hs]]|].
  rewrite Ewr. cbn [q_pure]. apply take_sim; [reflexivity|]. intro out. apply (refresh_from true path h' a _ out c c' Hs' Hne Hcc Hw').
Qed.

(** ** Delete *)
Lemma others_sim x h a ds ns A : trees h a ds ns A ->
  exists ds' A', q_others h x ds = Ok ds' /\ trees h a ds' (filter (fun d => negb (bytes_eqb (n_label d) x)) ns) A' /\
    (forall y, In y A' -> In y A) /\ (NoDup A -> NoDup A').
Proof.
  induction 1 as [|a d ds n ns A B H1 H2 IH]; [exists [], []; repeat split; auto; constructor|].
  destruct IH as (ds' & B' & E & T & Hi & Hn). destruct (tree_label _ _ _ _ _ H1) as (c & Hc & Hl & _).
  cbn [q_others filter]. rewrite (deref_ok _ _ _ Hc). cbn [bind]. rewrite E. cbn [bind]. rewrite Hl. destruct (bytes_eqb (n_label n) x); cbn [negb].
  - exists ds', B'. split; [reflexivity|]. split; [exact T|]. split; [intros y Hy; apply in_or_app; auto|]. intro H. apply Hn. apply nodup_app in H. apply H.
  - exists (d :: ds'), (A ++ B'). split; [reflexivity|]. split; [constructor; assumption|]. split.
    + intros y Hy. rewrite in_app_iff in *. destruct Hy; auto.
    + intro H. apply nodup_app in H. destruct H as (N1 & N2 & D). apply nodup_app. repeat split; auto. intros y Hy Hy'. apply (D y Hy). auto.
Qed.

Lemma detach_sim h a n path m : stands h a n -> path <> [] -> n_walk n path = Ok m ->
  exists c h' c', q_walk h a path = Ok c /\ q_deAttach h c = Ok h' /\ stands h' a (upd_node (removelast path) (drop_label (n_label m)) n) /\
    (exists cc, nth_error h' c = Some cc /\ c_up cc = Some c') /\ q_walk h' a (removelast path) = Ok c'.
Proof.
  intros (up & A & Ht & Hn) Hne Hw. destruct (path_end path Hne) as (x & Ep & _). set (pp := removelast path) in *. clearbody pp. subst path.
  destruct (parent_view h up a n A pp x m Ht Hn Hw) as (c' & u' & lk & vk & ds1 & d & ds2 & ns1 & ns2 & A1 & Am & A2 & Hq & Hk & Hc & T1 & T2 & T3 & HnA & Hu & Hx & Hqd & Hupd).
  destruct (tree_label _ _ _ _ _ T2) as (cd & Hcd & Hl & _ & Hup).
  assert (T : trees h c' (ds1 ++ d :: ds2) (ns1 ++ m :: ns2) (A1 ++ Am ++ A2)) by (apply trees_app; [exact T1|constructor; assumption]).
  destruct (others_sim (n_label m) h c' _ _ _ T) as (ds' & A' & E & T' & Hi & Hnd). inversion HnA as [|? ? Hni Hn']; subst.
  pose proof (trees_bound _ _ _ _ _ T') as Hb. assert (Hc' : (c' < length h)%nat) by (apply nth_error_Some; rewrite Hc; discriminate).
  pose (h' := set_nth h c' (Cell lk vk u' ds')). pose proof (only_set h c' (Cell lk vk u' ds')) as Ho. fold h' in Ho.
  assert (Hdc : d <> c') by (intros ->; apply Hni; rewrite !in_app_iff; right; left; destruct T2; left; reflexivity).
  exists d, h', c'. split; [exact Hqd|]. split.
  { unfold q_deAttach. rewrite (deref_ok _ _ _ Hcd). cbn [bind]. rewrite Hup, (deref_ok _ _ _ Hc). cbn [bind c_down]. rewrite Hl.
    destruct (ds1 ++ d :: ds2) eqn:Eds; [destruct ds1; discriminate|]. rewrite E. cbn [bind].
    rewrite (write_ok _ _ _ _ Hc). reflexivity. }
  assert (Hc2 : nth_error h' c' = Some (Cell lk vk u' ds')) by (apply set_nth_same; exact Hc').
  assert (Tk : tree h' u' c' (drop_label (n_label m) (Node lk vk (ns1 ++ m :: ns2))) (c' :: A')).
  { econstructor; [exact Hc2|]. cbn [n_down with_down]. eapply trees_frame; [exact T'|]. eapply only_agree; [exact Ho|exact Hb|]. intro H. apply Hni, Hi, H. }
  destruct (Hupd h' (drop_label (n_label m) (Node lk vk (ns1 ++ m :: ns2))) (c' :: A') (drop_label (n_label m))) as [(A2' & T2' & Hn2 & _) Hq'];
    [| |reflexivity|exact Tk|].
  - split; [unfold h'; rewrite set_nth_length; lia|]. split.
    + intros y Hy Hny. apply Ho; [exact Hy|]. intros ->. apply Hny. left. reflexivity.
    + intros y [<-|Hy]; left; [left; reflexivity|right; apply Hi; exact Hy].
  - constructor; [|apply Hnd; exact Hn']. intro H. apply Hni, Hi, H.
  - split; [exists up, A2'; split; assumption|]. split.
    + exists cd. split; [|exact Hup]. unfold h'. rewrite set_nth_other by congruence. exact Hcd.
    + rewrite (Hq' pp [] ltac:(rewrite app_nil_r; reflexivity)) by (right; unfold same_label; rewrite Hc2, Hc; reflexivity). exact Hq.
Qed.

Theorem Delete_sim q p path : sim q p -> same_result (Q_Delete q path) (P_Delete p path).
Proof.
  destruct q as [h a j], p as [core j']. intros [Ej Hs]. cbn [q_heap q_root q_json p_core p_json] in *. subst j'. unfold Q_Delete, P_Delete. cbn [q_heap q_root q_json p_core p_json].
  destruct (list_eq_dec (list_eq_dec N.eq_dec) path []) as [->|Hne]; [split; [reflexivity|split; [reflexivity|exact Hs]]|].
  rewrite !(ne_match path _ _ Hne). destruct (n_walk core path) as [m|e|] eqn:Ew; [| |destruct (walk_no_panic _ _ Ew)].
  2:{ pose proof Hs as (up & A & Ht & Hn). rewrite (walk_err _ _ _ _ _ _ _ Ht Ew). split; [reflexivity|split; [reflexivity|exact Hs]]. }
  destruct (detach_sim h a core path m Hs Hne Ew) as (c & h' & c' & E & Ed & Hs' & Hcc & Hw'). rewrite E. cbn [q_bind p_bind]. rewrite Ed. cbn [q_pure].
  apply take_or_fail_sim; [split; [reflexivity|exact Hs']|]. intro out. apply (refresh_from false path h' a _ out c c' Hs' Hne Hcc Hw').
Qed.

(** ** A node and a new one to go below it *)
Definition pieces (h : heap) (c : nat) (cc : cell) (ds : list nat) (ns : list node) (A : list nat) (un : option nat) (d : nat) (k : node) (B : list nat) : Prop :=
  nth_error h c = Some cc /\ trees h c ds ns A /\ tree h un d k B /\ NoDup (c :: A ++ B).

Lemma pieces_new h c cc ds ns A un d k B g gl gv gu : pieces h c cc ds ns A un d k B -> (forall l v u ds, g (Cell l v u ds) = Cell (gl l) (gv v) (gu u) ds) ->
  exists h', write h (Some d) g = Ok h' /\ pieces h' c cc ds ns A (gu un) d (Node (gl (n_label k)) (gv (n_value k)) (n_down k)) B /\ grows h h' (c :: A ++ B) (c :: A ++ B).
Proof.
  intros (Hc & T1 & T2 & Hn) Hg. inversion T2 as [u0 d0 l v dd nn B0 Hd Hdd]; subst. rewrite (write_ok _ _ _ _ Hd), Hg.
  inversion Hn as [|? ? Hni Hn']; subst. apply nodup_app in Hn'. destruct Hn' as (N1 & N2 & D). inversion N2 as [|? ? Hnd N2']; subst.
  pose proof (only_set h d (Cell (gl l) (gv v) (gu un) dd)) as Ho. pose proof (trees_bound _ _ _ _ _ T1) as B1. pose proof (trees_bound _ _ _ _ _ Hdd) as B2.
  assert (Hcd : c <> d) by (intros ->; apply Hni, in_or_app; right; left; reflexivity).
  eexists. split; [reflexivity|]. split.
  - split; [rewrite set_nth_other by congruence; exact Hc|]. split; [|split; [|exact Hn]].
    + eapply trees_frame; [exact T1|]. eapply only_agree; [exact Ho|exact B1|]. intro H. apply (D d H). left. reflexivity.
    + econstructor; [apply set_nth_same, nth_error_Some; rewrite Hd; discriminate|]. eapply trees_frame; [exact Hdd|]. eapply only_agree; eassumption.
  - split; [rewrite set_nth_length; lia|]. split; [|auto]. intros y Hy Hny. apply Ho; [exact Hy|]. intros ->. apply Hny. right. apply in_or_app. right. left. reflexivity.
Qed.

Lemma pieces_above h c cc ds ns A un d k B g : pieces h c cc ds ns A un d k B ->
  exists h', write h (Some c) g = Ok h' /\ pieces h' c (g cc) ds ns A un d k B /\ grows h h' (c :: A ++ B) (c :: A ++ B).
Proof.
  intros (Hc & T1 & T2 & Hn). rewrite (write_ok _ _ _ _ Hc). inversion Hn as [|? ? Hni Hn']; subst. rewrite in_app_iff in Hni.
  pose proof (only_set h c (g cc)) as Ho. pose proof (trees_bound _ _ _ _ _ T1) as B1. pose proof (tree_bound _ _ _ _ _ T2) as B2.
  eexists. split; [reflexivity|]. split.
  - split; [apply set_nth_same, nth_error_Some; rewrite Hc; discriminate|]. split; [|split; [|exact Hn]].
    + eapply trees_frame; [exact T1|]. eapply only_agree; [exact Ho|exact B1|tauto].
    + eapply tree_frame; [exact T2|]. eapply only_agree; [exact Ho|exact B2|tauto].
  - split; [rewrite set_nth_length; lia|]. split; [|auto]. intros y Hy Hny. apply Ho; [exact Hy|]. intros ->. apply Hny. left. reflexivity.
Qed.

Lemma pieces_tree h c l v u ds ns A d k B : pieces h c (Cell l v u (ds ++ [d])) ds ns A (Some c) d k B -> tree h u c (Node l v (ns ++ [k])) (c :: A ++ B).
Proof. intros (Hc & T1 & T2 & _). econstructor; [exact Hc|]. apply trees_snoc; assumption. Qed.

(** [newNode := createNode(nil)], perhaps filled by pCore *)
Lemma new_node_sim h (ne : bool) v :
  match (if ne then pCore v else Ok []) with
  | Ok ns => exists h1 B, new_node h ne v = Ok (h1, length h) /\ tree h1 None (length h) (Node [] [] ns) B /\ NoDup B /\ grows h h1 [] B
  | _ => forall k, q_pure (new_node h ne v) k = QPanic
  end.
Proof.
  unfold new_node. cbn [createNode alloc]. destruct ne.
  - pose proof (fresh_core v h) as H. destruct (pCore v) as [ns|e|]; [|rewrite H; reflexivity..]. destruct H as (h1 & B & E & H). rewrite E. exists h1, B. split; [reflexivity|exact H].
  - exists (h ++ [Cell [] [] None []]), [length h]. split; [reflexivity|]. split; [econstructor; [apply nth_error_snoc|constructor]|].
    split; [constructor; [intros []|constructor]|]. split; [rewrite app_length; lia|]. split; [intros x Hx _; apply nth_error_app1; exact Hx|]. intros x [<-|[]]. right. lia.
Qed.

(** The new node is apart from the old ones. *)
Lemma apart h h1 u c l v ns Am nn B : tree h u c (Node l v ns) Am -> NoDup Am -> tree h1 None (length h) (Node [] [] nn) B -> NoDup B -> grows h h1 [] B ->
  exists ds A, Am = c :: A /\ pieces h1 c (Cell l v u ds) ds ns A None (length h) (Node [] [] nn) B /\ grows h h1 Am (c :: A ++ B).
Proof.
  intros Ht Hn Hnew HnB Hg. pose proof (tree_bound _ _ _ _ _ Ht) as Hb. pose proof (grows_agree _ _ _ _ Hg Hb) as Hag. rewrite Forall_forall in Hb.
  inversion Ht as [u0 c0 l0 v0 ds ns0 A Hc Hts]; subst. exists ds, A. split; [reflexivity|].
  assert (HB : forall y, In y B -> (length h <= y)%nat) by (intros y Hy; apply Hg in Hy; destruct Hy as [[]|Hy]; exact Hy). split.
  - split; [rewrite Hag by (left; reflexivity); exact Hc|]. split; [eapply trees_frame; [exact Hts|]; intros y Hy; apply Hag; right; exact Hy|]. split; [exact Hnew|].
    change (NoDup ((c :: A) ++ B)). apply nodup_app. split; [exact Hn|]. split; [exact HnB|]. intros y Hy H. apply HB in H. apply Hb in Hy. lia.
  - destruct Hg as (L & K & _). split; [exact L|]. split; [intros y Hy _; apply K; [exact Hy|intros []]|]. intros y [<-|Hy]; [left; left; reflexivity|].
    apply in_app_or in Hy. destruct Hy as [Hy|Hy]; [left; right; exact Hy|right; apply HB; exact Hy].
Qed.

Lemma attach_sim h c l v u ds ns A d k B lb vl : pieces h c (Cell l v u ds) ds ns A None d k B ->
  exists h', attach h c d lb vl = Ok h' /\ tree h' u c (append_node (Node lb vl (n_down k)) (Node l v ns)) (c :: A ++ B) /\
    grows h h' (c :: A ++ B) (c :: A ++ B) /\ exists cn, nth_error h' d = Some cn /\ c_up cn = Some c.
Proof.
  intro H0. unfold attach, push_down.
  destruct (pieces_new _ _ _ _ _ _ _ _ _ _ (set_label lb) (fun _ => lb) (fun v => v) (fun u => u) H0 ltac:(reflexivity)) as (h1 & -> & H1 & G1). cbn [bind n_label n_value n_down] in *.
  destruct (pieces_new _ _ _ _ _ _ _ _ _ _ (set_value vl) (fun l => l) (fun _ => vl) (fun u => u) H1 ltac:(reflexivity)) as (h2 & -> & H2 & G2). cbn [bind n_label n_value n_down] in *.
  destruct (pieces_above _ _ _ _ _ _ _ _ _ _ (fun c => set_down (c_down c ++ [d]) c) H2) as (h3 & -> & H3 & G3). cbn [bind set_down c_down c_label c_value c_up] in *.
  destruct (pieces_new _ _ _ _ _ _ _ _ _ _ (set_up (Some c)) (fun l => l) (fun v => v) (fun _ => Some c) H3 ltac:(reflexivity)) as (h4 & -> & H4 & G4). cbn [bind n_label n_value n_down] in *.
  exists h4. split; [reflexivity|]. split; [exact (pieces_tree _ _ _ _ _ _ _ _ _ _ _ H4)|]. split; [repeat (eapply grows_trans; [eassumption|]); apply grows_refl|].
  destruct H4 as (_ & _ & T & _). destruct (tree_label _ _ _ _ _ T) as (cn & Hcn & _ & _ & Hup). exists cn. split; assumption.
Qed.

(** ** AddKeyValue and Add *)
Lemma get_sim q p path : sim q p -> Q_Get q path = P_Get p path.
Proof.
  destruct q as [h a j], p as [core j']. intros [Ej Hs]. cbn [q_heap q_root q_json p_core p_json] in *. subst j'. unfold Q_Get, P_Get. cbn [q_heap q_root q_json p_core p_json].
  destruct (list_eq_dec (list_eq_dec N.eq_dec) path []) as [->|Hne]; [reflexivity|]. rewrite !(ne_match path _ _ Hne). destruct Hs as (up & A & Ht & Hn).
  destruct (n_walk core path) as [m|e|] eqn:Ew; [|rewrite (walk_err _ _ _ _ _ _ _ Ht Ew); reflexivity|destruct (walk_no_panic _ _ Ew)].
  destruct (plug path h up a core A m Ht Ew) as (c & u & Am & C & E & Tm & _). rewrite E. cbn [bind].
  destruct (tree_label _ _ _ _ _ Tm) as (cc & Hcc & _ & Hv & _). rewrite (deref_ok _ _ _ Hcc). cbn [bind]. rewrite Hv. reflexivity.
Qed.

Lemma trees_length h a ds ns A : trees h a ds ns A -> length ds = length ns.
Proof. induction 1; [reflexivity|]. cbn [length]. congruence. Qed.

Definition odown (o : option (list node)) : list node := match o with Some d => d | None => [] end.
(** The two ways to a new node; [fin nn h1 B Tn HnB Hg] goes on. *)
Ltac with_new h v ne fin :=
  let Hn := fresh "Hn" in let h1 := fresh "h1" in let B := fresh "B" in let E := fresh "E" in let Tn := fresh "Tn" in let HnB := fresh "HnB" in let Hg := fresh "Hg" in
  let ns := fresh "nn" in
  pose proof (new_node_sim h ne v) as Hn; cbv iota in Hn;
  lazymatch ne with
  | true => destruct (pCore v) as [ns|?|]; cbn [p_pure]; [|rewrite Hn; exact I..]
  | false => idtac
  end;
  destruct Hn as (h1 & B & E & Tn & HnB & Hg); rewrite E; cbn [q_pure];
  lazymatch type of Tn with tree _ _ _ (Node _ _ ?nn) _ => fin nn h1 B Tn HnB Hg end.

(** A new node below the node at the end of the path *)
Lemma below_sim h a n path m h1 nn B : stands h a n -> n_walk n path = Ok m -> tree h1 None (length h) (Node [] [] nn) B -> NoDup B -> grows h h1 [] B ->
  exists c, q_walk h a path = Ok c /\ (path = [] -> c = a) /\ (exists cc, deref h1 (Some c) = Ok (c, cc) /\ length (c_down cc) = length (n_down m)) /\
    stands h1 a n /\
    forall lb vl, exists h', attach h1 c (length h) lb vl = Ok h' /\ stands h' a (upd_node path (append_node (Node lb vl nn)) n) /\
      (exists cn, nth_error h' (length h) = Some cn /\ c_up cn = Some c) /\ q_walk h' a path = Ok c.
Proof.
  intros (up & A & Ht & Hn) Hw Hnew HnB Hg. destruct (upd_sim path h up a n A m Ht Hn Hw) as (c & u & Am & E & Tm & HnA & Hca & _ & Hupd).
  destruct m as [l v ns]. destruct (apart h h1 u c l v ns Am nn B Tm HnA Hnew HnB Hg) as (ds & A0 & -> & Hp & Hg1).
  exists c. split; [exact E|]. split; [exact Hca|]. split.
  { exists (Cell l v u ds). split; [apply deref_ok, Hp|]. eapply trees_length, Hp. }
  split. { exists up, A. split; [|exact Hn]. eapply tree_frame; [exact Ht|]. eapply grows_agree; [exact Hg|]. eapply tree_bound, Ht. }
  intros lb vl. destruct (attach_sim h1 c l v u ds ns A0 (length h) (Node [] [] nn) B lb vl Hp) as (h' & Ea & T' & Hg2 & Hcn).
  exists h'. split; [exact Ea|]. assert (HnAB : NoDup (c :: A0 ++ B)) by apply Hp.
  destruct (Hupd h' _ (c :: A0 ++ B) (append_node (Node lb vl nn)) (grows_trans _ _ _ _ _ _ Hg1 Hg2) HnAB eq_refl T') as [(A' & T2 & Hn2 & _) Hq].
  split; [exists up, A'; split; assumption|]. split; [exact Hcn|].
  rewrite (Hq path [] ltac:(rewrite app_nil_r; reflexivity)); [exact E|]. right. eapply tree_same_label; [exact Tm|exact T'|reflexivity].
Qed.

Lemma refresh_at n path h a core j curr c : stands h a core -> (n <= length path)%nat ->
  (exists cc, nth_error h curr = Some cc /\ c_up cc = Some c) -> q_walk h a path = Ok c ->
  same_result (q_refresh false n (length path) path curr (QPar h a j)) (refresh (prefixes n (length path) path) (Par core j)).
Proof.
  intros Hs Hle (cc & Hcc & Hup) Hw. apply (refresh_sim false); [split; [reflexivity|exact Hs]|lia|].
  intros _. exists cc, c. split; [exact Hcc|]. split; [exact Hup|]. rewrite firstn_all. exact Hw.
Qed.

Lemma siblings_sim h a n path m : stands h a n -> path <> [] -> n_walk n path = Ok m ->
  exists c cc c' cu k, q_walk h a path = Ok c /\ nth_error h c = Some cc /\ c_up cc = Some c' /\ nth_error h c' = Some cu /\ n_walk n (removelast path) = Ok k /\
    forall x, exists o, q_find h x (c_down cu) = Ok o /\ has_label x (n_down k) = match o with Some _ => true | None => false end.
Proof.
  intros (up & A & Ht & Hn) Hne Hw. destruct (path_end path Hne) as (x & Ep & _). set (pp := removelast path) in *. clearbody pp. subst path.
  destruct (parent_view h up a n A pp x m Ht Hn Hw) as (c' & u' & lk & vk & ds1 & d & ds2 & ns1 & ns2 & A1 & Am & A2 & Hq & Hk & Hc & T1 & T2 & T3 & HnA & Hu & Hx & Hqd & Hupd).
  destruct (tree_label _ _ _ _ _ T2) as (cd & Hcd & Hl & _ & Hup). exists d, cd, c'. do 2 eexists. split; [exact Hqd|]. split; [exact Hcd|]. split; [exact Hup|].
  split; [exact Hc|]. split; [exact Hk|]. intro y. eapply find_sim. cbn [c_down n_down]. apply trees_app; [exact T1|constructor; eassumption].
Qed.

Ltac same_state := split; [reflexivity|split; [reflexivity|assumption]].

Lemma before_end_sim h a core j t K1 K2 : (forall out, same_result (K1 (QPar h a out)) (K2 (Par core out))) ->
  same_result (q_before_end (QPar h a j) t K1) (put_before_end (Par core j) t K2).
Proof. intro H. unfold q_before_end, put_before_end. cbn [q_json p_json q_heap q_root p_core]. destruct (replace j t _ _); cbn; [apply H|exact I..]. Qed.

Theorem AddKeyValue_sim q p key newVal path : sim q p -> same_result (Q_AddKeyValue q key newVal path) (P_AddKeyValue p key newVal path).
Proof.
  intro Hsim. unfold Q_AddKeyValue, P_AddKeyValue. rewrite (get_sim q p path Hsim).
  destruct key as [|k0 key0]; [split; [reflexivity|exact Hsim]|]. set (key := k0 :: key0) in *. clearbody key.
  destruct (P_Get p path) as [json|e|]; cbn [q_bind p_bind]; [|split; [reflexivity|exact Hsim]|exact I].
  destruct q as [h a j], p as [core j']. destruct Hsim as [Ej Hs]. cbn [q_heap q_root q_json p_core p_json] in *. subst j'.
  destruct (list_eq_dec (list_eq_dec N.eq_dec) path []) as [->|Hne].
  - pose proof Hs as (up & A & Ht & Hn). inversion Ht as [u0 a0 l v ds ns A0 Hc Hts]; subst. rewrite (deref_ok _ _ _ Hc). cbn [q_pure c_down n_down].
    destruct (find_sim key h a ds ns A0 Hts) as (o & -> & ->). cbn [q_pure]. destruct o; [same_state|].
    destruct (2 <=? length json)%nat; [|same_state]. destruct ((hd 0 json =? 123) && (last json 0 =? 125)); [|same_state]. cbv zeta.
    assert (Hfin : forall nn h1 B (ne : bool) (oc : bool), tree h1 None (length h) (Node [] [] nn) B -> NoDup B -> grows h h1 [] B -> oc = negb (ne && (length j =? 2)%nat) ->
      same_result (q_before_end (with_heap (QPar h a j) h1) ((if ne && (length j =? 2)%nat then [] else [44]) ++ pair_text key newVal) (fun p =>
          q_pure (attach (q_heap p) a (length h) key newVal) (fun h => QRet (with_heap p h) None)))
        (put_before_end (Par (append_node (Node key newVal nn) (Node l v ns)) j) ((if oc then [44] else []) ++ pair_text key newVal) (fun p => PRet p None))).
    { intros nn h1 B ne oc Tn HnB Hg ->.
      destruct (below_sim h a (Node l v ns) [] (Node l v ns) h1 nn B Hs eq_refl Tn HnB Hg) as (c & _ & Hca & _ & _ & Hatt). specialize (Hca eq_refl). subst c.
      destruct (Hatt key newVal) as (h' & Ea & Hs' & _).
      replace (if negb (ne && (length j =? 2)%nat) then [44] else []) with (if ne && (length j =? 2)%nat then [] else [44]) by (destruct ne, (length j =? 2)%nat; reflexivity).
      cbn [with_heap q_heap q_root q_json]. apply before_end_sim. intro out. cbn [q_heap]. rewrite Ea. cbn [q_pure with_heap q_heap q_root q_json].
      split; [reflexivity|]. split; [reflexivity|]. exact Hs'. }
    let go nn h1 B Tn HnB Hg := (first [exact (Hfin nn h1 B false true Tn HnB Hg eq_refl)|exact (Hfin nn h1 B true (negb (length j =? 2)%nat) Tn HnB Hg eq_refl)]) in
    destruct (2 <=? length key)%nat; [|with_new h newVal false go];
    destruct (at_ newVal 0) as [c0|e|]; cbn [q_pure p_pure]; [|exact I..];
    destruct (is_open c0); [with_new h newVal true go|with_new h newVal false go].
  - rewrite !(ne_match path _ _ Hne). destruct (n_walk core path) as [m|e|] eqn:Ew; [| |destruct (walk_no_panic _ _ Ew)].
    2:{ pose proof Hs as (up & A & Ht & Hn). rewrite (walk_err _ _ _ _ _ _ _ Ht Ew). same_state. }
    destruct (siblings_sim h a core path m Hs Hne Ew) as (c & cc & c' & cu & k & E & Hcc & Hup & Hcu & Hk & Hsib).
    rewrite E. cbn [q_bind p_bind]. rewrite (deref_ok _ _ _ Hcc). cbn [q_pure]. rewrite Hup, (deref_ok _ _ _ Hcu). cbn [q_pure]. rewrite Hk. cbn [p_pure].
    destruct (Hsib key) as (o & -> & ->). cbn [q_pure]. destruct o; [same_state|].
    destruct (2 <=? length json)%nat; [|same_state]. destruct ((hd 0 json =? 123) && (last json 0 =? 125)); [|same_state]. cbv zeta.
    let go nn h1 B Tn HnB Hg := (
      destruct (below_sim h a core path m h1 nn B Hs Ew Tn HnB Hg) as (c1 & E1 & _ & _ & _ & Hatt); rewrite E in E1; injection E1 as <-;
      destruct (Hatt key newVal) as (h' & Ea & Hs' & Hcn & Hw'); rewrite Ea; cbn [q_pure with_heap q_heap q_root q_json];
      apply take_or_fail_sim; [split; [reflexivity|exact Hs']|]; intro out;
      rewrite ancestors_prefixes; eapply refresh_at; [exact Hs'|lia|exact Hcn|exact Hw']) in
    destruct (2 <=? length key)%nat; [|with_new h newVal false go];
    destruct (at_ newVal 0) as [c0|e|]; cbn [q_pure p_pure]; [|exact I..];
    destruct (is_open c0); [with_new h newVal true go|with_new h newVal false go].
Qed.

Theorem Add_sim q p newVal path : sim q p -> same_result (Q_Add q newVal path) (P_Add p newVal path).
Proof.
  intro Hsim. unfold Q_Add, P_Add. rewrite (get_sim q p path Hsim).
  destruct newVal as [|k0 key0]; [split; [reflexivity|exact Hsim]|]. set (newVal := k0 :: key0) in *. clearbody newVal.
  destruct (P_Get p path) as [json|e|]; cbn [q_bind p_bind]; [|split; [reflexivity|exact Hsim]|exact I].
  destruct q as [h a j], p as [core j']. destruct Hsim as [Ej Hs]. cbn [q_heap q_root q_json p_core p_json] in *. subst j'.
  set (ne := (2 <=? length newVal)%nat && opens newVal) in *. clearbody ne. cbv zeta.
  destruct (list_eq_dec (list_eq_dec N.eq_dec) path []) as [->|Hne].
  - destruct (2 <=? length json)%nat; [|same_state]. destruct ((hd 0 json =? 91) && (last json 0 =? 93)); [|same_state].
    assert (Hfin : forall nn h1 B (ne : bool) (oc : bool), tree h1 None (length h) (Node [] [] nn) B -> NoDup B -> grows h h1 [] B -> oc = negb (ne && (length j =? 2)%nat) ->
      same_result (q_before_end (with_heap (QPar h a j) h1) ((if ne && (length j =? 2)%nat then [] else [44]) ++ newVal) (fun p =>
          q_pure (do '(_, cc) <- deref (q_heap p) (Some a); Ok (itoa (Z.of_nat (length (c_down cc))))) (fun l =>
          q_pure (attach (q_heap p) a (length h) l newVal) (fun h => QRet (with_heap p h) None))))
        (put_before_end (Par (append_node (Node (itoa (Z.of_nat (length (n_down core)))) newVal nn) core) j) ((if oc then [44] else []) ++ newVal) (fun p => PRet p None))).
    { intros nn h1 B ne' oc Tn HnB Hg ->.
      destruct (below_sim h a core [] core h1 nn B Hs eq_refl Tn HnB Hg) as (c & _ & Hca & (cc & Ecc & Hlen) & _ & Hatt). specialize (Hca eq_refl). subst c.
      destruct (Hatt (itoa (Z.of_nat (length (n_down core)))) newVal) as (h' & Ea & Hs' & _).
      replace (if negb (ne' && (length j =? 2)%nat) then [44] else []) with (if ne' && (length j =? 2)%nat then [] else [44]) by (destruct ne', (length j =? 2)%nat; reflexivity).
      cbn [with_heap q_heap q_root q_json]. apply before_end_sim. intro out. cbn [q_heap]. rewrite Ecc. cbn [bind q_pure]. rewrite Hlen, Ea.
      cbn [q_pure with_heap q_heap q_root q_json]. split; [reflexivity|]. split; [reflexivity|]. exact Hs'. }
    let go nn h1 B Tn HnB Hg := (first [exact (Hfin nn h1 B false true Tn HnB Hg eq_refl)|exact (Hfin nn h1 B true (negb (length j =? 2)%nat) Tn HnB Hg eq_refl)]) in
    destruct ne; [with_new h newVal true go|with_new h newVal false go].
  - rewrite !(ne_match path _ _ Hne). destruct (n_walk core path) as [m|e|] eqn:Ew; [| |destruct (walk_no_panic _ _ Ew)].
    2:{ pose proof Hs as (up & A & Ht & Hn). rewrite (walk_err _ _ _ _ _ _ _ Ht Ew). same_state. }
    pose proof Hs as (up & A & Ht & Hn). destruct (plug path h up a core A m Ht Ew) as (c & u & Am & C & E & Tm & _). rewrite E. cbn [q_bind p_bind].
    destruct (2 <=? length json)%nat; [|same_state]. destruct ((hd 0 json =? 91) && (last json 0 =? 93)); [|same_state].
    let go nn h1 B Tn HnB Hg := (
      destruct (below_sim h a core path m h1 nn B Hs Ew Tn HnB Hg) as (c1 & E1 & _ & (cc & Ecc & Hlen) & _ & Hatt); rewrite E in E1; injection E1 as <-;
      destruct (Hatt (itoa (Z.of_nat (length (n_down m)))) newVal) as (h' & Ea & Hs' & Hcn & Hw'); rewrite Ecc; cbn [bind q_pure]; rewrite Hlen, Ea;
      cbn [q_pure with_heap q_heap q_root q_json]; apply take_or_fail_sim; [split; [reflexivity|exact Hs']|]; intro out;
      first [rewrite ancestors_removelast|rewrite ancestors_prefixes]; (eapply refresh_at; [exact Hs'|lia|exact Hcn|exact Hw'])) in
    destruct ne; [with_new h newVal true go|with_new h newVal false go].
Qed.

(** ** Insert *)
Lemma relabel_past ns : forall i index, (index <= Z.of_nat i)%Z -> relabel ns i index = relabel ns i (Z.of_nat i).
Proof.
  induction ns as [|n ns IH]; intros i index H; [reflexivity|]. cbn [relabel]. rewrite (proj2 (Z.leb_le _ _) H), Z.leb_refl. f_equal.
  rewrite IH by lia. symmetry. apply IH. lia.
Qed.
Lemma relabel_split ns : forall i k, (k <= length ns)%nat -> relabel ns i (Z.of_nat (i + k)) = firstn k ns ++ relabel (skipn k ns) (i + k) (Z.of_nat (i + k)).
Proof.
  induction ns as [|n ns IH]; intros i k H; [destruct k; [reflexivity|cbn in H; lia]|]. destruct k as [|k]; [rewrite Nat.add_0_r; reflexivity|].
  cbn [relabel firstn skipn app]. destruct (Z.leb_spec (Z.of_nat (i + S k)) (Z.of_nat i)) as [H1|H1]; [lia|]. f_equal.
  replace (i + S k)%nat with (S i + k)%nat by lia. apply IH. cbn in H. lia.
Qed.

Lemma relabel_sim a ds : forall h ns A i, trees h a ds ns A -> NoDup A ->
  exists h', q_relabel h ds i = Ok h' /\ trees h' a ds (relabel ns i (Z.of_nat i)) A /\ length h' = length h /\ (forall x, ~ In x A -> nth_error h' x = nth_error h x).
Proof.
  induction ds as [|d ds IH]; intros h ns A i Ht Hn; inversion Ht as [|a0 d0 ds0 n ns' A1 B H1 H2]; subst.
  - exists h. repeat split; auto; constructor.
  - apply nodup_app in Hn. destruct Hn as (N1 & N2 & D).
    destruct (cell_local h (Some a) d n A1 (set_label (itoa (Z.of_nat i + 1))) (fun _ => itoa (Z.of_nat i + 1)) (fun v => v) H1 N1 ltac:(reflexivity)) as (h1 & E & T1 & _ & L1 & Ho).
    assert (HdA : In d A1) by (destruct H1; left; reflexivity).
    assert (T2 : trees h1 a ds ns' B).
    { eapply trees_frame; [exact H2|]. eapply only_agree; [exact Ho|eapply trees_bound; exact H2|]. apply D. exact HdA. }
    destruct (IH h1 ns' B (S i) T2 N2) as (h2 & E2 & T3 & L2 & K2). exists h2. cbn [q_relabel]. rewrite E. cbn [bind]. split; [exact E2|]. split.
    + cbn [relabel]. rewrite Z.leb_refl. constructor.
      * eapply tree_frame; [destruct n; exact T1|]. intros x Hx. apply K2. apply D. exact Hx.
      * rewrite relabel_past by lia. exact T3.
    + split; [lia|]. intros x Hx. rewrite in_app_iff in Hx. rewrite K2 by tauto. destruct (Nat.lt_ge_cases x (length h)) as [Hlt|Hge].
      * apply Ho; [exact Hlt|]. intros ->. tauto.
      * rewrite !(proj2 (nth_error_None _ _)) by lia. reflexivity.
Qed.

Lemma trees_cut k : forall h a ds ns A, trees h a ds ns A -> exists A1 A2, A = A1 ++ A2 /\ trees h a (firstn k ds) (firstn k ns) A1 /\ trees h a (skipn k ds) (skipn k ns) A2.
Proof.
  induction k as [|k IH]; intros h a ds ns A H; [exists [], A; repeat split; [constructor|exact H]|].
  destruct H as [|a d ds n ns A B H1 H2]; [exists [], []; repeat split; constructor|]. destruct (IH h a ds ns B H2) as (A1 & A2 & -> & T1 & T2).
  exists (A ++ A1), A2. split; [rewrite app_assoc; reflexivity|]. split; [cbn [firstn]; constructor; assumption|exact T2].
Qed.

(** The loop of insert over the children from [index] on *)
Lemma relabel_from h c cc ds ns A k index : nth_error h c = Some cc -> trees h c ds ns A -> NoDup (c :: A) -> (0 <= index)%Z -> k = Z.to_nat index -> (k <= length ns)%nat ->
  exists h', q_relabel h (skipn k ds) k = Ok h' /\ nth_error h' c = Some cc /\ trees h' c ds (relabel ns 0 index) A /\ length h' = length h /\
    (forall x, ~ In x A -> nth_error h' x = nth_error h x).
Proof.
  intros Hc Ht Hn Hi Hk Hle. destruct (trees_cut k h c ds ns A Ht) as (A1 & A2 & -> & T1 & T2). inversion Hn as [|? ? Hni Hn']; subst.
  apply nodup_app in Hn'. destruct Hn' as (N1 & N2 & D). destruct (relabel_sim c _ h _ A2 (Z.to_nat index) T2 N2) as (h' & E & T2' & L & K). exists h'. split; [exact E|].
  rewrite in_app_iff in Hni. split; [rewrite K by tauto; exact Hc|]. split; [|split; [exact L|]].
  - pose proof (relabel_split ns 0 (Z.to_nat index) Hle) as Er. cbn [Nat.add] in Er. rewrite Z2Nat.id in Er by exact Hi. rewrite Er. rewrite <- (firstn_skipn (Z.to_nat index) ds).
    apply trees_app; [|rewrite Z2Nat.id in T2' by exact Hi; exact T2']. eapply trees_frame; [exact T1|]. intros x Hx. apply K. apply D. exact Hx.
  - intros x Hx. rewrite in_app_iff in Hx. apply K. tauto.
Qed.

(** insert with a node that is not below yet *)
Lemma insert_sim h c l v u ds ns A un d k B index : pieces h c (Cell l v u ds) ds ns A un d k B ->
  match n_insert ns index with
  | Ok ns' => exists h', q_insert h d c index = Ok h' /\ pieces h' c (Cell l v u ds) ds ns' A (Some c) d (Node (itoa index) (n_value k) (n_down k)) B /\
      grows h h' (c :: A ++ B) (c :: A ++ B)
  | Err e => q_insert h d c index = Err e
  | Panic => q_insert h d c index = Panic
  end.
Proof.
  intro Hp. pose proof Hp as (Hc & T1 & T2 & Hn). pose proof (trees_length _ _ _ _ _ T1) as Hlen. unfold n_insert, q_insert. rewrite (deref_ok _ _ _ Hc). cbn [bind c_down].
  destruct ds as [|d0 ds0], ns as [|n0 ns0]; [reflexivity|discriminate|discriminate|]. set (ds := d0 :: ds0) in *. set (ns := n0 :: ns0) in *. rewrite Hlen.
  destruct (Z.ltb_spec (Z.of_nat (length ns) - 1) index) as [H1|H1]; [reflexivity|]. destruct (Z.ltb_spec index 0) as [H2|H2]; [reflexivity|].
  assert (Hn1 : NoDup (c :: A)) by (eapply (proj1 (nodup_app (c :: A) B)); exact Hn).
  assert (D : forall x, In x (c :: A) -> ~ In x B) by (eapply (proj1 (nodup_app (c :: A) B)); exact Hn).
  destruct (relabel_from h c _ ds ns A (Z.to_nat index) index Hc T1 Hn1 H2 eq_refl ltac:(lia)) as (h1 & E & Hc1 & T1' & L & K). rewrite E. cbn [bind].
  assert (Hp1 : pieces h1 c (Cell l v u ds) ds (relabel ns 0 index) A un d k B).
  { split; [exact Hc1|]. split; [exact T1'|]. split; [|exact Hn]. eapply tree_frame; [exact T2|]. intros x Hx. apply K. intro H. apply (D x); [right; exact H|exact Hx]. }
  assert (G1 : grows h h1 (c :: A ++ B) (c :: A ++ B)).
  { split; [lia|]. split; [|auto]. intros x _ Hx. apply K. intro H. apply Hx. right. apply in_or_app. auto. }
  destruct (pieces_new _ _ _ _ _ _ _ _ _ _ (set_label (itoa index)) (fun _ => itoa index) (fun v => v) (fun u => u) Hp1 ltac:(reflexivity)) as (h2 & -> & Hp2 & G2). cbn [bind n_label n_value n_down] in *.
  destruct (pieces_new _ _ _ _ _ _ _ _ _ _ (set_up (Some c)) (fun l => l) (fun v => v) (fun _ => Some c) Hp2 ltac:(reflexivity)) as (h3 & -> & Hp3 & G3). cbn [bind n_label n_value n_down] in *.
  exists h3. split; [reflexivity|]. split; [exact Hp3|]. repeat (eapply grows_trans; [eassumption|]). apply grows_refl.
Qed.

Lemma pieces_apart h c l v u ds ns A un d k B : pieces h c (Cell l v u ds) ds ns A un d k B -> tree h u c (Node l v ns) (c :: A) /\ NoDup (c :: A).
Proof. intros (Hc & T1 & _ & Hn). split; [econstructor; eassumption|]. eapply (proj1 (nodup_app (c :: A) B)). exact Hn. Qed.

Lemma start_sim h a n path l v ns h1 nn B : stands h a n -> n_walk n path = Ok (Node l v ns) -> tree h1 None (length h) (Node [] [] nn) B -> NoDup B -> grows h h1 [] B ->
  exists c u ds A, q_walk h a path = Ok c /\ (path = [] -> c = a) /\ pieces h1 c (Cell l v u ds) ds ns A None (length h) (Node [] [] nn) B /\ stands h1 a n /\
    forall h' ns' Am' f, grows h1 h' (c :: A ++ B) Am' -> NoDup Am' -> tree h' u c (Node l v ns') Am' -> f (Node l v ns) = Node l v ns' ->
      stands h' a (upd_node path f n) /\ q_walk h' a path = Ok c.
Proof.
  intros (up & A & Ht & Hn) Hw Hnew HnB Hg. destruct (upd_sim path h up a n A _ Ht Hn Hw) as (c & u & Am & E & Tm & HnA & Hca & _ & Hupd).
  destruct (apart h h1 u c l v ns Am nn B Tm HnA Hnew HnB Hg) as (ds & A0 & -> & Hp & Hg1). exists c, u, ds, A0. split; [exact E|]. split; [exact Hca|]. split; [exact Hp|]. split.
  { exists up, A. split; [|exact Hn]. eapply tree_frame; [exact Ht|]. eapply grows_agree; [exact Hg|]. eapply tree_bound, Ht. }
  intros h' ns' Am' f Hg2 Hn' T' Hf. destruct (Hupd h' _ Am' f (grows_trans _ _ _ _ _ _ Hg1 Hg2) Hn' Hf T') as [(A' & T2 & Hn2 & _) Hq].
  split; [exists up, A'; split; assumption|]. rewrite (Hq path [] ltac:(rewrite app_nil_r; reflexivity)); [exact E|]. right. eapply tree_same_label; [exact Tm|exact T'|reflexivity].
Qed.

Lemma grows_less h h' A B A' : grows h h' A B -> (forall x, In x A' -> In x B) -> grows h h' A A'.
Proof. intros (L & K & I) H. split; [exact L|]. split; [exact K|]. intros x Hx. apply I, H, Hx. Qed.

Lemma n_insert_ok ns index ns' : n_insert ns index = Ok ns' -> (0 <= index < Z.of_nat (length ns))%Z /\ ns' = relabel ns 0 index.
Proof.
  unfold n_insert. destruct ns as [|n ns0]; [discriminate|]. destruct (Z.ltb_spec (Z.of_nat (length (n :: ns0)) - 1) index); [discriminate|].
  destruct (Z.ltb_spec index 0); [discriminate|]. intro E. injection E as <-. split; [lia|reflexivity].
Qed.
Lemma relabel_snoc ns k : forall i index, (index <= Z.of_nat (i + length ns))%Z -> relabel (ns ++ [k]) i index = relabel ns i index ++ [with_label (itoa (Z.of_nat (i + length ns) + 1)) k].
Proof.
  induction ns as [|n ns IH]; intros i index H; cbn [app relabel length] in *.
  - rewrite Nat.add_0_r in *. rewrite (proj2 (Z.leb_le _ _) H). reflexivity.
  - f_equal. rewrite IH by lia. do 3 f_equal. f_equal. f_equal. lia.
Qed.

Lemma q_insert_eq h d c cc index : nth_error h c = Some cc -> c_down cc <> [] -> q_insert h d c index =
  if (Z.of_nat (length (c_down cc)) - 1 <? index)%Z then Err EIndexOutOfRange
  else if (index <? 0)%Z then Panic
  else do h <- q_relabel h (skipn (Z.to_nat index) (c_down cc)) (Z.to_nat index);
       do h <- write h (Some d) (set_label (itoa index)); write h (Some d) (set_up (Some c)).
Proof. intros Hc Hne. unfold q_insert. rewrite (deref_ok _ _ _ Hc). cbn [bind]. destruct (c_down cc); [congruence|reflexivity]. Qed.
Lemma n_insert_eq ns index : ns <> [] -> n_insert ns index =
  if (Z.of_nat (length ns) - 1 <? index)%Z then Err EIndexOutOfRange else if (index <? 0)%Z then Panic else Ok (relabel ns 0 index).
Proof. destruct ns; [congruence|reflexivity]. Qed.

(** insert with the node that is the last one below *)
Lemma insert_last h c l v u ds ns A d k B index : pieces h c (Cell l v u (ds ++ [d])) ds ns A (Some c) d k B ->
  match n_insert (ns ++ [k]) index with
  | Ok ns' => exists h' A1 A2, q_insert h d c index = Ok h' /\
      pieces h' c (Cell l v u (ds ++ [d])) ds (removelast ns') A1 (Some c) d (Node (itoa index) (n_value k) (n_down k)) A2 /\ A1 ++ A2 = A ++ B /\
      grows h h' (c :: A ++ B) (c :: A ++ B)
  | Err e => q_insert h d c index = Err e
  | Panic => q_insert h d c index = Panic
  end.
Proof.
  intro Hp. pose proof Hp as (Hc & T1 & T2 & Hn). pose proof (trees_length _ _ _ _ _ T1) as Hlen.
  assert (T : trees h c (ds ++ [d]) (ns ++ [k]) (A ++ B)) by (apply trees_snoc; assumption).
  destruct (n_insert (ns ++ [k]) index) as [ns'|e|] eqn:Ei.
  - apply n_insert_ok in Ei. destruct Ei as [Hi ->]. rewrite app_length in Hi. cbn [length] in Hi.
    destruct (relabel_from h c _ _ _ _ (Z.to_nat index) index Hc T Hn ltac:(lia) eq_refl ltac:(rewrite app_length; cbn [length]; lia)) as (h1 & E & Hc1 & T' & L & K).
    assert (E' : q_insert h d c index = (do h <- write h1 (Some d) (set_label (itoa index)); write h (Some d) (set_up (Some c)))).
    { rewrite (q_insert_eq _ _ _ _ _ Hc) by (destruct ds; discriminate). cbn [c_down]. rewrite E, app_length. cbn [length bind].
      destruct (Z.ltb_spec (Z.of_nat (length ds + 1) - 1) index); [lia|]. destruct (Z.ltb_spec index 0); [lia|]. reflexivity. }
    destruct (trees_cut (length ds) _ _ _ _ _ T') as (A1 & A2 & EA & U1 & U2). rewrite relabel_snoc in U1, U2 by (cbn; lia).
    assert (Hl : length (relabel ns 0 index) = length ds).
    { rewrite Hlen. clear. generalize 0%nat. induction ns; intro i; [reflexivity|]. cbn [relabel length]. rewrite IHns. reflexivity. }
    assert (Hcut : forall X (r : list X) x, firstn (length r) (r ++ [x]) = r /\ skipn (length r) (r ++ [x]) = [x]).
    { intros X r x. rewrite firstn_app, skipn_app, Nat.sub_diag, firstn_all, skipn_all. split; [apply app_nil_r|reflexivity]. }
    rewrite (proj1 (Hcut _ ds d)) in U1. rewrite (proj2 (Hcut _ ds d)) in U2. rewrite <- Hl in U1, U2. rewrite (proj1 (Hcut _ _ _)) in U1. rewrite (proj2 (Hcut _ _ _)) in U2.
    inversion U2 as [|? ? ? ? ? A3 B3 U3 U4]; subst. inversion U4; subst. rewrite app_nil_r in *.
    assert (Hp1 : pieces h1 c (Cell l v u (ds ++ [d])) ds (relabel ns 0 index) A1 (Some c) d (with_label (itoa (Z.of_nat (0 + length ns) + 1)) k) A3).
    { split; [exact Hc1|]. split; [exact U1|]. split; [exact U3|]. rewrite <- EA. exact Hn. }
    assert (G1 : grows h h1 (c :: A ++ B) (c :: A ++ B)).
    { split; [lia|]. split; [|auto]. intros x _ Hx. apply K. intro H. apply Hx. right. exact H. }
    destruct (pieces_new _ _ _ _ _ _ _ _ _ _ (set_label (itoa index)) (fun _ => itoa index) (fun v => v) (fun u => u) Hp1 ltac:(reflexivity)) as (h2 & Ew2 & Hp2 & G2). cbn [bind n_label n_value n_down] in *.
    destruct (pieces_new _ _ _ _ _ _ _ _ _ _ (set_up (Some c)) (fun l => l) (fun v => v) (fun _ => Some c) Hp2 ltac:(reflexivity)) as (h3 & Ew3 & Hp3 & G3). cbn [bind n_label n_value n_down] in *.
    exists h3, A1, A3. rewrite E', Ew2. cbn [bind]. split; [exact Ew3|]. split; [|split; [symmetry; exact EA|]].
    + rewrite relabel_snoc by (cbn; lia). rewrite removelast_last. destruct k; exact Hp3.
    + rewrite <- EA in G2, G3. repeat (eapply grows_trans; [eassumption|]). apply grows_refl.
  - rewrite n_insert_eq in Ei by (destruct ns; discriminate). rewrite (q_insert_eq _ _ _ _ _ Hc) by (destruct ds; discriminate). cbn [c_down].
    rewrite !app_length in *. cbn [length] in *. rewrite Hlen. destruct (_ <? index)%Z; [congruence|]. destruct (index <? 0)%Z; discriminate.
  - rewrite n_insert_eq in Ei by (destruct ns; discriminate). rewrite (q_insert_eq _ _ _ _ _ Hc) by (destruct ds; discriminate). cbn [c_down].
    rewrite !app_length in *. cbn [length] in *. rewrite Hlen. destruct (_ <? index)%Z; [congruence|]. destruct (index <? 0)%Z; congruence.
Qed.

Theorem Insert_sim q p newIndex newVal path : sim q p -> same_result (Q_Insert q newIndex newVal path) (P_Insert p newIndex newVal path).
Proof.
  intro Hsim. unfold Q_Insert, P_Insert. rewrite (get_sim q p path Hsim).
  destruct newVal as [|k0 key0]; [split; [reflexivity|exact Hsim]|]. set (newVal := k0 :: key0) in *. clearbody newVal.
  destruct (P_Get p path) as [json|e|]; cbn [q_bind p_bind]; [|split; [reflexivity|exact Hsim]|exact I].
  destruct q as [h a j], p as [core j']. destruct Hsim as [Ej Hs]. cbn [q_heap q_root q_json p_core p_json] in *. subst j'.
  set (ne := (2 <=? length newVal)%nat && opens newVal) in *. clearbody ne. cbv zeta.
  destruct (list_eq_dec (list_eq_dec N.eq_dec) path []) as [->|Hne].
  - destruct (2 <=? length json)%nat; [|same_state]. destruct ((hd 0 json =? 91) && (last json 0 =? 93)); [|same_state]. destruct core as [l v ns]. cbn [n_down].
    destruct ne.
    + let go nn h1 B Tn HnB Hg := (destruct (start_sim h a (Node l v ns) [] l v ns h1 nn B Hs eq_refl Tn HnB Hg) as (c & u & ds & A & _ & Hca & Hp & Hs1 & Hfin)) in with_new h newVal true go.
      specialize (Hca eq_refl). subst c.
      pose proof (insert_sim _ _ _ _ _ _ _ _ _ _ _ _ newIndex Hp) as Hi. destruct (n_insert ns newIndex) as [ns1|e|]; cbn [p_bind].
      2:{ rewrite Hi. split; [reflexivity|split; [reflexivity|exact Hs1]]. } 2:{ rewrite Hi. exact I. }
      destruct Hi as (h2 & -> & Hp2 & G2). cbn [q_bind with_heap q_heap q_root q_json].
      destruct (pieces_apart _ _ _ _ _ _ _ _ _ _ _ _ Hp2) as [T2 N2].
      destruct (Hfin h2 ns1 (a :: A) (with_down ns1)) as [Hs2 _]; [|exact N2|exact T2|reflexivity|].
      { eapply grows_less; [exact G2|]. intros x [<-|Hx]; [left; reflexivity|right; apply in_or_app; auto]. }
      apply take_or_fail_sim; [split; [reflexivity|exact Hs2]|]. intro out. cbn [q_heap q_root p_core with_down n_down with_heap q_json].
      pose proof (insert_sim _ _ _ _ _ _ _ _ _ _ _ _ newIndex Hp2) as Hi. destruct (n_insert ns1 newIndex) as [ns2|e|]; cbn [p_bind].
      2:{ rewrite Hi. split; [reflexivity|split; [reflexivity|exact Hs2]]. } 2:{ rewrite Hi. exact I. }
      destruct Hi as (h3 & -> & Hp3 & G3). cbn [q_bind].
      unfold push_down. destruct (pieces_above _ _ _ _ _ _ _ _ _ _ (fun c => set_down (c_down c ++ [length h]) c) Hp3) as (h4 & -> & Hp4 & G4).
      cbn [q_pure set_down c_down c_label c_value c_up n_value n_down] in *.
      destruct (pieces_new _ _ _ _ _ _ _ _ _ _ (set_up (Some a)) (fun l => l) (fun v => v) (fun _ => Some a) Hp4 ltac:(reflexivity)) as (h5 & -> & Hp5 & G5). cbn [q_pure n_label n_value n_down with_heap q_root q_json] in *.
      split; [reflexivity|]. split; [reflexivity|]. cbn [q_heap q_root p_core append_node with_down n_down p_json].
      apply (Hfin h5 (ns2 ++ [Node (itoa newIndex) [] nn]) (a :: A ++ B) (with_down (ns2 ++ [Node (itoa newIndex) [] nn]))).
      * repeat (eapply grows_trans; [eassumption|]). apply grows_refl.
      * apply Hp5.
      * exact (pieces_tree _ _ _ _ _ _ _ _ _ _ _ Hp5).
      * reflexivity.
    + let go nn h1 B Tn HnB Hg := (destruct (start_sim h a (Node l v ns) [] l v ns h1 nn B Hs eq_refl Tn HnB Hg) as (c & u & ds & A & _ & Hca & Hp & Hs1 & Hfin)) in with_new h newVal false go.
      specialize (Hca eq_refl). subst c.
      pose proof (insert_sim _ _ _ _ _ _ _ _ _ _ _ _ newIndex Hp) as Hi. destruct (n_insert ns newIndex) as [ns1|e|]; cbn [p_bind].
      2:{ rewrite Hi. split; [reflexivity|split; [reflexivity|exact Hs1]]. } 2:{ rewrite Hi. exact I. }
      destruct Hi as (h2 & -> & Hp2 & G2). cbn [q_bind with_heap q_heap q_root q_json n_value n_down] in *.
      destruct (pieces_new _ _ _ _ _ _ _ _ _ _ (set_value newVal) (fun l => l) (fun _ => newVal) (fun u => u) Hp2 ltac:(reflexivity)) as (h3 & -> & Hp3 & G3). cbn [q_pure n_label n_value n_down] in *.
      unfold push_down. destruct (pieces_above _ _ _ _ _ _ _ _ _ _ (fun c => set_down (c_down c ++ [length h]) c) Hp3) as (h4 & -> & Hp4 & G4).
      cbn [q_pure set_down c_down c_label c_value c_up n_value n_down] in *.
      assert (G14 : grows h1 h4 (a :: A ++ B) (a :: A ++ B)) by (repeat (eapply grows_trans; [eassumption|]); apply grows_refl).
      destruct (Hfin h4 (ns1 ++ [Node (itoa newIndex) newVal []]) (a :: A ++ B) (with_down (ns1 ++ [Node (itoa newIndex) newVal []]))) as [Hs4 _];
        [exact G14|apply Hp4|exact (pieces_tree _ _ _ _ _ _ _ _ _ _ _ Hp4)|reflexivity|].
      apply take_or_fail_sim; [split; [reflexivity|exact Hs4]|]. intro out. cbn [q_heap q_root p_core append_node with_down n_down with_heap q_json].
      pose proof (insert_last _ _ _ _ _ _ _ _ _ _ _ newIndex Hp4) as Hi. destruct (n_insert (ns1 ++ [Node (itoa newIndex) newVal []]) newIndex) as [ns2|e|]; cbn [p_bind].
      2:{ rewrite Hi. split; [reflexivity|split; [reflexivity|exact Hs4]]. } 2:{ rewrite Hi. exact I. }
      destruct Hi as (h5 & A1 & A2 & -> & Hp5 & EA & G5). cbn [q_bind n_value n_down] in *.
      destruct (pieces_new _ _ _ _ _ _ _ _ _ _ (set_up (Some a)) (fun l => l) (fun v => v) (fun _ => Some a) Hp5 ltac:(reflexivity)) as (h6 & -> & Hp6 & G6). cbn [q_pure n_label n_value n_down with_heap q_root q_json] in *.
      split; [reflexivity|]. split; [reflexivity|]. cbn [q_heap q_root p_core p_json].
      apply (Hfin h6 (removelast ns2 ++ [Node (itoa newIndex) newVal []]) (a :: A1 ++ A2) (with_down (removelast ns2 ++ [Node (itoa newIndex) newVal []]))).
      * eapply grows_trans; [exact G14|]. eapply grows_trans; [exact G5|]. rewrite <- EA. exact G6.
      * apply Hp6.
      * exact (pieces_tree _ _ _ _ _ _ _ _ _ _ _ Hp6).
      * reflexivity.
  - rewrite !(ne_match path _ _ Hne). destruct (n_walk core path) as [m|e|] eqn:Ew; [| |destruct (walk_no_panic _ _ Ew)].
    2:{ pose proof Hs as (up & A & Ht & Hn). rewrite (walk_err _ _ _ _ _ _ _ Ht Ew). same_state. }
    pose proof Hs as (up & A & Ht & Hn). destruct (plug path h up a core A m Ht Ew) as (c & u & Am & C & E & Tm & _). rewrite E. cbn [q_bind p_bind]. clear up A Ht Hn u Am C Tm.
    destruct (2 <=? length json)%nat; [|same_state]. destruct ((hd 0 json =? 91) && (last json 0 =? 93)); [|same_state]. destruct m as [l v ns]. cbn [n_down].
    let go nn h1 B Tn HnB Hg := (
      destruct (start_sim h a core path l v ns h1 nn B Hs Ew Tn HnB Hg) as (c1 & u & ds & A & E1 & _ & Hp & Hs1 & Hfin); rewrite E in E1; injection E1 as <-;
      pose proof (insert_sim _ _ _ _ _ _ _ _ _ _ _ _ newIndex Hp) as Hi; destruct (n_insert ns newIndex) as [ns1|e|]; cbn [p_bind];
      [|rewrite Hi; split; [reflexivity|split; [reflexivity|exact Hs1]]|rewrite Hi; exact I];
      destruct Hi as (h2 & -> & Hp2 & G2); cbn [q_bind with_heap q_heap q_root q_json n_value n_down] in *;
      destruct (pieces_new _ _ _ _ _ _ _ _ _ _ (set_value newVal) (fun l => l) (fun _ => newVal) (fun u => u) Hp2 ltac:(reflexivity)) as (h3 & -> & Hp3 & G3); cbn [q_pure n_label n_value n_down] in *;
      unfold push_down; destruct (pieces_above _ _ _ _ _ _ _ _ _ _ (fun c => set_down (c_down c ++ [length h]) c) Hp3) as (h4 & -> & Hp4 & G4);
      cbn [q_pure set_down c_down c_label c_value c_up n_value n_down] in *;
      destruct (pieces_new _ _ _ _ _ _ _ _ _ _ (set_up (Some c)) (fun l => l) (fun v => v) (fun _ => Some c) Hp4 ltac:(reflexivity)) as (h5 & -> & Hp5 & G5); cbn [q_pure n_label n_value n_down with_heap q_root q_json] in *;
      destruct (Hfin h5 (ns1 ++ [Node (itoa newIndex) newVal nn]) (c :: A ++ B) (fun n => append_node (Node (itoa newIndex) newVal nn) (with_down ns1 n))) as [Hs5 Hw5];
      [repeat (eapply grows_trans; [eassumption|]); apply grows_refl|apply Hp5|exact (pieces_tree _ _ _ _ _ _ _ _ _ _ _ Hp5)|reflexivity|];
      apply take_or_fail_sim; [split; [reflexivity|exact Hs5]|]; intro out; rewrite ancestors_prefixes;
      eapply refresh_at; [exact Hs5|lia| |exact Hw5];
      destruct Hp5 as (_ & _ & T5 & _); destruct (tree_label _ _ _ _ _ T5) as (cn & Hcn & _ & _ & Hup); exists cn; split; assumption) in
    destruct ne; [with_new h newVal true go|with_new h newVal false go].
Qed.

(** ** Histories *)
Theorem do_sim c q p : sim q p -> same_result (q_do c q) (p_do c p).
Proof. intro H. destruct c; [apply Set_sim|apply SetKey_sim|apply Delete_sim|apply AddKeyValue_sim|apply Add_sim|apply Insert_sim]; exact H. Qed.

Theorem calls_sim cs : forall q p, sim q p ->
  match q_calls cs q, p_calls cs p with
  | Some (q', es), Some (p', es') => es = es' /\ sim q' p'
  | None, None => True
  | _, _ => False
  end.
Proof.
  induction cs as [|c cs IH]; intros q p H; [split; [reflexivity|exact H]|]. cbn [q_calls p_calls]. pose proof (do_sim c q p H) as Hd.
  destruct (q_do c q) as [q1 e|], (p_do c p) as [p1 e'|]; try contradiction; [|exact I]. destruct Hd as [-> H1]. specialize (IH q1 p1 H1).
  destruct (q_calls cs q1) as [[q2 es]|], (p_calls cs p1) as [[p2 es']|]; try contradiction; [|exact I]. destruct IH as [-> H2]. split; [reflexivity|exact H2].
Qed.

(** The nodes of a parser form a tree after any history. *)
Definition q_reached (json : bytes) (cs : list pcall) (q : qparser) (es : list (option err)) : Prop :=
  exists q0, Q_Parse json = Ok q0 /\ q_calls cs q0 = Some (q, es).

Theorem reached_tree json cs q es : q_reached json cs q es -> exists n, stands (q_heap q) (q_root q) n.
Proof.
  intros (q0 & E & Ec). pose proof (parse_sim json) as Hp. rewrite E in Hp. destruct (Parse json) as [p|e|]; try contradiction.
  pose proof (calls_sim cs q0 p Hp) as H. rewrite Ec in H. destruct (p_calls cs p) as [[p' es']|]; [|contradiction]. destruct H as [_ [_ H]]. eexists. exact H.
Qed.

Theorem parser_calls_sim json cs :
  match Q_Parse json, Parse json with
  | Ok q, Ok p =>
      match q_calls cs q, p_calls cs p with
      | Some (q', es), Some (p', es') => es = es' /\ q_json q' = p_json p' /\ (forall path, Q_Get q' path = P_Get p' path) /\ stands (q_heap q') (q_root q') (p_core p')
      | None, None => True
      | _, _ => False
      end
  | Err e, Err e' => e = e'
  | Panic, Panic => True
  | _, _ => False
  end.
Proof.
  pose proof (parse_sim json) as Hp. destruct (Q_Parse json) as [q|e|], (Parse json) as [p|e'|]; try contradiction; [|exact Hp|exact I].
  pose proof (calls_sim cs q p Hp) as H. destruct (q_calls cs q) as [[q' es]|], (p_calls cs p) as [[p' es']|]; try contradiction; [|exact I].
  destruct H as [-> H]. split; [reflexivity|]. split; [apply H|]. split; [intro path; apply get_sim; exact H|apply H].
Qed.
