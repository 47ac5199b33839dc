(** The memory functions of Mem.v do what the functions of Api.v and Format.v say, and nothing else to memory. *)
From Coq Require Import String.
From Verif Require Import GoStd Core Errors Api Format Skip NoPanic GoMem Mem SpecMem.

Local Open Scope nat_scope.

(** ** Memory *)
Lemma set_block_same h a t : a < length h -> block (set_block h a t) a = t.
Proof. revert a. induction h as [|x h IH]; intros [|a] H; cbn in *; try lia; [reflexivity|]. apply IH. lia. Qed.
Lemma set_block_other h a t c : a <> c -> block (set_block h a t) c = block h c.
Proof. revert a c. induction h as [|x h IH]; intros [|a] [|c] H; cbn; try reflexivity; try lia. apply IH. lia. Qed.
Lemma set_block_none h a t : length h <= a -> set_block h a t = h.
Proof. revert a. induction h as [|x h IH]; intros [|a] H; cbn in *; try reflexivity; try lia. f_equal. apply IH. lia. Qed.
Lemma set_block_app h l a t : length h <= a -> set_block (h ++ l) a t = h ++ set_block l (a - length h) t.
Proof.
  revert a. induction h as [|x h IH]; intros a H; cbn [length app] in *; [rewrite Nat.sub_0_r; reflexivity|].
  destruct a as [|a]; [lia|]. cbn [set_block Nat.sub]. rewrite IH by lia. reflexivity.
Qed.
Lemma set_block_len h a t : length (set_block h a t) = length h.
Proof. revert a. induction h as [|x h IH]; intros [|a]; cbn; auto. Qed.

Lemma overwrite_len t xs p : p + length xs <= length t -> length (overwrite t xs p) = length t.
Proof. intro H. unfold overwrite. rewrite !app_length, firstn_length, skipn_length. lia. Qed.

Lemma extends_refl h : extends h h.
Proof. exists []. symmetry. apply app_nil_r. Qed.
Lemma extends_trans h1 h2 h3 : extends h1 h2 -> extends h2 h3 -> extends h1 h3.
Proof. intros [l ->] [l2 ->]. exists (l ++ l2). symmetry. apply app_assoc. Qed.
Lemma extends_len h h' : extends h h' -> length h <= length h'.
Proof. intros [l ->]. rewrite app_length. lia. Qed.
Lemma extends_block h h' a : extends h h' -> a < length h -> block h' a = block h a.
Proof. intros [l ->] H. unfold block. apply app_nth1. exact H. Qed.

Lemma nowhere h s : valid h s -> length h <= b_arr s -> b_off s = 0 /\ b_len s = 0 /\ b_cap s = 0.
Proof. intros [V1 V2] H. unfold block in V2. rewrite nth_overflow in V2 by exact H. cbn in V2. lia. Qed.

Lemma extends_valid h h' s : extends h h' -> valid h s -> valid h' s.
Proof.
  intros E V. destruct (Nat.lt_ge_cases (b_arr s) (length h)) as [H|H].
  - unfold valid. rewrite (extends_block h h') by assumption. exact V.
  - pose proof (nowhere h s V H). unfold valid. lia.
Qed.
Lemma extends_content h h' s : extends h h' -> valid h s -> content h' s = content h s.
Proof.
  intros E V. destruct (Nat.lt_ge_cases (b_arr s) (length h)) as [H|H]; unfold content.
  - rewrite (extends_block h h') by assumption. reflexivity.
  - destruct (nowhere h s V H) as (_ & -> & _). reflexivity.
Qed.
Lemma content_len h s : valid h s -> length (content h s) = b_len s.
Proof. intros [V1 V2]. unfold content. rewrite firstn_length, skipn_length. lia. Qed.

Lemma poke_extends h0 h s p xs : extends h0 h -> fresh h0 s -> extends h0 (poke s p xs h).
Proof.
  intros [l ->] F. unfold poke. rewrite set_block_app by exact F. eexists. reflexivity.
Qed.
Lemma poke_block h s p xs : valid h s -> p + length xs <= b_cap s ->
  block (poke s p xs h) (b_arr s) = overwrite (block h (b_arr s)) xs (b_off s + p).
Proof.
  intros V H. unfold poke. destruct (Nat.lt_ge_cases (b_arr s) (length h)) as [L|L].
  - apply set_block_same. exact L.
  - rewrite set_block_none by exact L. destruct (nowhere h s V L) as (H1 & _ & H3). unfold block at 1 2. rewrite nth_overflow by exact L.
    destruct xs; [|cbn in H; lia]. cbn in H. replace p with 0 by lia. rewrite H1. reflexivity.
Qed.
Lemma poke_valid h s p xs t : valid h s -> p + length xs <= b_cap s -> valid h t -> valid (poke s p xs h) t.
Proof.
  intros V H T. unfold valid. destruct (Nat.eq_dec (b_arr s) (b_arr t)) as [E|E].
  - rewrite <- E, poke_block by assumption. destruct V as [V1 V2]. rewrite overwrite_len by lia. rewrite E. exact T.
  - unfold poke. rewrite set_block_other by exact E. exact T.
Qed.
Lemma poke_other h s p xs t : b_arr s <> b_arr t -> content (poke s p xs h) t = content h t.
Proof. intro E. unfold content, poke. rewrite set_block_other by exact E. reflexivity. Qed.

Lemma overwrite_skip t xs o p : o <= length t -> skipn o (overwrite t xs (o + p)) = overwrite (skipn o t) xs p.
Proof.
  intro H. unfold overwrite. rewrite <- (firstn_skipn o t) at 1 2.
  assert (L : length (firstn o t) = o) by (rewrite firstn_length; lia).
  rewrite firstn_app, L. replace (o + p - o) with p by lia. rewrite firstn_all2 by lia.
  rewrite <- app_assoc. rewrite skipn_app, L, Nat.sub_diag. cbn [skipn]. rewrite skipn_all2 by lia. cbn [app].
  rewrite skipn_app, L. rewrite (skipn_all2 (firstn o t)) by lia. cbn [app]. replace (o + p + length xs - o) with (p + length xs) by lia.
  reflexivity.
Qed.
Lemma overwrite_end t xs n : n <= length t -> firstn (n + length xs) (overwrite t xs n) = firstn n t ++ xs.
Proof.
  intro H. unfold overwrite. rewrite firstn_app, firstn_length, Nat.min_l by exact H.
  rewrite firstn_all2 by (rewrite firstn_length; lia). f_equal.
  replace (n + length xs - n) with (length xs + 0) by lia. rewrite firstn_app_2, firstn_O, app_nil_r. reflexivity.
Qed.
Lemma overwrite_within t xs p n : p + length xs <= n -> n <= length t -> firstn n (overwrite t xs p) = overwrite (firstn n t) xs p.
Proof.
  intros H L. unfold overwrite. rewrite firstn_app, firstn_length, Nat.min_l by lia.
  rewrite (firstn_all2 (firstn p t)) by (rewrite firstn_length; lia). rewrite firstn_firstn, Nat.min_l by lia. f_equal.
  rewrite firstn_app. rewrite firstn_all2 by lia. f_equal.
  rewrite skipn_firstn_comm. f_equal. lia.
Qed.

(** Writing within a slice, and behind it. *)
Lemma poke_content h s p xs : valid h s -> p + length xs <= b_len s ->
  content (poke s p xs h) s = overwrite (content h s) xs p.
Proof.
  intros V H. pose proof V as [V1 V2]. unfold content. rewrite poke_block by (try exact V; lia).
  rewrite overwrite_skip by lia. apply overwrite_within; [exact H|]. rewrite skipn_length. lia.
Qed.
Lemma poke_end h s xs : valid h s -> b_len s + length xs <= b_cap s ->
  content (poke s (b_len s) xs h) (Bsl (b_arr s) (b_off s) (b_len s + length xs) (b_cap s)) = content h s ++ xs.
Proof.
  intros V H. pose proof V as [V1 V2]. unfold content at 1. cbn [b_arr b_off b_len]. rewrite poke_block by (try exact V; lia).
  rewrite overwrite_skip by lia. rewrite overwrite_end by (rewrite skipn_length; lia). reflexivity.
Qed.

(** ** Allocation *)
Lemma new_block_spec h t n : exists s h', new_block t n h = Some (s, h') /\ extends h h' /\ valid h' s /\ fresh h s /\
  content h' s = t /\ b_len s = length t /\ b_cap s = length t + n.
Proof.
  eexists _, _. split; [reflexivity|]. split; [eexists; reflexivity|]. unfold valid, fresh, content, block. cbn [b_arr b_off b_len b_cap].
  rewrite nth_middle, app_length, repeat_length. split; [lia|]. split; [lia|]. split; [|lia].
  cbn [skipn]. replace (length t) with (length t + 0) by lia. rewrite firstn_app_2, firstn_O, app_nil_r. reflexivity.
Qed.

(** [out] is being built by a call that started in [h0]: it shows [x]. *)
Definition building (h0 h : mem) (out : bsl) (x : bytes) : Prop :=
  extends h0 h /\ valid h out /\ fresh h0 out /\ content h out = x.

Lemma building_later h0 h h' out x : building h0 h out x -> extends h h' -> building h0 h' out x.
Proof.
  intros (B1 & B2 & B3 & B4) E. split; [exact (extends_trans _ _ _ B1 E)|]. split; [exact (extends_valid _ _ _ E B2)|].
  split; [exact B3|]. rewrite (extends_content h h') by assumption. exact B4.
Qed.
Lemma building_base h0 h1 h out x : extends h0 h1 -> building h1 h out x -> building h0 h out x.
Proof.
  intros E (B1 & B2 & B3 & B4). split; [exact (extends_trans _ _ _ E B1)|]. split; [exact B2|]. split; [|exact B4].
  apply extends_len in E. unfold fresh in *. lia.
Qed.

Lemma make_cap_spec h n : make_cap (Z.of_nat n) h = new_block [] n h.
Proof. unfold make_cap. destruct (Z.of_nat n <? 0)%Z eqn:E; [apply Z.ltb_lt in E; lia|]. rewrite Nat2Z.id. reflexivity. Qed.
Lemma make_len_spec h n : make_len (Z.of_nat n) h = new_block (repeat 0%N n) 0 h.
Proof. unfold make_len. destruct (Z.of_nat n <? 0)%Z eqn:E; [apply Z.ltb_lt in E; lia|]. rewrite Nat2Z.id. reflexivity. Qed.
Lemma new_building h t n : exists s h', new_block t n h = Some (s, h') /\ building h h' s t.
Proof.
  destruct (new_block_spec h t n) as (s & h' & E & H1 & H2 & H3 & H4 & _). exists s, h'. split; [exact E|].
  split; [exact H1|]. split; [exact H2|]. split; assumption.
Qed.

Section Grow.
  Variable grow : nat -> nat.

  Lemma append_spec h0 h out x xs : building h0 h out x ->
    exists out' h', append_bytes grow out xs h = Some (out', h') /\ building h0 h' out' (x ++ xs).
  Proof.
    intros (B1 & B2 & B3 & B4). unfold append_bytes. destruct (b_len out + length xs <=? b_cap out) eqn:E.
    - apply Nat.leb_le in E. eexists _, _. split; [reflexivity|]. split; [apply poke_extends; assumption|].
      split; [|split; [exact B3|rewrite poke_end by assumption; rewrite B4; reflexivity]].
      apply poke_valid; [exact B2|lia|]. unfold valid. cbn [b_len b_cap b_off b_arr]. destruct B2. lia.
    - rewrite B4. destruct (new_building h (x ++ xs) (grow (b_len out + length xs))) as (s & h' & -> & H). exists s, h'.
      split; [reflexivity|]. exact (building_base _ _ _ _ _ B1 H).
  Qed.

  (** Appending what another slice shows. *)
  Lemma append_slice_spec h0 h out x s : building h0 h out x ->
    exists out' h', append_slice grow out s h = Some (out', h') /\ building h0 h' out' (x ++ content h s).
  Proof. intro B. unfold append_slice, mbind, look. apply append_spec. exact B. Qed.
End Grow.

(** ** Sub-slices *)
Lemma sub_spec h s i j : valid h s -> i <= j <= b_len s ->
  exists v, sub s i j h = Some (v, h) /\ window s v i j /\ valid h v /\ content h v = firstn (j - i) (skipn i (content h s)).
Proof.
  intros [V1 V2] H. unfold sub. replace ((i <=? j) && (j <=? b_cap s)) with true
    by (symmetry; apply andb_true_iff; split; apply Nat.leb_le; lia).
  eexists. split; [reflexivity|]. unfold window, valid, content. cbn [b_arr b_off b_len b_cap].
  split; [lia|]. split; [lia|].
  rewrite skipn_firstn_comm, firstn_firstn, skipn_skipn', Nat.min_l by lia. reflexivity.
Qed.

(** ** [replace] *)
Lemma replaceM_spec grow h json new s e : valid h json -> valid h new -> s <= b_len json -> e <= b_len json ->
  exists out h', replaceM grow json new s e h = Some (out, h') /\
    building h h' out (firstn s (content h json) ++ content h new ++ skipn e (content h json)).
Proof.
  intros VJ VN Hs He. unfold replaceM.
  replace (Z.of_nat (b_len json) - Z.of_nat e + Z.of_nat s + Z.of_nat (b_len new))%Z with (Z.of_nat (b_len json - e + s + b_len new)) by lia.
  unfold mbind at 1. rewrite make_cap_spec. destruct (new_building h [] (b_len json - e + s + b_len new)) as (o1 & h1 & -> & B1).
  pose proof B1 as (E1 & _). pose proof (extends_valid _ _ _ E1 VJ) as VJ1.
  unfold mbind at 1. unfold sub_to. destruct (sub_spec h1 json 0 s VJ1 ltac:(lia)) as (l & -> & _ & Vl & Cl).
  unfold mbind at 1. destruct (append_slice_spec grow h h1 o1 _ l B1) as (o2 & h2 & -> & B2).
  pose proof B2 as (E2 & _).
  unfold mbind at 1. destruct (append_slice_spec grow h h2 o2 _ new B2) as (o3 & h3 & -> & B3).
  pose proof B3 as (E3 & _).
  unfold mbind at 1. unfold sub_from. destruct (sub_spec h3 json e (b_len json) (extends_valid _ _ _ E3 VJ) ltac:(lia)) as (r & -> & _ & Vr & Cr).
  destruct (append_slice_spec grow h h3 o3 _ r B3) as (o4 & h4 & -> & B4).
  exists o4, h4. split; [reflexivity|].
  rewrite Cl, Cr, (extends_content h h1), (extends_content h h2), (extends_content h h3) in B4 by assumption.
  rewrite Nat.sub_0_r in B4. cbn [skipn app] in B4. rewrite <- app_assoc in B4.
  rewrite (firstn_all2 (skipn e (content h json))) in B4 by (rewrite skipn_length, content_len by assumption; lia). exact B4.
Qed.

Lemma done_replaceM_spec grow h json new s e : valid h json -> valid h new -> s <= b_len json ->
  behaves h json (done_replaceM grow json new s e h) (done_replace (content h json) (content h new) s e).
Proof.
  intros VJ VN Hs. unfold done_replaceM, mbind at 1, done_replace, replace. rewrite content_len by exact VJ.
  rewrite (proj2 (Nat.leb_le _ _) Hs). cbn [andb]. destruct (e <=? b_len json) eqn:E.
  - apply Nat.leb_le in E. destruct (replaceM_spec grow h json new s e VJ VN Hs E) as (o & h' & -> & B1 & B2 & B3 & B4).
    cbn [ret behaves pbind]. rewrite B4. split; [exact B1|]. split; [exact B2|]. split; [exact B3|reflexivity].
  - apply Nat.leb_gt in E. cbn [pbind]. destruct (replaceM grow json new s e h) as [[o h']|] eqn:R; [|reflexivity]. exfalso.
    unfold replaceM, mbind in R.
    destruct (make_cap _ h) as [[o1 h1]|]; [|discriminate]. destruct (sub_to json s h1) as [[l h1']|]; [|discriminate].
    destruct (append_slice grow o1 l h1') as [[o2 h2]|]; [|discriminate].
    destruct (append_slice grow o2 new h2) as [[o3 h3]|]; [|discriminate].
    unfold sub_from, sub in R. rewrite (proj2 (Nat.leb_gt _ _) E) in R. discriminate R.
Qed.

(** Starting later, from memory that only grew. *)
Lemma behaves_base h h1 json r u : extends h h1 -> valid h json -> behaves h1 json r u -> behaves h json r u.
Proof.
  intros E V. destruct r as [[[o|o er] h']|]; cbn; [| |auto].
  - intros (H1 & H2 & H3 & H4). split; [exact (extends_trans _ _ _ E H1)|]. split; [exact H2|]. split; [|exact H4].
    apply extends_len in E. unfold fresh in *. lia.
  - intros (H1 & H2 & H3). split; [exact (extends_trans _ _ _ E H1)|]. split; [exact H2|].
    rewrite <- (extends_content h h1) by assumption. exact H3.
Qed.

Lemma fail_behaves h json e : behaves h json (ret (MFail json e) h) (Fail (Some (content h json)) e).
Proof. cbn. split; [apply extends_refl|]. split; reflexivity. Qed.
Lemma mubind_behaves {A} h json (r : res A) k k' :
  (forall a, r = Ok a -> behaves h json (k a h) (k' a)) -> behaves h json (mubind json r k h) (ubind (content h json) r k').
Proof. intro H. destruct r as [a|e|]; cbn [mubind ubind]; [apply H; reflexivity|apply fail_behaves|reflexivity]. Qed.
Lemma eval_behaves {A} h json (r : res A) (k : A -> M mupd) k' :
  (forall a, r = Ok a -> behaves h json (k a h) (k' a)) -> behaves h json (mbind (eval r) k h) (pbind r k').
Proof. intro H. destruct r as [a|e|]; cbn [pbind]; unfold mbind; cbn [eval ret panic]; [apply H; reflexivity|reflexivity|reflexivity]. Qed.
Lemma look_behaves h json s (k : bytes -> M mupd) u : behaves h json (k (content h s) h) u -> behaves h json (mbind (look s) k h) u.
Proof. intro H. exact H. Qed.
(** A fresh slice holding the new bytes. *)
Lemma replace_fresh grow h h1 json new x s e : building h h1 new x -> valid h json -> s <= b_len json ->
  behaves h json (done_replaceM grow json new s e h1) (done_replace (content h json) x s e).
Proof.
  intros (B1 & B2 & B3 & B4) VJ Hs. apply (behaves_base h h1); [exact B1|exact VJ|].
  rewrite <- (extends_content h h1), <- B4 by assumption. apply done_replaceM_spec; [exact (extends_valid _ _ _ B1 VJ)|exact B2|exact Hs].
Qed.

(** ** Positions *)
Lemma at_lt t i c : at_ t i = Ok c -> i < length t.
Proof. unfold at_. destruct (nth_error t i) eqn:E; [|discriminate]. intros _. apply nth_error_Some. congruence. Qed.
Lemma at_pred_le t i c : at_pred t i = Ok c -> i <= length t.
Proof. destruct i; [cbn; lia|]. cbn [at_pred]. intro H. apply at_lt in H. lia. Qed.
Lemma core_end t path ks s e : core t false path = Ok (ks, s, e) -> s <= e <= length t.
Proof.
  unfold core. destruct (length t <? 2); [discriminate|]. destruct path as [|p0 path]; [discriminate|].
  destruct (skip_space t 0) as [o| |]; cbn [bind]; try discriminate. destruct (at_ t o) as [c| |]; cbn [bind]; try discriminate.
  destruct (outer _ _ _ _ _ _) as [st| |]; cbn [bind]; try discriminate. destruct (offset st =? 0); [discriminate|].
  destruct (skip_space _ _) as [off| |]; cbn [bind]; try discriminate. intro H.
  assert (L : off < length t).
  { unfold value_end in H. destruct (at_ t off) as [d| |] eqn:Ed; cbn [bind] in H; try discriminate. exact (at_lt _ _ _ Ed). }
  apply (proj2 (value_end_inv t (keyst st) off L)) in H. destruct H as (_ & (H & _) & H2). lia.
Qed.

(** ** The functions *)
Section Functions.
  Variable grow : nat -> nat.

  Theorem GetM_spec h json path : valid h json ->
    match GetM json path h with
    | None => Get (content h json) path = Panic
    | Some (inl e, h') => h' = h /\ Get (content h json) path = Err e
    | Some (inr v, h') => h' = h /\ valid h v /\ (exists i j, window json v i j) /\ Get (content h json) path = Ok (content h v)
    end.
  Proof.
    intro V. destruct path as [|p0 path]; cbn [GetM Get].
    - cbn. split; [reflexivity|]. split; [exact V|]. split; [|reflexivity]. exists 0, (b_len json). unfold window. lia.
    - unfold mbind, look. destruct (core (content h json) false (p0 :: path)) as [[[ks s] e]|er|] eqn:E; cbn [bind ret panic];
        [|split; reflexivity|reflexivity].
      apply core_end in E. rewrite content_len in E by exact V. destruct (sub_spec h json s e V E) as (v & -> & W & Vv & C).
      split; [reflexivity|]. split; [exact Vv|]. split; [exists s, e; exact W|]. unfold slice. rewrite content_len by exact V.
      replace ((s <=? e) && (e <=? b_len json)) with true by (symmetry; apply andb_true_iff; split; apply Nat.leb_le; lia).
      rewrite C. reflexivity.
  Qed.

  Lemma set_spanM_spec h json new s e : valid h json -> valid h new ->
    behaves h json (set_spanM grow json new s e h) (set_span (content h json) (content h new) s e).
  Proof.
    intros VJ VN. unfold set_spanM, set_span. apply look_behaves. apply eval_behaves. intros c Ec. apply at_pred_le in Ec.
    rewrite content_len in Ec by exact VJ.
    destruct (c =? 34)%N; [apply eval_behaves; intros d Ed; destruct (d =? 34)%N|]; apply done_replaceM_spec; try assumption; lia.
  Qed.

  Theorem SetM_spec h json new path : valid h json -> valid h new ->
    behaves h json (SetM grow json new path h) (Set_ (content h json) (content h new) path).
  Proof.
    intros VJ VN. destruct path as [|p0 path]; cbn [SetM Set_]; [apply fail_behaves|]. apply look_behaves.
    apply mubind_behaves. intros [[ks s] e] _. apply set_spanM_spec; assumption.
  Qed.

  Theorem SetKeyM_spec h json key path : valid h json ->
    behaves h json (SetKeyM grow json key path h) (SetKey (content h json) key path).
  Proof.
    intros VJ. unfold SetKeyM, SetKey. destruct key as [|k0 key]; [apply fail_behaves|]. destruct path as [|p0 path]; [apply fail_behaves|].
    apply look_behaves. destruct (core (content h json) false _) as [x|er|]; [apply fail_behaves| |reflexivity].
    destruct (err_equal (Some er) 8); [|apply fail_behaves]. apply mubind_behaves. intros [[ks s] e] _.
    destruct ks as [ks|]; [|reflexivity]. apply eval_behaves. intros o Eo. destruct o as [i|]; [|apply fail_behaves].
    assert (L : ks <= b_len json).
    { rewrite <- (content_len h) by exact VJ. destruct (Nat.le_gt_cases ks (length (content h json))) as [?|G]; [assumption|].
      rewrite skipn_all2 in Eo by lia. cbn [setkey_loop] in Eo. destruct (ks <? s); discriminate. }
    unfold mbind, of_string. destruct (new_building h (k0 :: key) (grow (length (k0 :: key)))) as (n & h1 & -> & B).
    exact (replace_fresh grow h h1 json n _ ks i B VJ L).
  Qed.

  Lemma make_nothing h : exists n h1, make_len 0 h = Some (n, h1) /\ building h h1 n [].
  Proof. change 0%Z with (Z.of_nat 0). rewrite make_len_spec. apply new_building. Qed.

  Theorem DeleteM_spec h json path : valid h json ->
    behaves h json (DeleteM grow json path h) (Delete (content h json) path).
  Proof.
    intros VJ. destruct path as [|p0 path]; cbn [DeleteM Delete]; [apply fail_behaves|]. apply look_behaves.
    apply mubind_behaves. intros [[ks s] e] _.
    enough (K : forall start0, behaves h json
      ((let! c := eval (at_pred (content h json) start0) in
            let start := if (c =? 34)%N then pred start0 else start0 in
            let! d := eval (at_ (content h json) e) in
            let e := if (d =? 34)%N then S e else e in
            let! sedge := eval (back_edge (content h json) (pred start)) in
            let eedge := fwd_edge (skipn e (content h json)) e in
            let! sc := eval (at_ (content h json) sedge) in
            let! ec := eval (at_ (content h json) eedge) in
            if is_open sc && (sc + 2 =? ec)%N then let! new := make_len 0 in done_replaceM grow json new start e
            else if (ec =? 44)%N then let! new := make_len 0 in done_replaceM grow json new start (S eedge)
            else if (sc =? 44)%N then let! new := make_len 0 in done_replaceM grow json new sedge e
            else ret (MFail json (EBadJSON start))) h)
      (pbind (at_pred (content h json) start0) (fun c =>
          let start := if (c =? 34)%N then pred start0 else start0 in
          pbind (at_ (content h json) e) (fun d =>
          let e := if (d =? 34)%N then S e else e in
          pbind (back_edge (content h json) (pred start)) (fun sedge =>
          let eedge := fwd_edge (skipn e (content h json)) e in
          pbind (at_ (content h json) sedge) (fun sc =>
          pbind (at_ (content h json) eedge) (fun ec =>
          if is_open sc && (sc + 2 =? ec)%N then done_replace (content h json) [] start e
          else if (ec =? 44)%N then done_replace (content h json) [] start (S eedge)
          else if (sc =? 44)%N then done_replace (content h json) [] sedge e
          else Fail (Some (content h json)) (EBadJSON start)))))))).
    { destruct ks as [[|ks]|]; [reflexivity|apply K|apply K]. }
    intro start0. apply eval_behaves. intros c Ec. apply at_pred_le in Ec. rewrite content_len in Ec by exact VJ. cbv zeta.
    assert (L : (if (c =? 34)%N then pred start0 else start0) <= b_len json) by (destruct (c =? 34)%N; lia).
    revert L. generalize (if (c =? 34)%N then pred start0 else start0). intros start L.
    apply eval_behaves. intros d _. generalize (if (d =? 34)%N then S e else e). intro e1.
    apply eval_behaves. intros sedge _. apply eval_behaves. intros sc Esc. apply at_lt in Esc. rewrite content_len in Esc by exact VJ.
    apply eval_behaves. intros ec _. destruct (make_nothing h) as (n & h1 & En & B).
    destruct (is_open sc && (sc + 2 =? ec)%N); [|destruct (ec =? 44)%N; [|destruct (sc =? 44)%N; [|apply fail_behaves]]];
      unfold mbind at 1; rewrite En; apply (replace_fresh grow h h1 json n []); try assumption; lia.
  Qed.

  Lemma braces_end t s e o c : braces_at t s e o c = Ok true -> pred e <= length t.
  Proof.
    unfold braces_at. destruct (at_ t s) as [x| |]; cbn [bind]; try discriminate. destruct (x =? o)%N; [|discriminate].
    destruct (at_pred t e) as [d| |] eqn:E; cbn [bind]; try discriminate. intros _. apply at_pred_le in E. lia.
  Qed.

  (** The value of AddKeyValue: what a nil value is replaced by is fresh. *)
  Theorem AddKeyValueM_spec h json key value path : valid h json -> (forall v, value = Some v -> valid h v) ->
    behaves h json (AddKeyValueM grow json key value path h) (AddKeyValue (content h json) key (option_map (content h) value) path).
  Proof.
    intros VJ VV. unfold AddKeyValueM. apply look_behaves.
    assert (K : exists v1 h1, (match value with None => of_string (grow 4) (b "null") | Some s => ret s end) h = Some (v1, h1) /\
      extends h h1 /\ content h1 v1 = match option_map (content h) value with None => b "null" | Some v => v end).
    { destruct value as [v|].
      - exists v, h. split; [reflexivity|]. split; [apply extends_refl|reflexivity].
      - destruct (new_building h (b "null") (grow 4)) as (v1 & h1 & E & B1 & _ & _ & B4). exists v1, h1.
        split; [exact E|]. split; [exact B1|exact B4]. }
    destruct K as (v1 & h1 & E1 & X1 & C1). unfold mbind at 1. rewrite E1. unfold AddKeyValue.
    rewrite <- C1. clear E1 C1 VV. apply (behaves_base h h1); [exact X1|exact VJ|]. rewrite <- (extends_content h h1) by assumption.
    pose proof (extends_valid _ _ _ X1 VJ) as VJ1. clear VJ X1 h value. apply look_behaves.
    rewrite content_len by exact VJ1. destruct (b_len json <? 2); [apply fail_behaves|].
    apply mubind_behaves. intros [s e] _. apply eval_behaves. intros ok Eok. destruct ok; [|apply fail_behaves].
    apply braces_end in Eok. rewrite content_len in Eok by exact VJ1.
    assert (P : forall pair, behaves h1 json ((let! new := of_string (grow (length pair)) pair in done_replaceM grow json new (pred e) (pred e)) h1)
      (done_replace (content h1 json) pair (pred e) (pred e))).
    { intro pair. unfold mbind, of_string. destruct (new_building h1 pair (grow (length pair))) as (n & h2 & -> & B).
      exact (replace_fresh grow h1 h2 json n _ _ _ B VJ1 Eok). }
    destruct (blank_between _ s e); [apply P|]. destruct (core (content h1 json) false (path ++ [key])) as [x|er|]; [apply fail_behaves| |reflexivity].
    destruct (err_equal (Some er) 8); [apply P|apply fail_behaves].
  Qed.

  Lemma comma_first_spec h v : valid h v -> exists val h', comma_first v h = Some (val, h') /\ building h h' val (44%N :: content h v).
  Proof.
    intro V. unfold comma_first. replace (Z.of_nat (b_len v) + 1)%Z with (Z.of_nat (S (b_len v))) by lia.
    unfold mbind at 1. rewrite make_len_spec. destruct (new_block_spec h (repeat 0%N (S (b_len v))) 0) as (s & h1 & -> & E1 & V1 & F1 & C1 & L1 & P1).
    rewrite repeat_length in L1, P1.
    unfold mbind at 1, store. rewrite L1. cbn [Nat.ltb Nat.leb].
    set (h2 := poke s 0 [44%N] h1).
    assert (E2 : extends h h2) by (apply poke_extends; assumption).
    assert (V2 : valid h2 s) by (apply poke_valid; [exact V1|cbn [length]; lia|exact V1]).
    assert (C2 : content h2 s = 44%N :: repeat 0%N (b_len v)).
    { unfold h2. rewrite poke_content by (try exact V1; cbn [length]; lia). rewrite C1. reflexivity. }
    unfold mbind at 1, sub_from. destruct (sub_spec h2 s 1 (b_len s) V2 ltac:(lia)) as (r & -> & W & Vr & Cr).
    destruct W as (_ & W1 & W2 & W3).
    unfold mbind at 1, copy. rewrite (extends_content h h2) by assumption.
    assert (T : firstn (b_len r) (content h v) = content h v) by (apply firstn_all2; rewrite content_len by exact V; lia). rewrite T.
    eexists _, _. split; [reflexivity|]. unfold building.
    assert (Lv : length (content h v) = b_len v) by (apply content_len; exact V).
    assert (Q : poke r 0 (content h v) h2 = poke s 1 (content h v) h2).
    { unfold poke. rewrite W1, W2. do 2 f_equal. lia. }
    rewrite Q. split; [apply poke_extends; assumption|]. split; [apply poke_valid; [exact V2|lia|exact V2]|]. split; [exact F1|].
    rewrite poke_content by (try exact V2; lia). rewrite C2. unfold overwrite. cbn [firstn app Nat.add skipn]. f_equal.
    rewrite skipn_all2 by (rewrite repeat_length; lia). apply app_nil_r.
  Qed.

  Theorem AddM_spec h json value path : valid h json -> valid h value ->
    behaves h json (AddM grow json value path h) (Add_ (content h json) (content h value) path).
  Proof.
    intros VJ VV. unfold AddM, Add_. apply look_behaves. rewrite content_len by exact VJ. destruct (b_len json <? 2); [apply fail_behaves|].
    apply mubind_behaves. intros [s e] _. apply eval_behaves. intros ok Eok. destruct ok; [|apply fail_behaves].
    apply braces_end in Eok. rewrite content_len in Eok by exact VJ.
    destruct (blank_between _ s e); [apply done_replaceM_spec; assumption|].
    destruct (comma_first_spec h value VV) as (n & h1 & E & B). unfold mbind at 1. rewrite E.
    exact (replace_fresh grow h h1 json n _ _ _ B VJ Eok).
  Qed.

  Lemma comma_last_ok h v : valid h v -> exists n h1, with_comma_last grow v h = Some (n, h1) /\ building h h1 n (content h v ++ [44%N]).
  Proof.
    intro V. unfold with_comma_last. replace (Z.of_nat (b_len v) + 1)%Z with (Z.of_nat (S (b_len v))) by lia.
    unfold mbind at 1. rewrite make_cap_spec. destruct (new_building h [] (S (b_len v))) as (o1 & h1 & -> & B1). pose proof B1 as (E1 & _).
    unfold mbind at 1. destruct (append_slice_spec grow h h1 o1 [] v B1) as (o2 & h2 & -> & B2).
    destruct (append_spec grow h h2 o2 _ [44%N] B2) as (o3 & h3 & -> & B3). exists o3, h3. split; [reflexivity|].
    rewrite (extends_content h h1) in B3 by assumption. exact B3.
  Qed.
  Lemma comma_first_ok h v : valid h v -> exists n h1, with_comma_first grow v h = Some (n, h1) /\ building h h1 n (44%N :: content h v).
  Proof.
    intro V. unfold with_comma_first. replace (Z.of_nat (b_len v) + 1)%Z with (Z.of_nat (S (b_len v))) by lia.
    unfold mbind at 1. rewrite make_cap_spec. destruct (new_building h [] (S (b_len v))) as (o1 & h1 & -> & B1).
    unfold mbind at 1. destruct (append_spec grow h h1 o1 _ [44%N] B1) as (o2 & h2 & -> & B2). pose proof B2 as (E2 & _).
    destruct (append_slice_spec grow h h2 o2 _ v B2) as (o3 & h3 & -> & B3). exists o3, h3. split; [reflexivity|].
    rewrite (extends_content h h2) in B3 by assumption. exact B3.
  Qed.

  Theorem InsertM_spec h json index value path : valid h json -> valid h value ->
    behaves h json (InsertM grow json index value path h) (Insert (content h json) index (content h value) path).
  Proof.
    intros VJ VV. unfold InsertM, Insert. apply look_behaves. apply mubind_behaves. intros [s0 e0] _. apply eval_behaves. intros ok _.
    destruct ok; [|apply fail_behaves]. apply mubind_behaves. intros [[ks s] e] _.
    apply eval_behaves. intros c Ec. apply at_pred_le in Ec. rewrite content_len in Ec by exact VJ. cbv zeta.
    assert (L : (if (c =? 34)%N then pred s else s) <= b_len json) by (destruct (c =? 34)%N; lia).
    revert L. generalize (if (c =? 34)%N then pred s else s). clear s Ec. intros s L.
    apply eval_behaves. intros d _. generalize (if (d =? 34)%N then S e else e). intro e1.
    apply eval_behaves. intros sedge _. apply eval_behaves. intros sc _. apply eval_behaves. intros ec _.
    destruct (comma_last_ok h value VV) as (n & h1 & En & B). destruct (comma_first_ok h value VV) as (n' & h1' & En' & B').
    destruct (is_open sc && (sc + 2 =? ec)%N); [|destruct (ec =? 44)%N; [|destruct (sc =? 44)%N; [|apply fail_behaves]]].
    - unfold mbind at 1. rewrite En. exact (replace_fresh grow h h1 json n _ _ _ B VJ L).
    - unfold mbind at 1. rewrite En. exact (replace_fresh grow h h1 json n _ _ _ B VJ L).
    - unfold mbind at 1. rewrite En'. destruct s as [|p]; [reflexivity|]. apply (replace_fresh grow h h1' json n' _ _ _ B' VJ). lia.
  Qed.

  Lemma nil_valid h : valid h (Bsl 0 0 0 0).
  Proof. unfold valid. cbn. lia. Qed.

  Theorem StoreM_spec h json key value path : valid h json -> (forall v, value = Some v -> valid h v) ->
    behaves h json (StoreM grow json key value path h) (Store (content h json) key (option_map (content h) value) path).
  Proof.
    intros VJ VV. unfold StoreM, Store. apply look_behaves. destruct (core (content h json) false (path ++ [key])) as [[[ks s] e]|er|]; [| |reflexivity].
    - destruct value as [v|]; cbn [option_map].
      + apply set_spanM_spec; [exact VJ|exact (VV v eq_refl)].
      + exact (set_spanM_spec h json (Bsl 0 0 0 0) s e VJ (nil_valid h)).
    - destruct (err_equal (Some er) 8); [|apply fail_behaves]. apply AddKeyValueM_spec; assumption.
  Qed.

  (** ** Formatting *)
  Lemma flattenM_spec h0 : forall n rest inq out h x, length rest <= n -> building h0 h out x ->
    exists out' h', flattenM grow rest inq out h = Some (out', h') /\ building h0 h' out' (x ++ flatten rest inq).
  Proof.
    induction n as [|n IH]; intros rest inq out h x Hn B; (destruct rest as [|c r]; cbn [flattenM flatten length] in *;
      [rewrite app_nil_r; exists out, h; split; [reflexivity|exact B]|]); [lia|].
    assert (K : forall inq', exists out' h', (let! out := append_bytes grow out [c] in flattenM grow r inq' out) h = Some (out', h') /\
      building h0 h' out' (x ++ c :: flatten r inq')).
    { intro inq'. unfold mbind. destruct (append_spec grow h0 h out x [c] B) as (o1 & h1 & -> & B1).
      destruct (IH r inq' o1 h1 _ ltac:(lia) B1) as (o2 & h2 & -> & B2). exists o2, h2. split; [reflexivity|].
      rewrite <- app_assoc in B2. exact B2. }
    destruct (c =? 92)%N.
    - unfold mbind at 1. destruct (append_spec grow h0 h out x [c] B) as (o1 & h1 & -> & B1). destruct r as [|d r'].
      + exists o1, h1. split; [reflexivity|exact B1].
      + unfold mbind. destruct (append_spec grow h0 h1 o1 _ [d] B1) as (o2 & h2 & -> & B2). cbn [length] in Hn.
        destruct (IH r' inq o2 h2 _ ltac:(lia) B2) as (o3 & h3 & -> & B3). exists o3, h3. split; [reflexivity|].
        rewrite <- !app_assoc in B3. exact B3.
    - destruct (c =? 34)%N; [apply K|]. destruct inq; [apply K|]. destruct (space c); [|apply K]. apply IH; [lia|exact B].
  Qed.

  Theorem FlattenM_spec h json : valid h json ->
    exists out h', FlattenM grow json h = Some (out, h') /\ building h h' out (Flatten (content h json)).
  Proof.
    intro V. unfold FlattenM, mbind, look. rewrite make_cap_spec. destruct (new_building h [] (b_len json)) as (o1 & h1 & -> & B1).
    destruct (flattenM_spec h _ (content h json) false o1 h1 [] (le_n _) B1) as (o2 & h2 & -> & B2). exists o2, h2.
    split; [reflexivity|exact B2].
  Qed.

  Theorem FlattenM_behaves h json : valid h json -> behaves_res h (FlattenM grow json h) (Ok (Flatten (content h json))).
  Proof.
    intro V. destruct (FlattenM_spec h json V) as (o & h' & -> & B1 & B2 & B3 & B4). cbn [behaves_res]. rewrite B4.
    split; [exact B1|]. split; [exact B2|]. split; [exact B3|reflexivity].
  Qed.

  Lemma fill_tabs_spec h0 res : forall k i h y, building h0 h res (repeat 9%N i ++ y) -> length y = k ->
    exists h', fill_tabs res i k h = Some (tt, h') /\ building h0 h' res (repeat 9%N (i + k)).
  Proof.
    induction k as [|k IH]; intros i h y B Hy; cbn [fill_tabs].
    - destruct y; [|discriminate]. rewrite app_nil_r in B. rewrite Nat.add_0_r. exists h. split; [reflexivity|exact B].
    - destruct y as [|d y]; [discriminate|]. injection Hy as Hy. destruct B as (B1 & B2 & B3 & B4).
      assert (L : b_len res = i + S (length y)).
      { rewrite <- (content_len h) by exact B2. rewrite B4, app_length, repeat_length. reflexivity. }
      unfold mbind, store. replace (i <? b_len res) with true by (symmetry; apply Nat.ltb_lt; lia).
      destruct (IH (S i) (poke res i [9%N] h) y) as (h' & E & B').
      + split; [apply poke_extends; assumption|]. pose proof B2 as [B21 B22].
        split; [apply poke_valid; [exact B2|cbn [length]; lia|exact B2]|]. split; [exact B3|].
        rewrite poke_content by (try exact B2; cbn [length]; lia). rewrite B4. unfold overwrite. cbn [length].
        rewrite firstn_app, repeat_length, Nat.sub_diag, firstn_O, app_nil_r. rewrite firstn_all2 by (rewrite repeat_length; lia).
        rewrite skipn_app, repeat_length. rewrite skipn_all2 by (rewrite repeat_length; lia).
        replace (i + 1 - i) with 1 by lia. cbn [skipn]. change (repeat 9%N (S i)) with (9%N :: repeat 9%N i). rewrite (repeat_cons i 9%N), <- app_assoc. reflexivity.
      + exact Hy.
      + exists h'. split; [exact E|]. replace (i + S k) with (S i + k) by lia. exact B'.
  Qed.

  Lemma createTabsM_spec h n : match createTabsM n h with
    | None => createTabs n = Panic
    | Some (s, h') => exists t, createTabs n = Ok t /\ building h h' s t
    end.
  Proof.
    unfold createTabsM, createTabs, make_len. destruct (n <? 0)%Z; [reflexivity|]. unfold mbind at 1.
    destruct (new_block_spec h (repeat 0%N (Z.to_nat n)) 0) as (s & h1 & -> & E1 & V1 & F1 & C1 & L1 & _). rewrite repeat_length in L1.
    unfold mbind. destruct (fill_tabs_spec h s (b_len s) 0 h1 (repeat 0%N (Z.to_nat n))) as (h2 & -> & B).
    - split; [exact E1|]. split; [exact V1|]. split; [exact F1|exact C1].
    - rewrite repeat_length. symmetry. exact L1.
    - cbn [ret]. eexists. split; [reflexivity|]. rewrite L1 in B. exact B.
  Qed.

  (** The result of a loop that has written [x] so far. *)
  Definition goes_on (h0 : mem) (x : bytes) (r : option (bsl * mem)) (u : res bytes) : Prop :=
    match r with
    | None => u = Panic
    | Some (out, h') => exists y, u = Ok y /\ building h0 h' out (x ++ y)
    end.
  Lemma goes_emit h0 x y r u : goes_on h0 (x ++ y) r u -> goes_on h0 x r (emit y u).
  Proof.
    unfold goes_on. destruct r as [[o h']|]; [|intros ->; reflexivity]. intros (z & -> & B). exists (y ++ z). split; [reflexivity|].
    rewrite <- app_assoc in B. exact B.
  Qed.
  (** One [append] of bytes. *)
  Lemma goes_append h0 h out x xs (k : bsl -> M bsl) u : building h0 h out x ->
    (forall o1 h1, building h0 h1 o1 (x ++ xs) -> goes_on h0 (x ++ xs) (k o1 h1) u) ->
    goes_on h0 x ((let! o := append_bytes grow out xs in k o) h) (emit xs u).
  Proof.
    intros B K. unfold mbind. destruct (append_spec grow h0 h out x xs B) as (o1 & h1 & -> & B1). apply goes_emit. apply K. exact B1.
  Qed.
  (** Tabs appended. *)
  Lemma goes_tabs h0 h out x n (k : bsl -> M bsl) u : building h0 h out x ->
    (forall t o1 h1, building h0 h1 o1 (x ++ t) -> goes_on h0 (x ++ t) (k o1 h1) u) ->
    goes_on h0 x ((let! tabs := createTabsM n in let! o := append_slice grow out tabs in k o) h) (do t <- createTabs n; emit t u).
  Proof.
    intros B K. unfold mbind at 1. pose proof (createTabsM_spec h n) as T. destruct (createTabsM n h) as [[s h1]|]; [|rewrite T; reflexivity].
    destruct T as (t & -> & T1 & T2 & T3 & T4). cbn [bind]. unfold mbind.
    pose proof (building_later h0 h h1 out x B T1) as B1.
    destruct (append_slice_spec grow h0 h1 out x s B1) as (o2 & h2 & -> & B2). rewrite T4 in B2. apply goes_emit. apply K. exact B2.
  Qed.

  Lemma emit_app x y u : emit (x ++ y) u = emit x (emit y u).
  Proof. destruct u; cbn; [rewrite app_assoc; reflexivity|reflexivity|reflexivity]. Qed.
  Lemma emit_tabs x n u : (do t <- createTabs n; emit (x ++ t) u) = emit x (do t <- createTabs n; emit t u).
  Proof. destruct (createTabs n); cbn [bind]; [apply emit_app|reflexivity|reflexivity]. Qed.
  Lemma emit_tabs_end x n y u : (do t <- createTabs n; emit (x ++ t ++ y) u) = emit x (do t <- createTabs n; emit t (emit y u)).
  Proof. destruct (createTabs n); cbn [bind]; [rewrite !emit_app; reflexivity|reflexivity|reflexivity]. Qed.

  Lemma indentM_spec h0 : forall rest prev level inq out h x, building h0 h out x ->
    goes_on h0 x (indentM grow rest prev level inq out h) (indent_loop rest prev level inq).
  Proof.
    induction rest as [|c r IH]; intros prev level inq out h x B; cbn [indentM indent_loop].
    - cbn [ret goes_on]. exists []. split; [reflexivity|]. rewrite app_nil_r. exact B.
    - destruct (c =? 34)%N.
      { destruct prev as [d|].
        - apply goes_append; [exact B|]. intros. apply IH. assumption.
        - unfold mbind. destruct (append_spec grow h0 h out x [c] B) as (o1 & h1 & -> & _). reflexivity. }
      destruct inq; [apply goes_append; [exact B|]; intros; apply IH; assumption|].
      destruct (space c); [apply IH; exact B|].
      destruct (is_open c).
      { rewrite (emit_tabs [c; 10%N]). change [c; 10%N] with ([c] ++ [10%N]). rewrite emit_app.
        apply goes_append; [exact B|]. intros. apply goes_append; [assumption|]. intros. apply goes_tabs; [assumption|]. intros. apply IH. assumption. }
      destruct (is_close c).
      { pose proof (emit_tabs_end [10%N] (level - 1) [c] (indent_loop r (Some c) (level - 1) false)) as ET. cbn [app] in ET. rewrite ET. apply goes_append; [exact B|]. intros. apply goes_tabs; [assumption|]. intros.
        apply goes_append; [assumption|]. intros. apply IH. assumption. }
      destruct (c =? 44)%N.
      { rewrite (emit_tabs [c; 10%N]). change [c; 10%N] with ([c] ++ [10%N]). rewrite emit_app.
        apply goes_append; [exact B|]. intros. apply goes_append; [assumption|]. intros. apply goes_tabs; [assumption|]. intros. apply IH. assumption. }
      destruct (c =? 58)%N.
      { change [c; 32%N] with ([c] ++ [32%N]). rewrite emit_app. apply goes_append; [exact B|]. intros. apply goes_append; [assumption|].
        intros. apply IH. assumption. }
      apply goes_append; [exact B|]. intros. apply IH. assumption.
  Qed.

  Theorem IndentM_spec h json : valid h json -> behaves_res h (IndentM grow json h) (Indent (content h json)).
  Proof.
    intro V. unfold IndentM. unfold mbind at 1. destruct (FlattenM_spec h json V) as (o1 & h1 & -> & B1). pose proof B1 as (E1 & V1 & _ & C1).
    unfold mbind at 1, look. unfold mbind. rewrite make_cap_spec. destruct (new_building h1 [] (b_len o1)) as (o2 & h2 & -> & B2).
    pose proof (indentM_spec h (content h1 o1) None 0%Z false o2 h2 [] (building_base _ _ _ _ _ E1 B2)) as G. rewrite C1 in G.
    unfold goes_on in G. unfold behaves_res, Indent. rewrite C1. destruct (indentM _ _ _ _ _ _ _) as [[o h']|]; [|exact G].
    destruct G as (y & -> & G1 & G2 & G3 & G4). split; [exact G1|]. split; [exact G2|]. split; [exact G3|]. rewrite G4. reflexivity.
  Qed.
End Functions.
