(** What the appends of Alias.v write, and that the results are those of the by-value models. *)
From Coq Require Import String.
From Verif Require Import GoStd Core Errors Api Iter Walk Heap SpecAlias Alias.

(** ** One append *)

Lemma append_wrote grow h p x h' p' : slc_ok h p -> append1 grow h p x = (h', p') -> wrote p x h h'.
Proof.
  intros (H1 & H2 & H3) Ha. unfold append1 in Ha. destruct (Nat.ltb_spec (s_len p) (s_cap p)).
  - injection Ha as <- <-. right. split; [assumption|]. exists []. rewrite app_nil_r. reflexivity.
  - unfold alloc in Ha. injection Ha as <- <-. left. split; [lia|]. eexists. reflexivity.
Qed.

Lemma put_nth_put {A} n (x y : A) l : put_nth n y (put_nth n x l) = put_nth n y l.
Proof. revert n. induction l as [|a l IH]; intros [|n]; cbn; f_equal; auto. Qed.
Lemma put_nth_app {A} n (x : A) l r : n < length l -> put_nth n x (l ++ r) = put_nth n x l ++ r.
Proof. revert n. induction l as [|a l IH]; intros [|n] H; cbn in *; try lia; [reflexivity|]. f_equal. apply IH. lia. Qed.

Lemma put_past_twice h p x y l : s_arr p < length h -> put_past (put_past h p x ++ l) p y = put_past h p y ++ l.
Proof.
  intro H. unfold put_past. rewrite array_app by (rewrite put_nth_len; exact H). rewrite array_put, Nat.eqb_refl by exact H.
  rewrite put_nth_app by (rewrite put_nth_len; exact H). rewrite !put_nth_put. reflexivity.
Qed.

Lemma wrote_trans p x y h h1 h2 : s_arr p < length h -> wrote p x h h1 -> wrote p y h1 h2 -> wrote p y h h2.
Proof.
  intros Hp [[E (l & ->)]|[E (l & ->)]] [[E2 (l2 & ->)]|[E2 (l2 & ->)]]; try lia.
  - left. split; [exact E|]. exists (l ++ l2). rewrite app_assoc. reflexivity.
  - right. split; [exact E|]. exists (l ++ l2). rewrite put_past_twice by exact Hp. rewrite app_assoc. reflexivity.
Qed.

Lemma wrote_ok p x h h' t : slc_ok h p -> wrote p x h h' -> slc_ok h t -> slc_ok h' t.
Proof.
  intros (P1 & _) Hw (T1 & T2 & T3). unfold slc_ok. destruct Hw as [[E (l & ->)]|[E (l & ->)]].
  - rewrite array_app, app_length by exact T1. lia.
  - unfold put_past. rewrite array_app, app_length, put_nth_len by (rewrite put_nth_len; exact T1).
    rewrite array_put by exact P1. destruct (Nat.eqb_spec (s_arr p) (s_arr t)) as [->|]; rewrite ?put_nth_len; lia.
Qed.

Lemma firstn_skipn_put {A} n (x : A) l o k : o + k <= n \/ n < o -> firstn k (skipn o (put_nth n x l)) = firstn k (skipn o l).
Proof.
  intros [H|H].
  - rewrite put_nth_skipn by lia. apply put_nth_firstn. lia.
  - f_equal. revert n o H. induction l as [|a l IH]; intros [|n] [|o] H; cbn; try reflexivity; try lia. apply IH. lia.
Qed.

Lemma wrote_view p x h h' t : slc_ok h p -> wrote p x h h' -> slc_ok h t -> s_len p = s_cap p \/ apart p t -> view h' t = view h t.
Proof.
  intros (P1 & _) Hw (T1 & T2 & T3) Ht. unfold view. destruct Hw as [[E (l & ->)]|[E (l & ->)]].
  - rewrite array_app by exact T1. reflexivity.
  - destruct Ht as [Ht|Ht]; [lia|]. unfold put_past. rewrite array_app by (rewrite put_nth_len; exact T1). rewrite array_put by exact P1.
    destruct (Nat.eqb_spec (s_arr p) (s_arr t)) as [Ea|]; [|reflexivity]. rewrite Ea. symmetry in Ea. apply firstn_skipn_put. exact (Ht Ea).
Qed.
Lemma wrote_self p x h h' : slc_ok h p -> wrote p x h h' -> view h' p = view h p.
Proof. intros Hp Hw. eapply wrote_view; [exact Hp|exact Hw|exact Hp|]. right. intros _. left. lia. Qed.

(** ** AddKeyValue, Insert, Store *)
Lemma AddKeyValueH_spec grow h json key value p : slc_ok h p ->
  let '(h', r) := AddKeyValueH grow h json key value p in
  r = AddKeyValue json key value (view h p) /\ (h' = h \/ wrote p key h h').
Proof.
  intro Hp. unfold AddKeyValueH, AddKeyValue, ubind, pbind. destruct (length json <? 2)%nat; [auto|].
  destruct (target_span json 123 125 EObjectExpected (view h p)) as [[s e]|e|]; auto.
  destruct (braces_at json s e 123 125) as [[|]|e0|]; auto. destruct (blank_between json s e); [auto|].
  destruct (append1 grow h p key) as [h' p'] eqn:Ea. destruct (append_view _ _ _ _ _ _ Hp Ea) as [_ Hv]. rewrite Hv.
  split; [reflexivity|]. right. eapply append_wrote; eassumption.
Qed.

Lemma InsertH_spec grow h json index value p : slc_ok h p ->
  let '(h', r) := InsertH grow h json index value p in
  r = Insert json index value (view h p) /\ (h' = h \/ wrote p (itoa index) h h').
Proof.
  intro Hp. unfold InsertH, Insert. unfold ubind at 2. unfold pbind at 7.
  destruct (target_span json 91 93 EArrayExpected (view h p)) as [[s e]|e|]; auto.
  destruct (braces_at json s e 91 93) as [[|]|e0|]; auto.
  destruct (append1 grow h p (itoa index)) as [h' p'] eqn:Ea. destruct (append_view _ _ _ _ _ _ Hp Ea) as [_ Hv]. rewrite Hv.
  split; [reflexivity|]. right. eapply append_wrote; eassumption.
Qed.

Lemma StoreH_spec grow h json key value p : slc_ok h p ->
  let '(h', r) := StoreH grow h json key value p in
  r = Store json key value (view h p) /\ wrote p key h h'.
Proof.
  intro Hp. unfold StoreH, Store. destruct (append1 grow h p key) as [h' p'] eqn:Ea.
  destruct (append_view _ _ _ _ _ _ Hp Ea) as [_ Hv]. rewrite Hv. pose proof (append_wrote _ _ _ _ _ _ Hp Ea) as Hw.
  destruct (core json false (view h p ++ [key])) as [[[k s] e]|e|]; [auto| |auto]. destruct (err_equal (Some e) 8); [|auto].
  pose proof (AddKeyValueH_spec grow h' json key value p (wrote_ok _ _ _ _ _ Hp Hw Hp)) as Hs.
  destruct (AddKeyValueH grow h' json key value p) as [h2 r2]. rewrite (wrote_self _ _ _ _ Hp Hw) in Hs. destruct Hs as [-> [->|Hw2]]; [auto|].
  split; [reflexivity|]. eapply wrote_trans; [exact (proj1 Hp)|exact Hw|exact Hw2].
Qed.

(** ** GetAll, GetAllMap *)

(** Elements past the first survive a write to the first place. *)
Lemma later_keys p x h h' ks i : slc_ok h p -> slc_ok h ks -> s_len p = s_cap p \/ beside p ks -> wrote p x h h' -> 0 < i ->
  nth i (view h' ks) [] = nth i (view h ks) [].
Proof.
  intros Hp Hk Hb Hw Hi. destruct (Nat.lt_ge_cases i (s_len ks)) as [Hl|Hl].
  2: { rewrite !nth_overflow; [reflexivity|rewrite view_len by exact Hk; exact Hl|rewrite view_len by (exact (wrote_ok _ _ _ _ _ Hp Hw Hk)); exact Hl]. }
  assert (V : forall h, nth i (view h ks) [] = nth (i - 1) (view h (Slc (s_arr ks) (S (s_off ks)) (s_len ks - 1) (s_cap ks - 1))) []).
  { intro g. unfold view. cbn [s_arr s_off s_len]. destruct i as [|i]; [lia|]. cbn [Nat.sub]. rewrite Nat.sub_0_r. destruct (s_len ks) as [|n]; [lia|].
    cbn [Nat.sub]. rewrite Nat.sub_0_r. generalize (array g (s_arr ks)) as l. clear. intro l. revert l. induction (s_off ks) as [|o IH]; intros [|a l]; cbn [skipn].
    - destruct n; destruct i; reflexivity.
    - reflexivity.
    - destruct n; destruct i; reflexivity.
    - rewrite IH. reflexivity. }
  rewrite !V. f_equal. eapply wrote_view; [exact Hp|exact Hw| |].
  - destruct Hk as (K1 & K2 & K3). unfold slc_ok. cbn. lia.
  - destruct Hb as [Hb|Hb]; [left; exact Hb|right]. intro Ea. cbn in *. specialize (Hb Ea). unfold s_end in *. cbn. lia.
Qed.

Lemma keys_head h ks i : slc_ok h ks -> i < s_len ks -> skipn i (view h ks) = nth i (view h ks) [] :: skipn (S i) (view h ks).
Proof.
  intros Hk Hi. rewrite <- (view_len h ks Hk) in Hi. revert Hi. generalize (view h ks). clear. intro l. revert i.
  induction l as [|a l IH]; intros [|i] H; cbn in *; try lia; [reflexivity|]. apply IH. lia.
Qed.
Lemma keys_tail p x h h' ks i : slc_ok h p -> slc_ok h ks -> s_len p = s_cap p \/ beside p ks -> wrote p x h h' ->
  skipn (S i) (view h' ks) = skipn (S i) (view h ks).
Proof.
  intros Hp Hk Hb Hw. apply (nth_ext _ _ [] []).
  - rewrite !skipn_length, !view_len; auto. exact (wrote_ok _ _ _ _ _ Hp Hw Hk).
  - intros j _. assert (N : forall l : list bytes, nth j (skipn (S i) l) [] = nth (S i + j) l []).
    { intro l. generalize (S i) as m. intro m. revert l. induction m as [|m IHm]; intros [|a l]; cbn; try reflexivity; [destruct j; reflexivity|]. apply IHm. }
    rewrite !N. apply (later_keys p x); auto; lia.
Qed.
Lemma any_wrote_step p k ks h h1 h2 : slc_ok h p -> wrote p k h h1 -> any_wrote p ks h1 h2 -> any_wrote p (k :: ks) h h2.
Proof.
  intros Hp Hw [->|(k2 & Hi2 & Hw2)]; right.
  - exists k. split; [left; reflexivity|exact Hw].
  - exists k2. split; [right; exact Hi2|]. eapply wrote_trans; [exact (proj1 Hp)|exact Hw|exact Hw2].
Qed.

Lemma get_all_h_spec grow json p ks n : forall h i, slc_ok h p -> slc_ok h ks -> s_len p = s_cap p \/ beside p ks -> n + i = s_len ks ->
  let '(h', r) := get_all_h grow n i h json ks p in
  r = GetAll json (skipn i (view h ks)) (view h p) /\ any_wrote p (skipn i (view h ks)) h h'.
Proof.
  induction n as [|n IH]; intros h i Hp Hk Hb Hn; cbn [get_all_h].
  - rewrite skipn_all2 by (rewrite view_len by exact Hk; lia). split; [reflexivity|]. left. reflexivity.
  - rewrite (keys_head h ks i Hk ltac:(lia)). cbn [GetAll]. set (k := nth i (view h ks) []) in *. destruct (append1 grow h p k) as [h1 p1] eqn:Ea.
    destruct (append_view _ _ _ _ _ _ Hp Ea) as [_ Hv]. rewrite Hv. pose proof (append_wrote _ _ _ _ _ _ Hp Ea) as Hw.
    destruct (GetString json (view h p ++ [k])) as [v|e|]; cbn [bind].
    2,3: split; [reflexivity|]; apply (any_wrote_step p k _ h h1 h1 Hp Hw); left; reflexivity.
    pose proof (IH h1 (S i) (wrote_ok _ _ _ _ _ Hp Hw Hp) (wrote_ok _ _ _ _ _ Hp Hw Hk) Hb ltac:(lia)) as H.
    destruct (get_all_h grow n (S i) h1 json ks p) as [h2 r2].
    rewrite (keys_tail p k h h1 ks i Hp Hk Hb Hw), (wrote_self _ _ _ _ Hp Hw) in H. destruct H as [-> H]. split; [reflexivity|].
    exact (any_wrote_step p k _ h h1 h2 Hp Hw H).
Qed.

Lemma GetAllH_spec grow h json ks p : slc_ok h p -> slc_ok h ks -> s_len p = s_cap p \/ beside p ks ->
  let '(h', r) := GetAllH grow h json ks p in
  r = GetAll json (view h ks) (view h p) /\ any_wrote p (view h ks) h h'.
Proof. intros Hp Hk Hb. exact (get_all_h_spec grow json p ks (s_len ks) h 0 Hp Hk Hb (Nat.add_0_r _)). Qed.

Lemma get_all_map_h_spec grow json p ks n : forall h i m, slc_ok h p -> slc_ok h ks -> s_len p = s_cap p \/ beside p ks -> n + i = s_len ks ->
  let '(h', r) := get_all_map_h grow n i h json ks p m in
  r = get_all_map json (skipn i (view h ks)) (view h p) m /\ any_wrote p (skipn i (view h ks)) h h'.
Proof.
  induction n as [|n IH]; intros h i m Hp Hk Hb Hn; cbn [get_all_map_h].
  - rewrite skipn_all2 by (rewrite view_len by exact Hk; lia). split; [reflexivity|]. left. reflexivity.
  - rewrite (keys_head h ks i Hk ltac:(lia)). cbn [get_all_map]. set (k := nth i (view h ks) []) in *. destruct (append1 grow h p k) as [h1 p1] eqn:Ea.
    destruct (append_view _ _ _ _ _ _ Hp Ea) as [_ Hv]. rewrite Hv. pose proof (append_wrote _ _ _ _ _ _ Hp Ea) as Hw.
    destruct (GetString json (view h p ++ [k])) as [v|e|]; cbn [bind].
    2,3: split; [reflexivity|]; apply (any_wrote_step p k _ h h1 h1 Hp Hw); left; reflexivity.
    pose proof (IH h1 (S i) (map_put k v m) (wrote_ok _ _ _ _ _ Hp Hw Hp) (wrote_ok _ _ _ _ _ Hp Hw Hk) Hb ltac:(lia)) as H.
    destruct (get_all_map_h grow n (S i) h1 json ks p (map_put k v m)) as [h2 r2].
    rewrite (keys_tail p k h h1 ks i Hp Hk Hb Hw), (wrote_self _ _ _ _ Hp Hw) in H. destruct H as [-> H]. split; [reflexivity|].
    exact (any_wrote_step p k _ h h1 h2 Hp Hw H).
Qed.

Lemma GetAllMapH_spec grow h json ks p : slc_ok h p -> slc_ok h ks -> s_len p = s_cap p \/ beside p ks ->
  let '(h', r) := GetAllMapH grow h json ks p in
  r = GetAllMap json (view h ks) (view h p) /\ any_wrote p (view h ks) h h'.
Proof. intros Hp Hk Hb. exact (get_all_map_h_spec grow json p ks (s_len ks) h 0 [] Hp Hk Hb (Nat.add_0_r _)). Qed.

(** Whatever the keys are, only the cell behind the path is written. *)
Lemma get_all_h_writes grow json p ks n : forall h i, slc_ok h p ->
  let h' := fst (get_all_h grow n i h json ks p) in h' = h \/ exists k, wrote p k h h'.
Proof.
  induction n as [|n IH]; intros h i Hp; cbn [get_all_h]; [left; reflexivity|].
  destruct (append1 grow h p (nth i (view h ks) [])) as [h1 p1] eqn:Ea. pose proof (append_wrote _ _ _ _ _ _ Hp Ea) as Hw.
  destruct (GetString json (view h1 p1)); [|right; eexists; exact Hw|right; eexists; exact Hw].
  specialize (IH h1 (S i) (wrote_ok _ _ _ _ _ Hp Hw Hp)). destruct (get_all_h grow n (S i) h1 json ks p) as [h2 r2]. cbn in *.
  destruct IH as [->|[k Hk]]; [right; eexists; exact Hw|]. right. exists k. eapply wrote_trans; [exact (proj1 Hp)|exact Hw|exact Hk].
Qed.
Lemma get_all_map_h_writes grow json p ks n : forall h i m, slc_ok h p ->
  let h' := fst (get_all_map_h grow n i h json ks p m) in h' = h \/ exists k, wrote p k h h'.
Proof.
  induction n as [|n IH]; intros h i m Hp; cbn [get_all_map_h]; [left; reflexivity|].
  destruct (append1 grow h p (nth i (view h ks) [])) as [h1 p1] eqn:Ea. pose proof (append_wrote _ _ _ _ _ _ Hp Ea) as Hw.
  destruct (GetString json (view h1 p1)); [|right; eexists; exact Hw|right; eexists; exact Hw].
  specialize (IH h1 (S i) (map_put (nth i (view h ks) []) a m) (wrote_ok _ _ _ _ _ Hp Hw Hp)).
  destruct (get_all_map_h grow n (S i) h1 json ks p (map_put (nth i (view h ks) []) a m)) as [h2 r2]. cbn in *.
  destruct IH as [->|[k Hk]]; [right; eexists; exact Hw|]. right. exists k. eapply wrote_trans; [exact (proj1 Hp)|exact Hw|exact Hk].
Qed.

(** ** All of them *)
Theorem calls_write grow h json key value index ivalue ks p : slc_ok h p ->
  (fst (AddKeyValueH grow h json key value p) = h \/ wrote p key h (fst (AddKeyValueH grow h json key value p))) /\
  (fst (InsertH grow h json index ivalue p) = h \/ wrote p (itoa index) h (fst (InsertH grow h json index ivalue p))) /\
  wrote p key h (fst (StoreH grow h json key value p)) /\
  (fst (GetAllH grow h json ks p) = h \/ exists k, wrote p k h (fst (GetAllH grow h json ks p))) /\
  (fst (GetAllMapH grow h json ks p) = h \/ exists k, wrote p k h (fst (GetAllMapH grow h json ks p))).
Proof.
  intro Hp. split; [|split; [|split; [|split]]].
  - pose proof (AddKeyValueH_spec grow h json key value p Hp) as H. destruct (AddKeyValueH grow h json key value p). cbn. tauto.
  - pose proof (InsertH_spec grow h json index ivalue p Hp) as H. destruct (InsertH grow h json index ivalue p). cbn. tauto.
  - pose proof (StoreH_spec grow h json key value p Hp) as H. destruct (StoreH grow h json key value p). cbn. tauto.
  - apply get_all_h_writes. exact Hp.
  - apply get_all_map_h_writes. exact Hp.
Qed.

Theorem calls_keep grow h json key value index ivalue ks p t : slc_ok h p -> slc_ok h t -> s_len p = s_cap p \/ apart p t ->
  view (fst (AddKeyValueH grow h json key value p)) t = view h t /\
  view (fst (InsertH grow h json index ivalue p)) t = view h t /\
  view (fst (StoreH grow h json key value p)) t = view h t /\
  view (fst (GetAllH grow h json ks p)) t = view h t /\
  view (fst (GetAllMapH grow h json ks p)) t = view h t.
Proof.
  intros Hp Ht Ha. assert (W : forall x h', wrote p x h h' -> view h' t = view h t) by (intros x h' Hw; exact (wrote_view p x h h' t Hp Hw Ht Ha)).
  destruct (calls_write grow h json key value index ivalue ks p Hp) as (H1 & H2 & H3 & H4 & H5).
  split; [|split; [|split; [|split]]].
  - destruct H1 as [->|Hw]; [reflexivity|exact (W _ _ Hw)].
  - destruct H2 as [->|Hw]; [reflexivity|exact (W _ _ Hw)].
  - exact (W _ _ H3).
  - destruct H4 as [->|[k Hw]]; [reflexivity|exact (W _ _ Hw)].
  - destruct H5 as [->|[k Hw]]; [reflexivity|exact (W _ _ Hw)].
Qed.

Theorem calls_result grow h json key value index ivalue ks p : slc_ok h p -> slc_ok h ks ->
  snd (AddKeyValueH grow h json key value p) = AddKeyValue json key value (view h p) /\
  snd (InsertH grow h json index ivalue p) = Insert json index ivalue (view h p) /\
  snd (StoreH grow h json key value p) = Store json key value (view h p) /\
  (s_len p = s_cap p \/ beside p ks ->
   snd (GetAllH grow h json ks p) = GetAll json (view h ks) (view h p) /\
   snd (GetAllMapH grow h json ks p) = GetAllMap json (view h ks) (view h p)).
Proof.
  intros Hp Hk. split; [|split; [|split]].
  - pose proof (AddKeyValueH_spec grow h json key value p Hp) as H. destruct (AddKeyValueH grow h json key value p). exact (proj1 H).
  - pose proof (InsertH_spec grow h json index ivalue p Hp) as H. destruct (InsertH grow h json index ivalue p). exact (proj1 H).
  - pose proof (StoreH_spec grow h json key value p Hp) as H. destruct (StoreH grow h json key value p). exact (proj1 H).
  - intro Hb. split.
    + pose proof (GetAllH_spec grow h json ks p Hp Hk Hb) as H. destruct (GetAllH grow h json ks p). exact (proj1 H).
    + pose proof (GetAllMapH_spec grow h json ks p Hp Hk Hb) as H. destruct (GetAllMapH grow h json ks p). exact (proj1 H).
Qed.

(** ** Walk *)

(** Two iterations with related states and equal answers stay related. *)
Section Sim.
  Local Open Scope N_scope.
  Context {S1 S2 : Type}.
  Variable R : S1 -> S2 -> Prop.
  Definition alike (r1 : itres S1) (r2 : itres S2) : Prop :=
    match r1, r2 with
    | IDone s1 e1, IDone s2 e2 => R s1 s2 /\ e1 = e2
    | IPanic, IPanic => True
    | _, _ => False
    end.
  Lemma alike_ibind {A} s1 s2 (r : res A) k1 k2 : R s1 s2 -> (forall a, r = Ok a -> alike (k1 a) (k2 a)) -> alike (ibind s1 r k1) (ibind s2 r k2).
  Proof. intros Hs Hk. destruct r; cbn; auto. Qed.

  Lemma iter_arr_alike json closes cb1 cb2 rest :
    (forall s1 s2 v, R s1 s2 -> R (fst (cb1 s1 v)) (fst (cb2 s2 v)) /\ snd (cb1 s1 v) = snd (cb2 s2 v)) ->
    forall i start lv inq s1 s2, R s1 s2 ->
    alike (iter_arr json closes cb1 rest i start lv inq s1) (iter_arr json closes cb2 rest i start lv inq s2).
  Proof.
    intro Hcb. induction rest as [|c r IH]; intros i start lv inq s1 s2 Hs; cbn [iter_arr]; [cbn; auto|].
    destruct (c =? 34); [apply IH; exact Hs|]. destruct inq; [apply IH; exact Hs|]. destruct (is_open c); [apply IH; exact Hs|].
    destruct (is_close c).
    { destruct (lv =? 0)%nat; [cbn; auto|]. destruct ((c =? 93) && (lv =? 1)%nat); [|apply IH; exact Hs].
      apply alike_ibind; [exact Hs|]. intros v _. apply alike_ibind; [exact Hs|]. intros v' _. pose proof (Hcb s1 s2 v' Hs) as H.
      destruct (cb1 s1 v') as [s1' [? ?]], (cb2 s2 v') as [s2' [? ?]]. cbn in *. destruct H as [H E]. injection E as -> ->. auto. }
    destruct ((lv =? 1)%nat && (c =? 44)); [|apply IH; exact Hs].
    apply alike_ibind; [exact Hs|]. intros v _. apply alike_ibind; [exact Hs|]. intros v' _. pose proof (Hcb s1 s2 v' Hs) as H.
    destruct (cb1 s1 v') as [s1' [g1 e1]], (cb2 s2 v') as [s2' [g2 e2]]. cbn in H. destruct H as [H E]. injection E as -> ->.
    destruct e2; [cbn; auto|]. destruct g2; [apply IH; exact H|cbn; auto].
  Qed.
  Lemma IterateArray_alike json cb1 cb2 path s1 s2 :
    (forall s1 s2 v, R s1 s2 -> R (fst (cb1 s1 v)) (fst (cb2 s2 v)) /\ snd (cb1 s1 v) = snd (cb2 s2 v)) -> R s1 s2 ->
    alike (IterateArray json cb1 path s1) (IterateArray json cb2 path s2).
  Proof.
    intros Hcb Hs. unfold IterateArray. destruct (length json <? 2)%nat; [cbn; auto|]. destruct (length json =? 2)%nat; [destruct (bytes_eqb json (b "[]")); cbn; auto|].
    apply alike_ibind; [exact Hs|]. intros st _. apply alike_ibind; [exact Hs|]. intros c _. destruct (c =? 91); [|cbn; auto]. apply iter_arr_alike; assumption.
  Qed.

  Lemma iter_kv_alike json cb1 cb2 rest :
    (forall s1 s2 k v, R s1 s2 -> R (fst (cb1 s1 k v)) (fst (cb2 s2 k v)) /\ snd (cb1 s1 k v) = snd (cb2 s2 k v)) ->
    forall i start end_ level ks ke inq key s1 s2, R s1 s2 ->
    alike (iter_kv json cb1 rest i start end_ level ks ke inq key s1) (iter_kv json cb2 rest i start end_ level ks ke inq key s2).
  Proof.
    intro Hcb. induction rest as [|c r IH]; intros i start end_ level ks ke inq key s1 s2 Hs; cbn [iter_kv]; [cbn; auto|].
    destruct (c =? 34). { destruct inq; [|apply IH; exact Hs]. destruct (qscan json i) as [[|]|]; try (apply IH; exact Hs); cbn; auto. }
    destruct inq; [apply IH; exact Hs|]. destruct (is_open c); [apply IH; exact Hs|].
    destruct (is_close c).
    { destruct ((c =? 125) && (level =? 1)%nat).
      - apply alike_ibind; [exact Hs|]. intros v _. cbn. split; [|reflexivity]. apply Hcb. exact Hs.
      - destruct (level =? 1)%nat; [cbn; auto|apply IH; exact Hs]. }
    destruct ((level =? 1)%nat && (c =? 44)).
    { apply alike_ibind; [exact Hs|]. intros v _. pose proof (Hcb s1 s2 key v Hs) as H.
      destruct (cb1 s1 key v) as [s1' [g1 e1]], (cb2 s2 key v) as [s2' [g2 e2]]. cbn in H. destruct H as [H E]. injection E as -> ->.
      destruct e2; [cbn; auto|]. destruct g2; [apply IH; exact H|cbn; auto]. }
    destruct ((level =? 1)%nat && (c =? 58)); [|apply IH; exact Hs]. apply alike_ibind; [exact Hs|]. intros v _. apply IH. exact Hs.
  Qed.
  Lemma IterateKeyValue_alike json cb1 cb2 path s1 s2 :
    (forall s1 s2 k v, R s1 s2 -> R (fst (cb1 s1 k v)) (fst (cb2 s2 k v)) /\ snd (cb1 s1 k v) = snd (cb2 s2 k v)) -> R s1 s2 ->
    alike (IterateKeyValue json cb1 path s1) (IterateKeyValue json cb2 path s2).
  Proof.
    intros Hcb Hs. unfold IterateKeyValue. destruct (bytes_eqb json (b "{}")); [cbn; auto|]. apply alike_ibind; [exact Hs|]. intros st _.
    apply alike_ibind; [exact Hs|]. intros c _. destruct (c =? 123); [|cbn; auto]. apply iter_kv_alike; assumption.
  Qed.
End Sim.

Section WalkSim.
  Context {St : Type}.
  Variables (grow : nat -> nat) (pf : bytes -> bool) (D : nat).
  Hypothesis Hgrow : forall n, 0 < n <= D -> grow n = 0.
  Variable cb : St -> bytes -> bytes -> list bytes -> St * (bool * option err).
  Variable json : bytes.

  (** The slices walk works with: short ones have no spare capacity. *)
  Definition tight (q : slc) : Prop := s_off q = 0 /\ (s_len q <= D -> s_cap q = s_len q).

  Definition grown (p : slc) (h h' : heap) : Prop :=
    length h <= length h' /\
    (forall a, a < length h -> length (array h' a) = length (array h a)) /\
    (forall a, a < length h -> a <> s_arr p -> array h' a = array h a) /\
    firstn (s_end p) (array h' (s_arr p)) = firstn (s_end p) (array h (s_arr p)) /\
    (forall a, a < length h -> firstn (S D) (array h' a) = firstn (S D) (array h a)).

  Lemma grown_refl p h : grown p h h.
  Proof. repeat split; auto. Qed.
  Lemma grown_trans p h h1 h2 : s_arr p < length h -> grown p h h1 -> grown p h1 h2 -> grown p h h2.
  Proof.
    intros Hp (A1 & A2 & A3 & A4 & A5) (B1 & B2 & B3 & B4 & B5). repeat split.
    - lia.
    - intros a Ha. rewrite B2, A2 by lia. reflexivity.
    - intros a Ha Hn. rewrite B3, A3 by (auto; lia). reflexivity.
    - rewrite B4, A4. reflexivity.
    - intros a Ha. rewrite B5, A5 by lia. reflexivity.
  Qed.
  Lemma firstn_less {A} n m (l l' : list A) : n <= m -> firstn m l = firstn m l' -> firstn n l = firstn n l'.
  Proof. intros H E. rewrite <- (Nat.min_l n m H), <- !firstn_firstn, E. reflexivity. Qed.

  Lemma append_tight h p x h1 p1 : slc_ok h p -> tight p -> append1 grow h p x = (h1, p1) -> slc_ok h1 p1 /\ tight p1 /\ view h1 p1 = view h p ++ [x].
  Proof.
    intros Hp [T1 T2] Ha. destruct (append_view _ _ _ _ _ _ Hp Ha) as [Ho Hv]. split; [exact Ho|]. split; [|exact Hv].
    unfold append1 in Ha. destruct (Nat.ltb_spec (s_len p) (s_cap p)) as [Hl|Hl].
    - injection Ha as <- <-. unfold tight. cbn. split; [exact T1|]. intro Hd. specialize (T2 ltac:(lia)). lia.
    - unfold alloc in Ha. injection Ha as <- <-. unfold tight. cbn. split; [reflexivity|]. rewrite app_length, view_len by exact Hp. cbn [length].
      intro Hd. rewrite Hgrow by lia. lia.
  Qed.

  Lemma grown_child h p x h1 p1 h2 : slc_ok h p -> tight p -> append1 grow h p x = (h1, p1) -> grown p1 h1 h2 -> grown p h h2.
  Proof.
    intros (P1 & P2 & P3) [T1 T2] Ha (B1 & B2 & B3 & B4 & B5). unfold append1 in Ha. destruct (Nat.ltb_spec (s_len p) (s_cap p)) as [Hl|Hl].
    - injection Ha as <- <-. assert (Hd : D < s_len p) by (destruct (Nat.lt_ge_cases D (s_len p)); [assumption|specialize (T2 ltac:(assumption)); lia]).
      unfold s_end in *. cbn [s_arr s_off s_len] in *. rewrite put_nth_len in *.
      assert (A : forall a, array (put_nth (s_arr p) (put_nth (s_off p + s_len p) x (array h (s_arr p))) h) a =
         if s_arr p =? a then put_nth (s_off p + s_len p) x (array h (s_arr p)) else array h a) by (intro a; apply array_put; exact P1).
      repeat split.
      + exact B1.
      + intros a Ha. rewrite B2, A by exact Ha. destruct (Nat.eqb_spec (s_arr p) a) as [<-|]; [apply put_nth_len|reflexivity].
      + intros a Ha Hn. rewrite B3, A by assumption. destruct (Nat.eqb_spec (s_arr p) a) as [E|]; [congruence|reflexivity].
      + rewrite A, Nat.eqb_refl in B4. apply (firstn_less (s_end p)) in B4; [|unfold s_end; lia]. unfold s_end in *. rewrite B4. apply put_nth_firstn. lia.
      + intros a Ha. rewrite B5, A by exact Ha. destruct (Nat.eqb_spec (s_arr p) a) as [<-|]; [|reflexivity]. apply put_nth_firstn. lia.
    - unfold alloc in Ha. injection Ha as <- <-. rewrite app_length in B1. cbn [length s_arr] in *.
      assert (A : forall a, a < length h -> array h2 a = array h a).
      { intros a Ha. rewrite B3 by (rewrite ?app_length; cbn [length]; lia). apply array_app. exact Ha. }
      repeat split; intros; rewrite ?A by assumption; auto. lia.
  Qed.

  Definition remembered (h : heap) (log : list (slc * list bytes)) : Prop :=
    Forall (fun e => slc_ok h (fst e) /\ s_off (fst e) = 0 /\ length (snd e) = s_len (fst e) /\ (s_len (fst e) <= S D -> view h (fst e) = snd e)) log.

  Lemma remembered_grown p h h' log : grown p h h' -> remembered h log -> remembered h' log.
  Proof.
    intros (B1 & B2 & B3 & B4 & B5). apply Forall_impl. intros [q v] ((Q1 & Q2 & Q3) & Q4 & Q5 & Q6). cbn [fst snd] in *.
    split; [|split; [exact Q4|split; [exact Q5|]]].
    - repeat split; try lia. rewrite B2 by exact Q1. exact Q3.
    - intro Hl. rewrite <- (Q6 Hl). unfold view. rewrite Q4. cbn [skipn]. apply (firstn_less _ (S D)); [exact Hl|]. apply B5. exact Q1.
  Qed.

  Lemma grown_view p h h' : slc_ok h p -> s_off p = 0 -> grown p h h' -> slc_ok h' p /\ view h' p = view h p.
  Proof.
    intros (Q1 & Q2 & Q3) Q4 (B1 & B2 & B3 & B4 & B5). split.
    - repeat split; try lia. rewrite B2 by exact Q1. exact Q3.
    - unfold view. unfold s_end in B4. rewrite Q4 in *. exact B4.
  Qed.

  Definition same_walk (p : slc) (h : heap) (r1 : wres (heap * (St * list (slc * list bytes)))) (r2 : wres (St * list (list bytes))) : Prop :=
    match r1, r2 with
    | WDone (h', (s1, log)) e1, WDone (s2, l) e2 =>
        s1 = s2 /\ e1 = e2 /\ map snd log = l /\ grown p h h' /\ remembered h' log
    | WPanic, WPanic => True
    | WFuel, WFuel => True
    | _, _ => False
    end.

  Definition related (p : slc) (h : heap) (w1 : wst (St := heap * (St * list (slc * list bytes)))) (w2 : wst (St := St * list (list bytes))) : Prop :=
    match w1, w2 with
    | Live (h', (s1, log)) i, Live (s2, l) j => s1 = s2 /\ i = j /\ map snd log = l /\ grown p h h' /\ remembered h' log
    | Dead WPanic, Dead WPanic => True
    | Dead WFuel, Dead WFuel => True
    | _, _ => False
    end.

  Lemma after_same p h r1 r2 : alike (related p h) r1 r2 -> same_walk p h (after r1) (after r2).
  Proof.
    destruct r1 as [w1 e1|], r2 as [w2 e2|]; cbn [alike]; try tauto; intro H.
    destruct H as [H <-]. destruct w1 as [[h' [s1 log]] i|[| |]], w2 as [[s2 l] j|[| |]]; cbn in *; tauto.
  Qed.

  Lemma walkH_same fuel : forall p h s log, slc_ok h p -> tight p -> remembered h log ->
    same_walk p h (walkH grow pf fuel json p (keeping cb) (h, (s, log))) (walk pf fuel json (view h p) (noting cb) (s, map snd log)).
  Proof.
    induction fuel as [|fuel IH]; intros p h s log Hp Ht Hr; [exact I|]. cbn [walkH walk].
    destruct (GetType pf json (view h p)) as [t|e|] eqn:E; [|cbn; auto using grown_refl|exact I].
    assert (Hb : forall (x : nat -> bytes) w1 w2, related p h w1 w2 ->
      related p h (fst (below w1 (fun '(h, s) i => let '(h, path) := append1 grow h p (x i) in walkH grow pf fuel json path (keeping cb) (h, s))))
                  (fst (below w2 (fun s i => walk pf fuel json (view h p ++ [x i]) (noting cb) s))) /\
      snd (below w1 (fun '(h, s) i => let '(h, path) := append1 grow h p (x i) in walkH grow pf fuel json path (keeping cb) (h, s))) =
      snd (below w2 (fun s i => walk pf fuel json (view h p ++ [x i]) (noting cb) s))).
    { intros x w1 w2 Hw. destruct w1 as [[h' [s1 log1]] i|[| |]], w2 as [[s2 l] j|[| |]]; cbn [related] in Hw; try contradiction; try (cbn; auto; fail).
      destruct Hw as (<- & <- & <- & Hg & Hr'). cbn [below]. destruct (grown_view p h h' Hp (proj1 Ht) Hg) as [Hp' Hv'].
      destruct (append1 grow h' p (x i)) as [h1 p1] eqn:Ea. destruct (append_tight _ _ _ _ _ Hp' Ht Ea) as (Hp1 & Ht1 & Hv1).
      assert (Hr1 : remembered h1 log1).
      { eapply remembered_grown; [|exact Hr']. eapply (grown_child h' p (x i) h1 p1 h1 Hp' Ht Ea). apply grown_refl. }
      specialize (IH p1 h1 s1 log1 Hp1 Ht1 Hr1). rewrite Hv1, Hv' in IH.
      destruct (walkH grow pf fuel json p1 (keeping cb) (h1, (s1, log1))) as [[h2 [s3 log3]] e3| |],
               (walk pf fuel json (view h p ++ [x i]) (noting cb) (s1, map snd log1)) as [[s4 l4] e4| |]; cbn [same_walk] in IH; try contradiction; try (cbn; auto; fail).
      destruct IH as (<- & <- & <- & Hg2 & Hr2).
      assert (Hg3 : grown p h h2) by (eapply grown_trans; [exact (proj1 Hp)|exact Hg|]; eapply grown_child; eassumption).
      destruct e3; cbn; auto 10. }
    destruct t.
    3-6: (destruct (Get json (view h p)) as [v|e|]; [|cbn; auto using grown_refl|exact I]; unfold keeping, noting; cbn [fst snd];
      destruct (cb s (last (view h p) []) v (view h p)) as [s' [g e]]; cbn; rewrite map_app;
      split; [reflexivity|]; split; [reflexivity|]; split; [reflexivity|]; split; [apply grown_refl|];
      apply Forall_app; split; [exact Hr|]; constructor; [|constructor]; cbn [fst snd];
      split; [exact Hp|]; split; [exact (proj1 Ht)|]; split; [apply view_len; exact Hp|]; intros _; reflexivity).
    - apply after_same. apply IterateArray_alike; [|cbn; auto using grown_refl]. intros w1 w2 v Hw. exact (Hb (fun i => itoa (Z.of_nat i)) w1 w2 Hw).
    - apply after_same. apply IterateKeyValue_alike; [|cbn; auto using grown_refl]. intros w1 w2 k v Hw. exact (Hb (fun _ => k) w1 w2 Hw).
  Qed.

  Theorem WalkH_same h s :
    match WalkH grow pf h json (keeping cb) (s, []), Walk pf json (noting cb) (s, []) with
    | WDone (h', (s1, kept)) e1, WDone (s2, paths) e2 =>
        s1 = s2 /\ e1 = e2 /\ (exists l, h' = h ++ l) /\ map snd kept = paths /\
        Forall (fun e => length (snd e) <= S D -> view h' (fst e) = snd e) kept
    | WPanic, WPanic => True
    | WFuel, WFuel => True
    | _, _ => False
    end.
  Proof.
    unfold WalkH, Walk, alloc. cbn [length app repeat Nat.add].
    set (h1 := h ++ [[]]). set (p := Slc (length h) 0 0 0).
    assert (Hp : slc_ok h1 p).
    { unfold slc_ok, p, h1. cbn. rewrite app_length. cbn. lia. }
    pose proof (walkH_same (S (S (length json))) p h1 s [] Hp ltac:(split; [reflexivity|intros _; reflexivity]) ltac:(constructor)) as H.
    change (view h1 p) with (@nil bytes) in H. cbn [map] in H.
    match type of H with same_walk _ _ ?r1 ?r2 => destruct r1 as [[h2 [s3 log3]] e3| |], r2 as [[s4 l4] e4| |] end; cbn [same_walk] in H; try contradiction; try exact I.
    destruct H as (<- & <- & <- & Hg & Hr). split; [reflexivity|]. split; [reflexivity|]. split; [|split; [reflexivity|]].
    - exists (skipn (length h) h2). destruct Hg as (B1 & _ & B3 & _). unfold h1 in *. rewrite app_length in B1. cbn in B1.
      rewrite <- (firstn_skipn (length h) h2) at 1. f_equal. apply (nth_ext _ _ [] []); [rewrite firstn_length; lia|].
      rewrite firstn_length. intros n Hn. specialize (B3 n). cbn in B3. unfold array in B3. rewrite app_length, app_nth1 in B3 by lia.
      rewrite <- B3 by (cbn; lia). clear -Hn. revert h2 n Hn. induction (length h) as [|m IH]; intros [|a l] [|n] H; cbn in *; try lia; [reflexivity|]. apply IH. lia.
    - eapply Forall_impl; [|exact Hr]. intros [q v] (_ & _ & E & Hv). cbn [fst snd] in *. rewrite E. exact Hv.
  Qed.
End WalkSim.
