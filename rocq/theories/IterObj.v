(** Object listing and iteration against the trees. *)
From Coq Require Import String.
From Verif Require Import GoStd Json SpecIter SpecList Core Skip Focus CoreProofs Errors Api ApiProofs Iter IterProofs.

Local Open Scope N_scope.

(** ** Loops that remember where the last string started and ended *)
Section Head.
  Variable json : bytes.
  Variable R : Type.
  Variable L : bytes -> nat -> bool -> nat -> nat * nat -> R.
  Hypothesis SC : scanner json R (nat * nat) L 1.
  Hypothesis H_o : forall pre r l ks ke, json = pre ++ 34 :: r ->
    L (34 :: r) (length pre) false l (ks, ke) = L r (S (length pre)) true l (length pre, ke).
  Hypothesis H_c : forall pre r l ks ke, json = pre ++ 34 :: r -> qscan json (length pre) = Some true ->
    L (34 :: r) (length pre) true l (ks, ke) = L r (S (length pre)) false l (ks, length pre).
  Hypothesis H_w : forall pre c r l e, json = pre ++ c :: r -> plain c = true ->
    L (c :: r) (length pre) false l e = L r (S (length pre)) false l e.

  Lemma ws_exact w : forall pre r e, ws_ok w = true -> json = pre ++ w ++ r ->
    L (w ++ r) (length pre) false 1 e = L r (length (pre ++ w)) false 1 e.
  Proof.
    induction w as [|c w IH]; intros pre r e Hw Hj; [rewrite app_nil_r; reflexivity|].
    cbn [ws_ok forallb] in Hw. apply andb_true_iff in Hw. destruct Hw as [Hc Hw].
    cbn [app]. rewrite (H_w pre c (w ++ r) 1 e Hj) by (apply ws_plain; assumption).
    rewrite <- length_snoc with (c := c). rewrite IH; [rewrite <- app_assoc; reflexivity|exact Hw|].
    rewrite Hj. same_text.
  Qed.

  Lemma head_pass pre m r e : mem_ok m = true -> nobs pre -> json = pre ++ mem_head m ++ r ->
    L (mem_head m ++ r) (length pre) false 1 e =
    L r (length (pre ++ mem_head m)) false 1 (length (pre ++ m_pre m), length (pre ++ m_pre m ++ 34 :: m_key m)).
  Proof.
    unfold mem_ok, mem_head. intros Hok Hn Hj. nbool.
    rewrite <- app_assoc in *. rewrite ws_exact by assumption.
    cbn [app] in *. destruct e as [ks ke].
    assert (Hj1 : json = (pre ++ m_pre m) ++ 34 :: m_key m ++ 34 :: m_mid m ++ r)
      by (rewrite Hj; same_text).
    rewrite <- app_assoc. cbn [app]. rewrite (H_o _ _ 1 ks ke Hj1).
    rewrite (str_skip json R (fun r i => L r i true 1%nat (length (pre ++ m_pre m), ke)))
      with (pre := pre ++ m_pre m) (post := 34 :: m_mid m ++ r).
    - assert (Hj2 : json = ((pre ++ m_pre m) ++ 34 :: m_key m) ++ 34 :: m_mid m ++ r)
        by (rewrite Hj1; same_text).
      rewrite (H_c _ _ _ _ _ Hj2).
      + rewrite <- length_snoc with (c := 34). rewrite ws_exact; [|assumption|rewrite Hj2; same_text].
        f_equal; [len|]. f_equal. len.
      + rewrite Hj1. apply qscan_close. assumption.
    - intros. apply (H_in _ _ _ _ _ SC); [assumption|assumption|lia].
    - intros. apply (H_esc _ _ _ _ _ SC); [assumption|lia|assumption].
    - assumption.
    - exact Hj1.
  Qed.

  (** The value of the member is passed over. *)
  Lemma tail_pass pre m r e : mem_ok m = true -> nobs pre -> json = pre ++ mem_tail m ++ r ->
    exists e', L (mem_tail m ++ r) (length pre) false 1 e = L r (length (pre ++ mem_tail m)) false 1 e'.
  Proof.
    unfold mem_ok, mem_tail. intros Hok Hn Hj. nbool.
    assert (Hs : Skips json R (nat * nat) L 1 0 (m_mid2 m ++ render (m_val m) ++ m_post m)).
    { apply Skips_app; [apply Skips_ws; assumption|].
      apply Skips_app; [apply Skips_val; assumption|apply Skips_ws; assumption]. }
    destruct (Hs pre r 1%nat e Hj Hn ltac:(lia)) as [_ [e' E]]. exists e'. exact E.
  Qed.
End Head.

(** ** The value between the colon and the comma *)
Lemma find_first (f : nat -> bool) a n k : (k < n)%nat -> (forall j, (j < k)%nat -> f (a + j)%nat = false) ->
  f (a + k)%nat = true -> find f (seq a n) = Some (a + k)%nat.
Proof.
  revert a k. induction n as [|n IH]; intros a k Hk Hf Ht; [lia|]. cbn [seq find].
  destruct k as [|k].
  - rewrite Nat.add_0_r in *. rewrite Ht. reflexivity.
  - pose proof (Hf O ltac:(lia)) as H0. rewrite Nat.add_0_r in H0. rewrite H0.
    rewrite (IH (S a) k); [f_equal; lia|lia| |].
    + intros j Hj. specialize (Hf (S j) ltac:(lia)). rewrite <- Hf. f_equal. lia.
    + rewrite <- Ht. f_equal. lia.
Qed.

Lemma find_last (f : nat -> bool) a n k : (k < n)%nat -> (forall j, (k < j < n)%nat -> f (a + j)%nat = false) ->
  f (a + k)%nat = true -> find f (rev (seq a n)) = Some (a + k)%nat.
Proof.
  revert k. induction n as [|n IH]; intros k Hk Hf Ht; [lia|].
  rewrite seq_S, rev_app_distr. cbn [rev app find].
  destruct (Nat.eq_dec k n) as [->|Hne].
  - rewrite Ht. reflexivity.
  - rewrite (Hf n) by lia. apply IH; [lia| |exact Ht]. intros j Hj. apply Hf. lia.
Qed.

Lemma find_none_rev (f : nat -> bool) a n : (forall j, (j < n)%nat -> f (a + j)%nat = false) ->
  find f (rev (seq a n)) = None.
Proof.
  intro Hf. induction n as [|n IH]; [reflexivity|]. rewrite seq_S, rev_app_distr. cbn [rev app find].
  rewrite Hf by lia. apply IH. intros j Hj. apply Hf. lia.
Qed.

Lemma nth_ws p w r j : ws_ok w = true -> (j < length w)%nat ->
  negb (space (nth (length p + j) (p ++ w ++ r) 0)) = false.
Proof.
  intros Hw Hj. rewrite app_nth2 by lia. replace (length p + j - length p)%nat with j by lia.
  rewrite app_nth1 by lia. rewrite <- is_ws_space. apply negb_false_iff.
  unfold ws_ok in Hw. rewrite forallb_forall in Hw. apply Hw. apply nth_In. exact Hj.
Qed.

Lemma nth_at {A} (p : list A) c r d : nth (length p) (p ++ c :: r) d = c.
Proof. rewrite app_nth2, Nat.sub_diag by lia. reflexivity. Qed.

Section Trim.
  Variables (json p u w r : bytes) (v : jv).
  Hypothesis Hu : ws_ok u = true.
  Hypothesis Hv : wf v = true.
  Hypothesis Hw : ws_ok w = true.
  Hypothesis Hj : json = p ++ u ++ render v ++ w ++ r.

  Lemma render_len : (1 <= length (render v))%nat.
  Proof. destruct (render_cons v Hv) as (c & t & E & _). rewrite E. cbn. lia. Qed.

  Lemma fwd_trim_value : fwd_trim json (length p) (length (p ++ u ++ render v ++ w)) = length (p ++ u).
  Proof.
    destruct (render_cons v Hv) as (c & t & E & Hc).
    unfold fwd_trim. rewrite (find_first _ _ _ (length u)).
    - len.
    - rewrite E. len.
    - intros j Hjj. rewrite Hj. apply nth_ws; assumption.
    - rewrite Hj, E. replace (length p + length u)%nat with (length (p ++ u)) by len.
      rewrite app_assoc. cbn [app]. rewrite nth_at, <- is_ws_space, Hc. reflexivity.
  Qed.

  Lemma last_pos lo dflt : (lo <= length (render v) - 1)%nat ->
    back_trim json (length (p ++ u) + lo) (length (p ++ u ++ render v ++ w)) dflt = pred (length (p ++ u ++ render v)).
  Proof.
    intro Hlo. pose proof render_len as Hlen. destruct (render_snoc v Hv) as (t & c & E & Hc).
    unfold back_trim. rewrite (find_last _ _ _ (length (render v) - 1 - lo)).
    - len.
    - len.
    - intros j Hjj. rewrite Hj.
      replace (p ++ u ++ render v ++ w ++ r) with ((p ++ u ++ render v) ++ w ++ r) by same_text.
      replace (length (p ++ u) + lo + j)%nat with (length (p ++ u ++ render v) + (j - (length (render v) - lo)))%nat
        by (len).
      apply nth_ws; [assumption|]. revert Hjj. len.
    - rewrite Hj, E.
      replace (p ++ u ++ (t ++ [c]) ++ w ++ r) with ((p ++ u ++ t) ++ c :: w ++ r) by same_text.
      replace (length (p ++ u) + lo + (length (t ++ [c]) - 1 - lo))%nat with (length (p ++ u ++ t))
        by (rewrite E in *; rewrite app_length in *; cbn [length] in *; len).
      rewrite nth_at, <- is_ws_space, Hc. reflexivity.
  Qed.

  Lemma kv_value_exact : kv_value json (length (p ++ u)) (pred (length (p ++ u ++ render v))) = Ok (bare v).
  Proof.
    pose proof render_len as Hlen.
    destruct (render_cons v Hv) as (c & t & E & Hc). destruct (render_snoc v Hv) as (t2 & c2 & E2 & Hc2).
    unfold kv_value. rewrite (at_app_eq _ (p ++ u) c (t ++ w ++ r)) by (rewrite ?Hj, ?E; try same_text; reflexivity).
    cbn [bind].
    pose proof (render_hd v 0 Hv) as Hhd. rewrite E in Hhd. cbn [hd] in Hhd. rewrite Hhd.
    assert (Hsl : slice json (length (p ++ u)) (S (pred (length (p ++ u ++ render v)))) = Ok (render v)).
    { apply (slice_app_eq _ (p ++ u) (render v) (w ++ r)); [rewrite Hj; same_text|reflexivity|].
      revert Hlen. len. }
    destruct v as [s|s|w0 els|w0 ms]; try exact Hsl. clear Hsl.
    rewrite (at_app_eq _ (p ++ u ++ 34 :: s) 34 (w ++ r)); [|rewrite Hj; cbn [render]; same_text|cbn [render]; len].
    cbn [bind N.eqb Pos.eqb bare]. apply (slice_app_eq _ (p ++ u ++ [34]) s (34 :: w ++ r));
      [rewrite Hj; cbn [render]; same_text|len|cbn [render]; len].
  Qed.

  Lemma kv_value_loose : length (render v) = 1%nat ->
    kv_value json (length (p ++ u)) (pred (length (p ++ u ++ render v ++ w))) = Ok (render v ++ w).
  Proof.
    intro Hl. destruct (render_cons v Hv) as (c & t & E & Hc).
    unfold kv_value. rewrite (at_app_eq _ (p ++ u) c (t ++ w ++ r)) by (rewrite ?Hj, ?E; try same_text; reflexivity).
    cbn [bind].
    pose proof (render_hd v 0 Hv) as Hhd. rewrite E in Hhd. cbn [hd] in Hhd. rewrite Hhd.
    assert (Hsl : slice json (length (p ++ u)) (S (pred (length (p ++ u ++ render v ++ w)))) = Ok (render v ++ w)).
    { apply (slice_app_eq _ (p ++ u) (render v ++ w) r); [rewrite Hj; same_text|reflexivity|].
      revert Hl. len. }
    destruct v as [s|s|w0 els|w0 ms]; try exact Hsl.
    exfalso. cbn [render] in Hl. cbn [length] in Hl. rewrite app_length in Hl. cbn in Hl. lia.
  Qed.
End Trim.

Lemma shown_tight m : wf (m_val m) = true -> tight m -> shown m = bare (m_val m).
Proof.
  unfold shown, tight. intros Hw H. destruct (Nat.eqb_spec (length (render (m_val m))) 1) as [E|]; [|reflexivity].
  destruct H as [->|H]; [|lia]. rewrite app_nil_r. destruct (m_val m) as [s|s|w els|w ms]; try reflexivity.
  exfalso. cbn [render length] in E. rewrite app_length in E. cbn in E. lia.
Qed.

(** ** IterateKeyValue *)
Section IterKV.
  Context {St : Type}.
  Variable cb : St -> bytes -> bytes -> St * (bool * option err).

  Lemma iter_kv_scan json start end_ key s :
    scanner json (itres St) (nat * nat)
      (fun r i q l e => iter_kv json cb r i start end_ l (fst e) (snd e) q key s) 1.
  Proof.
    constructor; intros.
    - cbn [iter_kv]. pose proof H0 as H'. apply plain_neq in H'.
      rewrite (plain_not_open _ H0), (plain_not_close _ H0), !eqb_false by tauto.
      rewrite !andb_false_r. reflexivity.
    - cbn [iter_kv]. rewrite (eqb_false c 34) by assumption. reflexivity.
    - cbn [iter_kv]. rewrite H1. reflexivity.
    - exists (length pre, snd e). reflexivity.
    - exists (fst e, length pre). cbn [iter_kv]. rewrite H1. reflexivity.
    - exists e. apply open_cases in H0. destruct H0; subst c; reflexivity.
    - exists e. apply close_cases in H0.
      assert (E : (S l =? 1)%nat = false) by (apply Nat.eqb_neq; lia).
      destruct H0; subst c; cbn -[Nat.eqb]; rewrite ?E; reflexivity.
    - exists e. assert (E : (l =? 1)%nat = false) by (apply Nat.eqb_neq; lia).
      destruct H0; subst c; cbn -[Nat.eqb]; rewrite ?E; reflexivity.
  Qed.

  Lemma iter_kv_member json m pre r start end_ ks ke key s :
    mem_ok m = true -> nobs pre -> json = pre ++ mem_text m ++ r ->
    exists ks' ke',
    iter_kv json cb (mem_text m ++ r) (length pre) start end_ 1 ks ke false key s =
    iter_kv json cb r (length (pre ++ mem_text m)) (length (pre ++ mem_head m ++ [58])) end_ 1 ks' ke' false (m_key m) s.
  Proof.
    intros Hok Hn Hj. rewrite mem_text_split in *. rewrite <- app_assoc in *. cbn [app] in *.
    rewrite (head_pass json _ _ (iter_kv_scan json start end_ key s)) with (e := (ks, ke)); try assumption.
    2:{ intros. reflexivity. }
    2:{ intros. cbn [iter_kv]. cbn [fst snd]. rewrite H0. reflexivity. }
    2:{ intros pre0 c r0 l e HH Hp. cbn [iter_kv]. pose proof Hp as H'. apply plain_neq in H'.
        rewrite (plain_not_open _ Hp), (plain_not_close _ Hp), !eqb_false by tauto.
        rewrite !andb_false_r. reflexivity. }
    cbn [fst snd iter_kv].
    change (58 =? 34) with false. change (is_open 58) with false. change (is_close 58) with false.
    change (58 =? 44) with false. cbn [andb Nat.eqb N.eqb Pos.eqb].
    rewrite (slice_app_eq _ ((pre ++ m_pre m) ++ [34]) (m_key m) (34 :: m_mid m ++ 58 :: mem_tail m ++ r));
      [|rewrite Hj; unfold mem_head; same_text|len|len].
    cbn [ibind].
    rewrite <- length_snoc with (c := 58).
    destruct (tail_pass json _ _ (iter_kv_scan json (length ((pre ++ mem_head m) ++ [58])) end_ (m_key m) s)
       ((pre ++ mem_head m) ++ [58]) m r (length (pre ++ m_pre m), length (pre ++ m_pre m ++ 34 :: m_key m)))
       as [[ks' ke'] E]; [exact Hok|apply nobs_snoc; discriminate|rewrite Hj; same_text|].
    cbn [fst snd] in E. exists ks', ke'. rewrite E. f_equal; [len|]. len.
  Qed.

  Lemma iter_kv_run json ms : forall pre post start end_ ks ke key s,
    ms <> [] -> forallb mem_ok ms = true -> nobs pre ->
    json = pre ++ join (map mem_text ms) ++ 125 :: post ->
    iter_kv json cb (join (map mem_text ms) ++ 125 :: post) (length pre) start end_ 1 ks ke false key s =
    IDone (fst (visit (uncurry2 cb) (shown_pairs ms) s)) (snd (visit (uncurry2 cb) (removelast (shown_pairs ms)) s)).
  Proof.
    induction ms as [|m l IH]; [contradiction|]. intros pre post start end_ ks ke key s _ Hok Hn Hj.
    cbn [forallb] in Hok. apply andb_true_iff in Hok. destruct Hok as [Hm Hl].
    cbn [map] in *. rewrite join_cons in *. rewrite <- app_assoc in *.
    destruct (iter_kv_member json m pre (jpost (map mem_text l) ++ 125 :: post) start end_ ks ke key s Hm Hn Hj)
      as (ks' & ke' & E). rewrite E. clear E.
    set (pc := pre ++ mem_head m ++ [58]).
    assert (Ht : pre ++ mem_text m = pc ++ m_mid2 m ++ render (m_val m) ++ m_post m).
    { subst pc. rewrite mem_text_split. unfold mem_tail. same_text. }
    assert (Hj2 : json = pc ++ m_mid2 m ++ render (m_val m) ++ m_post m ++ jpost (map mem_text l) ++ 125 :: post).
    { rewrite Hj, app_assoc, Ht. same_text. }
    rewrite Ht. unfold mem_ok in Hm. nbool.
    destruct l as [|m2 l].
    - cbn [map jpost concat app iter_kv] in *.
      change (125 =? 34) with false. change (is_open 125) with false. change (is_close 125) with true.
      cbn [andb Nat.eqb N.eqb Pos.eqb].
      rewrite (fwd_trim_value json pc (m_mid2 m) (m_post m) (125 :: post) (m_val m)) by assumption.
      pose proof (last_pos json pc (m_mid2 m) (m_post m) (125 :: post) (m_val m)) as HL.
      specialize (HL ltac:(assumption) ltac:(assumption) Hj2 O end_ ltac:(lia)).
      rewrite Nat.add_0_r in HL. rewrite HL.
      rewrite (kv_value_exact json pc (m_mid2 m) (m_post m) (125 :: post) (m_val m)) by assumption.
      cbn [ibind shown_pairs removelast visit fst snd uncurry2].
      unfold uncurry2. cbn [fst snd].
      destruct (cb s (m_key m) (bare (m_val m))) as [s' [go [er|]]]; [reflexivity|]. destruct go; reflexivity.
    - cbn [map] in *. rewrite jpost_cons in *. cbn [app iter_kv] in *.
      change (44 =? 34) with false. change (is_open 44) with false. change (is_close 44) with false.
      cbn [andb Nat.eqb N.eqb Pos.eqb].
      match type of Hj2 with _ = _ ++ _ ++ _ ++ _ ++ ?rr => set (rest := rr) in * end.
      rewrite (fwd_trim_value json pc (m_mid2 m) (m_post m) rest (m_val m)) by assumption.
      assert (Hv : kv_value json (length (pc ++ m_mid2 m))
                (back_trim json (S (length (pc ++ m_mid2 m))) (length (pc ++ m_mid2 m ++ render (m_val m) ++ m_post m))
                   (pred (length (pc ++ m_mid2 m ++ render (m_val m) ++ m_post m)))) = Ok (shown m)).
      { unfold shown. pose proof (render_len (m_val m) ltac:(assumption)) as Hlen.
        destruct (Nat.eqb_spec (length (render (m_val m))) 1) as [E1|E1].
        - unfold back_trim. rewrite find_none_rev.
          + apply (kv_value_loose json pc (m_mid2 m) (m_post m) rest (m_val m)); assumption.
          + intros j Hjj. rewrite Hj2.
            replace (pc ++ m_mid2 m ++ render (m_val m) ++ m_post m ++ rest)
              with ((pc ++ m_mid2 m ++ render (m_val m)) ++ m_post m ++ rest) by same_text.
            replace (S (length (pc ++ m_mid2 m)) + j)%nat with (length (pc ++ m_mid2 m ++ render (m_val m)) + j)%nat by len.
            apply nth_ws; [assumption|]. revert Hjj. len.
        - pose proof (last_pos json pc (m_mid2 m) (m_post m) rest (m_val m)) as HL.
          specialize (HL ltac:(assumption) ltac:(assumption) Hj2 1%nat).
          rewrite Nat.add_1_r in HL. rewrite HL by lia.
          apply (kv_value_exact json pc (m_mid2 m) (m_post m) rest (m_val m)); assumption. }
      rewrite Hv. cbn [ibind].
      change (shown_pairs (m :: m2 :: l)) with ((m_key m, shown m) :: shown_pairs (m2 :: l)).
      assert (Hne : shown_pairs (m2 :: l) <> []) by (destruct l; discriminate).
      replace (removelast ((m_key m, shown m) :: shown_pairs (m2 :: l)))
        with ((m_key m, shown m) :: removelast (shown_pairs (m2 :: l)))
        by (destruct (shown_pairs (m2 :: l)); [contradiction|reflexivity]).
      cbn [visit]. change (uncurry2 cb s (m_key m, shown m)) with (cb s (m_key m) (shown m)).
      destruct (cb s (m_key m) (shown m)) as [s' [go [er|]]]; [reflexivity|]. destruct go; [|reflexivity].
      match goal with |- iter_kv _ _ ?r _ ?a ?e ?l' ?k1 ?k2 _ ?kk _ = _ =>
        specialize (IH ((pre ++ mem_text m) ++ [44]) post a e k1 k2 kk s') end.
      rewrite length_snoc in IH. rewrite join_cons in IH. rewrite Ht in IH.
      rewrite <- IH; [subst rest; reflexivity|discriminate|exact Hl| |].
      + apply nobs_snoc. discriminate.
      + rewrite Hj2. subst rest. same_text.
  Qed.
End IterKV.

Lemma obj_len d p pre w ms post : focus (d_val d) p pre (JObj w ms) post ->
  text d = b "{}" -> ms = [] /\ w = [] /\ p = [].
Proof.
  intros Hf E. pose proof (text_focus _ _ _ _ _ Hf) as Ht. rewrite E, render_obj in Ht. change (b "{}") with [123; 125] in Ht.
  destruct (d_pre d ++ pre) as [|c0 q] eqn:Ep; cbn [app] in Ht.
  - injection Ht as Ht. destruct w as [|c1 w]; cbn [app] in Ht.
    + destruct ms as [|m l].
      * split; [reflexivity|]. split; [reflexivity|]. inversion Hf; subst; [reflexivity| |].
        -- match goal with H : (?u ++ ?v ++ ?w)%list = [] |- _ => apply app_eq_nil in H; destruct H as [_ H]; discriminate end.
        -- match goal with H : (?u ++ ?v ++ ?w)%list = [] |- _ => apply app_eq_nil in H; destruct H as [_ H]; discriminate end.
      * exfalso. cbn [map] in Ht. rewrite join_cons in Ht. unfold mem_text in Ht.
        apply (f_equal (@length N)) in Ht. revert Ht. len.
    + exfalso. apply (f_equal (@length N)) in Ht. revert Ht. len.
  - exfalso. apply (f_equal (@length N)) in Ht. revert Ht. len.
Qed.

Lemma iterate_kv_enter {St} (cb : St -> bytes -> bytes -> St * (bool * option err)) d p pre w ms post s :
  wf_doc d = true -> focus (d_val d) p pre (JObj w ms) post -> text d <> b "{}" ->
  IterateKeyValue (text d) cb p s =
  iter_kv (text d) cb (w ++ join (map mem_text ms) ++ 125 :: post ++ d_post d) (S (length (d_pre d ++ pre)))
    (length (d_pre d ++ pre)) 0 1 0 0 false [] s.
Proof.
  intros Hw Hf Hne. unfold IterateKeyValue.
  destruct (bytes_eqb_spec (text d) (b "{}")) as [E|_]; [contradiction|].
  rewrite (start_of_present _ _ _ _ _ Hw Hf). cbn [ibind].
  rewrite (at_start _ _ _ _ _ 123 (w ++ join (map mem_text ms) ++ [125]) Hf eq_refl).
  cbn [ibind]. change (123 =? 123) with true. cbv beta iota.
  replace (skipn (length (d_pre d ++ pre)) (text d))
    with (123 :: w ++ join (map mem_text ms) ++ 125 :: post ++ d_post d).
  - reflexivity.
  - rewrite (text_focus _ _ _ _ _ Hf), render_obj. rewrite skipn_length_app. same_text.
Qed.

Lemma iterate_kv {St} (cb : St -> bytes -> bytes -> St * (bool * option err)) d p w ms s :
  wf_doc d = true -> lookup (d_val d) p = Some (JObj w ms) -> ms <> [] ->
  IterateKeyValue (text d) cb p s =
  IDone (fst (visit (uncurry2 cb) (shown_pairs ms) s)) (snd (visit (uncurry2 cb) (removelast (shown_pairs ms)) s)).
Proof.
  intros Hw Hl Hne. destruct (lookup_focus _ _ _ Hl) as (pre & post & Hf).
  pose proof (text_focus _ _ _ _ _ Hf) as Ht.
  assert (Hwa : wf (JObj w ms) = true) by (eapply focus_wf; [exact Hf|apply wf_doc_inv in Hw; tauto]).
  rewrite (iterate_kv_enter cb d p pre w ms post s Hw Hf).
  - rewrite app_assoc, join_absorb_m by assumption.
    replace (shown_pairs ms) with (shown_pairs (absorb_m w ms)) by (destruct ms as [|? [|]]; reflexivity).
    rewrite <- length_snoc with (c := 123).
    apply iter_kv_run.
    + destruct ms; [contradiction|discriminate].
    + apply absorb_m_ok. exact Hwa.
    + apply nobs_snoc. discriminate.
    + rewrite Ht, render_obj, <- join_absorb_m by assumption. same_text.
  - intro E. destruct (obj_len _ _ _ _ _ _ Hf E). contradiction.
Qed.

Lemma shown_pairs_tight ms : forallb mem_ok ms = true -> Forall tight (removelast ms) -> shown_pairs ms = pairs ms.
Proof.
  induction ms as [|m l IH]; [reflexivity|]. intros Hok Ht. cbn [forallb] in Hok. nbool.
  destruct l as [|m2 l]; [reflexivity|].
  change (removelast (m :: m2 :: l)) with (m :: removelast (m2 :: l)) in Ht. inversion Ht; subst.
  change (shown_pairs (m :: m2 :: l)) with ((m_key m, shown m) :: shown_pairs (m2 :: l)).
  rewrite IH by assumption. cbn [pairs map]. rewrite shown_tight; [reflexivity| |assumption].
  unfold mem_ok in H. nbool. assumption.
Qed.

(** ** GetKeys *)
Lemma keys_scan json :
  scanner json (res (list bytes)) (nat * nat) (fun r i q l e => keys_loop json r i l (fst e) (snd e) q) 1.
Proof.
  constructor; intros.
  - cbn [keys_loop]. pose proof H0 as H'. apply plain_neq in H'.
    rewrite (plain_not_open _ H0), (plain_not_close _ H0), !eqb_false by tauto. reflexivity.
  - cbn [keys_loop]. rewrite (eqb_false c 34) by assumption. reflexivity.
  - cbn [keys_loop]. rewrite H1. reflexivity.
  - exists (length pre, snd e). reflexivity.
  - exists (fst e, length pre). cbn [keys_loop]. rewrite H1. reflexivity.
  - exists e. apply open_cases in H0. destruct H0; subst c; reflexivity.
  - exists e. apply close_cases in H0.
    assert (E : (S l =? 1)%nat = false) by (apply Nat.eqb_neq; lia).
    destruct H0; subst c; cbn -[Nat.eqb]; rewrite ?E; reflexivity.
  - exists e. assert (E : (l =? 1)%nat = false) by (apply Nat.eqb_neq; lia).
    destruct H0; subst c; cbn -[Nat.eqb]; rewrite ?E; reflexivity.
Qed.

Lemma keys_run json ms : forall pre post ks ke,
  forallb mem_ok ms = true -> nobs pre ->
  json = pre ++ join (map mem_text ms) ++ 125 :: post ->
  keys_loop json (join (map mem_text ms) ++ 125 :: post) (length pre) 1 ks ke false = Ok (keys ms).
Proof.
  induction ms as [|m l IH]; intros pre post ks ke Hok Hn Hj; [reflexivity|].
  cbn [forallb] in Hok. apply andb_true_iff in Hok. destruct Hok as [Hm Hl].
  cbn [map] in *. rewrite join_cons in *. rewrite <- app_assoc in *.
  rewrite mem_text_split in *. rewrite <- app_assoc in *. cbn [app] in *.
  rewrite (head_pass json _ _ (keys_scan json)) with (e := (ks, ke)); try assumption.
  2:{ intros. reflexivity. }
  2:{ intros. cbn [keys_loop]. cbn [fst snd]. rewrite H0. reflexivity. }
  2:{ intros pre0 c r0 l0 e HH Hp. cbn [keys_loop]. pose proof Hp as H'. apply plain_neq in H'.
      rewrite (plain_not_open _ Hp), (plain_not_close _ Hp), !eqb_false by tauto. reflexivity. }
  cbn [fst snd keys_loop].
  change (58 =? 34) with false. change (is_open 58) with false. change (is_close 58) with false.
  cbn [andb Nat.eqb N.eqb Pos.eqb].
  rewrite (slice_app_eq _ ((pre ++ m_pre m) ++ [34]) (m_key m) (34 :: m_mid m ++ 58 :: mem_tail m ++ jpost (map mem_text l) ++ 125 :: post));
    [|rewrite Hj; unfold mem_head; same_text|len|len].
  cbn [bind].
  rewrite <- length_snoc with (c := 58).
  destruct (tail_pass json _ _ (keys_scan json)
     ((pre ++ mem_head m) ++ [58]) m (jpost (map mem_text l) ++ 125 :: post)
     (length (pre ++ m_pre m), length (pre ++ m_pre m ++ 34 :: m_key m)))
     as [[ks' ke'] E]; [exact Hm|apply nobs_snoc; discriminate|rewrite Hj; same_text|].
  cbn [fst snd] in E. rewrite E. clear E.
  destruct l as [|m2 l]; [reflexivity|].
  cbn [map] in *. rewrite jpost_cons in *. cbn [app keys_loop].
  change (44 =? 34) with false. change (is_open 44) with false. change (is_close 44) with false.
  cbn [andb Nat.eqb N.eqb Pos.eqb].
  specialize (IH (((((pre ++ mem_head m) ++ [58])) ++ mem_tail m) ++ [44]) post ks' ke' Hl).
  rewrite length_snoc in IH. rewrite join_cons in IH. rewrite IH; [reflexivity|apply nobs_snoc; discriminate|].
  rewrite Hj. same_text.
Qed.

Lemma get_keys d p w ms :
  wf_doc d = true -> lookup (d_val d) p = Some (JObj w ms) ->
  GetKeys (text d) p = if bytes_eqb (text d) (b "{}") then Err EEmpty else Ok (keys ms).
Proof.
  intros Hw Hl. destruct (lookup_focus _ _ _ Hl) as (pre & post & Hf).
  pose proof (text_focus _ _ _ _ _ Hf) as Ht.
  assert (Hwa : wf (JObj w ms) = true) by (eapply focus_wf; [exact Hf|apply wf_doc_inv in Hw; tauto]).
  unfold GetKeys. destruct (bytes_eqb_spec (text d) (b "{}")) as [E|E]; [reflexivity|].
  rewrite (start_of_present _ _ _ _ _ Hw Hf). cbn [bind].
  rewrite (at_start _ _ _ _ _ 123 (w ++ join (map mem_text ms) ++ [125]) Hf eq_refl).
  cbn [bind]. change (123 =? 123) with true. cbv beta iota.
  replace (skipn (length (d_pre d ++ pre)) (text d))
    with (123 :: w ++ join (map mem_text ms) ++ 125 :: post ++ d_post d).
  2:{ rewrite (text_focus _ _ _ _ _ Hf), render_obj. rewrite skipn_length_app. same_text. }
  cbn [keys_loop]. change (123 =? 34) with false. change (is_open 123) with true. cbv beta iota.
  rewrite <- length_snoc with (c := 123).
  rewrite wf_obj in Hwa. nbool.
  rewrite (ws_exact (text d) _ (fun r i q l e => keys_loop (text d) r i l (fst e) (snd e) q)) with (e := (O, O)) (w := w).
  - cbn [fst snd]. apply keys_run; [assumption| |].
    + apply nobs_ws; [apply nobs_snoc; discriminate|assumption].
    + rewrite Ht, render_obj. same_text.
  - intros pre0 c r0 l0 e HH Hp. cbn [keys_loop]. pose proof Hp as H'. apply plain_neq in H'.
    rewrite (plain_not_open _ Hp), (plain_not_close _ Hp), !eqb_false by tauto. reflexivity.
  - assumption.
  - rewrite Ht, render_obj. same_text.
Qed.

(** ** cleanValueString *)

(** The text between a separator and the next is trimmed correctly unless it is one byte followed by blanks. *)
Lemma cvs_end_spec s p c w : s = p ++ c :: w -> is_ws c = false -> ws_ok w = true ->
  (1 <= length p)%nat \/ w = [] -> cvs_end s (pred (length s)) = length p.
Proof.
  intros Es Hc Hw Hor.
  assert (Hbase : cvs_end s (length p) = length p).
  { destruct (length p) as [|[|n]] eqn:En; cbn [cvs_end]; try reflexivity.
    rewrite <- En, Es, nth_at. rewrite <- is_ws_space, Hc. reflexivity. }
  assert (forall k, (k <= length w)%nat -> cvs_end s (length p + k) = length p).
  { induction k as [|k IH]; intro Hk; [rewrite Nat.add_0_r; exact Hbase|].
    destruct Hor as [Hp| ->]; [|cbn in Hk; lia].
    rewrite Nat.add_succ_r. destruct (length p + k)%nat as [|n] eqn:En; [lia|].
    change (cvs_end s (S (S n))) with (if space (nth (S (S n)) s 0) then cvs_end s (S n) else S (S n)).
    rewrite <- En. rewrite <- En in IH.
    replace (nth (S (length p + k)) s 0) with (nth k w 0).
    - unfold ws_ok in Hw. rewrite forallb_forall in Hw. rewrite <- is_ws_space, Hw by (apply nth_In; lia).
      apply IH. lia.
    - rewrite Es. rewrite app_nth2 by lia. replace (S (length p + k) - length p)%nat with (S k) by lia. reflexivity. }
  replace (pred (length s)) with (length p + length w)%nat by (rewrite Es; len). apply H. lia.
Qed.

Lemma cleanValueString_tight u v w : ws_ok u = true -> wf v = true -> ws_ok w = true -> tight2 u v w ->
  cleanValueString (u ++ render v ++ w) = Ok (bare v).
Proof.
  intros Hu Hv Hw Ht. destruct (trim_value u v w Hu Hv Hw) as [T1 _].
  destruct (render_cons v Hv) as (c & t & E & Hc). destruct (render_snoc v Hv) as (t2 & c2 & E2 & Hc2).
  unfold cleanValueString. rewrite T1.
  assert (Hne : exists a l, u ++ render v ++ w = a :: l).
  { rewrite E. destruct u; cbn; eauto. }
  destruct Hne as (a & l & Ea). rewrite Ea. rewrite <- Ea.
  assert (Hend : cvs_end (u ++ render v ++ w) (pred (length (u ++ render v ++ w))) = length (u ++ t2)).
  { apply (cvs_end_spec _ (u ++ t2) c2 w); [rewrite E2; same_text|assumption|assumption|].
    destruct Ht as [Ht|[Ht|Ht]].
    - left. destruct u; [contradiction|]. cbn. lia.
    - right. exact Ht.
    - left. rewrite E2 in Ht. revert Ht. len. }
  rewrite Hend.
  replace (length (u ++ render v ++ w) - length (render v ++ w))%nat with (length u) by len.
  assert (N1 : nth (length u) (u ++ render v ++ w) 0 = hd 0 (render v)).
  { rewrite E. cbn [app hd]. apply nth_at. }
  assert (N2 : nth (length (u ++ t2)) (u ++ render v ++ w) 0 = c2).
  { rewrite E2. replace (u ++ (t2 ++ [c2]) ++ w) with ((u ++ t2) ++ c2 :: w) by same_text. apply nth_at. }
  rewrite N1, N2, render_hd by assumption.
  assert (Hsl : slice (u ++ render v ++ w) (length u) (S (length (u ++ t2))) = Ok (render v)).
  { apply (slice_app_eq _ u (render v) w); [reflexivity|reflexivity|]. rewrite E2. len. }
  destruct v as [s|s|w0 els|w0 ms]; try exact Hsl. clear Hsl.
  cbn [render] in E2. change (34 :: s ++ [34]) with ((34 :: s) ++ [34]) in E2. apply app_inj_tail in E2.
  destruct E2 as [<- <-]. cbn [andb N.eqb Pos.eqb bare render].
  apply (slice_app_eq _ (u ++ [34]) s (34 :: w)); [same_text|len|len].
Qed.

(** In general. *)
Lemma bare_one v : length (render v) = 1%nat -> bare v = render v.
Proof. destruct v as [s|s|w els|w ms]; try reflexivity. cbn [render length]. rewrite app_length. cbn. lia. Qed.

Lemma trimmed_tight u v w : tight2 u v w -> trimmed u v w = bare v.
Proof.
  unfold trimmed. intro H. destruct u as [|a u]; [|reflexivity].
  destruct (Nat.eqb_spec (length (render v)) 1) as [E|]; [|reflexivity].
  destruct H as [H|[->|H]]; [contradiction| |lia]. rewrite (bare_one v E). apply app_nil_r.
Qed.

Lemma cvs_end_one s n : (forall k, (1 < k <= n)%nat -> is_ws (nth k s 0) = true) -> (1 <= n)%nat -> cvs_end s n = 1%nat.
Proof.
  induction n as [|n IH]; intros Hs Hn; [lia|]. destruct n as [|n]; [reflexivity|].
  change (cvs_end s (S (S n))) with (if space (nth (S (S n)) s 0) then cvs_end s (S n) else S (S n)).
  rewrite <- is_ws_space, Hs by lia. apply IH; [|lia]. intros k Hk. apply Hs. lia.
Qed.

Lemma nth_is_ws w k : ws_ok w = true -> (k < length w)%nat -> is_ws (nth k w 0) = true.
Proof. unfold ws_ok. rewrite forallb_forall. intros H Hk. apply H, nth_In. exact Hk. Qed.

Lemma cleanValueString_value u v w : ws_ok u = true -> wf v = true -> ws_ok w = true ->
  cleanValueString (u ++ render v ++ w) = Ok (trimmed u v w).
Proof.
  intros Hu Hv Hw.
  destruct u as [|a u]; [|rewrite trimmed_tight by (left; discriminate); apply cleanValueString_tight; try assumption; left; discriminate].
  destruct w as [|x w].
  { rewrite trimmed_tight by (right; left; reflexivity). apply cleanValueString_tight; try assumption. right; left; reflexivity. }
  pose proof (render_len v Hv) as Hlen.
  destruct (Nat.eqb_spec (length (render v)) 1) as [E|E].
  - unfold trimmed. rewrite E. cbn [Nat.eqb firstn]. destruct (trim_value [] v (x :: w) Hu Hv Hw) as [T1 _]. cbn [app] in *.
    destruct (render v) as [|c [|c2 t]] eqn:Er; try discriminate E. cbn [app] in *.
    unfold cleanValueString. rewrite T1. cbn [length pred]. rewrite Nat.sub_diag.
    rewrite cvs_end_one; [|intros k Hk|lia].
    + cbn [nth]. destruct (render_cons v Hv) as (c' & t & E' & Hc). rewrite Er in E'.
      assert (Hx : (x =? 34) = false).
      { cbn [ws_ok forallb] in Hw. apply andb_true_iff in Hw. destruct Hw as [Hx _]. apply N.eqb_neq. intros ->. discriminate Hx. }
      rewrite Hx, andb_false_r. reflexivity.
    + destruct k as [|[|k]]; try lia. cbn [nth].
      cbn [ws_ok forallb] in Hw. apply andb_true_iff in Hw. destruct Hw as [_ Hw]. apply nth_is_ws; [exact Hw|lia].
  - rewrite trimmed_tight by (right; right; lia). apply cleanValueString_tight; try assumption. right; right; lia.
Qed.

(** ** GetValues *)
Lemma values_scan json start :
  scanner json (res (list bytes)) unit (fun r i q l _ => values_loop json r i start l q) 1.
Proof.
  constructor; intros.
  - cbn [values_loop]. pose proof H0 as H'. apply plain_neq in H'.
    rewrite (plain_not_open _ H0), (plain_not_close _ H0), !eqb_false by tauto. reflexivity.
  - cbn [values_loop]. rewrite (eqb_false c 34) by assumption. reflexivity.
  - cbn [values_loop]. rewrite H1. reflexivity.
  - exists tt. reflexivity.
  - exists tt. cbn [values_loop]. rewrite H1. reflexivity.
  - exists tt. apply open_cases in H0. destruct H0; subst c; reflexivity.
  - exists tt. apply close_cases in H0.
    assert (E : (S l =? 1)%nat = false) by (apply Nat.eqb_neq; lia).
    destruct H0; subst c; cbn -[Nat.eqb]; rewrite ?E; reflexivity.
  - exists tt. assert (E : (l =? 1)%nat = false) by (apply Nat.eqb_neq; lia).
    destruct H0; subst c; cbn -[Nat.eqb]; rewrite ?E; reflexivity.
Qed.

Lemma Skips_head json R E L base (SC : scanner json R E L base) d m :
  mem_ok m = true -> Skips json R E L base d (mem_head m).
Proof.
  unfold mem_ok, mem_head. intros H. nbool. apply Skips_app; [apply Skips_ws; assumption|].
  change (34 :: m_key m ++ 34 :: m_mid m) with (34 :: m_key m ++ [34] ++ m_mid m). rewrite app_assoc.
  apply (Skips_app _ _ _ _ _ d (34 :: _)); [apply Skips_string; assumption|apply Skips_ws; assumption].
Qed.
Lemma Skips_tail json R E L base (SC : scanner json R E L base) d m :
  mem_ok m = true -> Skips json R E L base d (mem_tail m).
Proof.
  unfold mem_ok, mem_tail. intros H. nbool. apply Skips_app; [apply Skips_ws; assumption|].
  apply Skips_app; [apply Skips_val; assumption|apply Skips_ws; assumption].
Qed.

Lemma mem_value_clean m : mem_ok m = true ->
  cleanValueString (mem_tail m) = Ok (trimmed (m_mid2 m) (m_val m) (m_post m)).
Proof. unfold mem_ok, mem_tail. intros H. nbool. apply cleanValueString_value; assumption. Qed.

Lemma values_run json ms : forall pre post start,
  ms <> [] -> forallb mem_ok ms = true -> nobs pre ->
  json = pre ++ join (map mem_text ms) ++ 125 :: post ->
  values_loop json (join (map mem_text ms) ++ 125 :: post) (length pre) start 1 false = Ok (listed_values ms).
Proof.
  induction ms as [|m l IH]; [contradiction|]. intros pre post start _ Hok Hn Hj.
  cbn [forallb] in Hok. apply andb_true_iff in Hok. destruct Hok as [Hm Hl].
  cbn [map] in *. rewrite join_cons in *. rewrite <- app_assoc in *.
  rewrite mem_text_split in *. rewrite <- app_assoc in *. cbn [app] in *.
  destruct (Skips_head _ _ _ _ _ (values_scan json start) 0 m Hm pre
    (58 :: mem_tail m ++ jpost (map mem_text l) ++ 125 :: post) 1%nat tt Hj Hn ltac:(lia)) as [Hn1 [e1 E1]].
  rewrite E1. clear E1 e1. cbn [values_loop].
  change (58 =? 34) with false. change (is_open 58) with false. change (is_close 58) with false.
  cbn [andb Nat.eqb N.eqb Pos.eqb].
  rewrite <- length_snoc with (c := 58).
  set (pc := (pre ++ mem_head m) ++ [58]).
  assert (Hj2 : json = pc ++ mem_tail m ++ jpost (map mem_text l) ++ 125 :: post)
    by (rewrite Hj; subst pc; same_text).
  destruct (Skips_tail _ _ _ _ _ (values_scan json (length pc)) 0 m Hm pc
    (jpost (map mem_text l) ++ 125 :: post) 1%nat tt Hj2 ltac:(apply nobs_snoc; discriminate) ltac:(lia)) as [Hn2 [e2 E2]].
  rewrite E2. clear E2 e2.
  assert (Hsl : slice json (length pc) (length (pc ++ mem_tail m)) = Ok (mem_tail m)) by (rewrite Hj2; apply slice_app).
  destruct l as [|m2 l].
  - cbn [map jpost concat app values_loop].
    change (125 =? 34) with false. change (is_open 125) with false. change (is_close 125) with true.
    cbn [Nat.eqb]. rewrite Hsl. cbn [bind]. rewrite mem_value_clean by assumption. reflexivity.
  - cbn [map] in *. rewrite jpost_cons in *. cbn [app values_loop].
    change (44 =? 34) with false. change (is_open 44) with false. change (is_close 44) with false.
    cbn [andb Nat.eqb N.eqb Pos.eqb]. rewrite Hsl. cbn [bind]. rewrite mem_value_clean by assumption. cbn [bind].
    specialize (IH ((pc ++ mem_tail m) ++ [44]) post (S (length (pc ++ mem_tail m))) ltac:(discriminate) Hl).
    rewrite length_snoc in IH. rewrite join_cons in IH. rewrite IH; [reflexivity|apply nobs_snoc; discriminate|].
    rewrite Hj2. same_text.
Qed.

Lemma listed_values_absorb w ms : listed_values (absorb_m w ms) = listed_values ms.
Proof. destruct ms; reflexivity. Qed.
Lemma listed_values_tight ms : Forall tight_m ms -> listed_values ms = values ms.
Proof. induction 1 as [|m l H _ IH]; [reflexivity|]. unfold listed_values, values in *. cbn [map]. rewrite IH, trimmed_tight by exact H. reflexivity. Qed.

(** Entering an object: the three listing functions start alike. *)
Lemma obj_text_at d p pre w ms post : focus (d_val d) p pre (JObj w ms) post ->
  skipn (length (d_pre d ++ pre)) (text d) = 123 :: w ++ join (map mem_text ms) ++ 125 :: post ++ d_post d.
Proof. intro Hf. rewrite (text_focus _ _ _ _ _ Hf), render_obj. rewrite skipn_length_app. same_text. Qed.

Lemma get_values_listed d p w ms :
  wf_doc d = true -> lookup (d_val d) p = Some (JObj w ms) -> ms <> [] ->
  GetValues (text d) p = Ok (listed_values ms).
Proof.
  intros Hw Hl Hne. destruct (lookup_focus _ _ _ Hl) as (pre & post & Hf).
  pose proof (text_focus _ _ _ _ _ Hf) as Ht.
  assert (Hwa : wf (JObj w ms) = true) by (eapply focus_wf; [exact Hf|apply wf_doc_inv in Hw; tauto]).
  unfold GetValues. destruct (bytes_eqb_spec (text d) (b "{}")) as [E|E].
  { destruct (obj_len _ _ _ _ _ _ Hf E). contradiction. }
  rewrite (start_of_present _ _ _ _ _ Hw Hf). cbn [bind].
  rewrite (at_start _ _ _ _ _ 123 (w ++ join (map mem_text ms) ++ [125]) Hf eq_refl).
  cbn [bind]. change (123 =? 123) with true. cbv beta iota.
  rewrite (obj_text_at _ _ _ _ _ _ Hf).
  cbn [values_loop]. change (123 =? 34) with false. change (is_open 123) with true. cbv beta iota.
  rewrite app_assoc, join_absorb_m by assumption. rewrite <- (listed_values_absorb w ms).
  rewrite <- length_snoc with (c := 123). apply values_run.
  - destruct ms; [contradiction|discriminate].
  - apply absorb_m_ok. exact Hwa.
  - apply nobs_snoc. discriminate.
  - rewrite Ht, render_obj, <- join_absorb_m by assumption. same_text.
Qed.

(** ** GetKeysValues *)
Lemma kvs_scan json start :
  scanner json (res (list bytes * list bytes)) (nat * nat)
    (fun r i q l e => kvs_loop json r i start l (fst e) (snd e) q) 1.
Proof.
  constructor; intros.
  - cbn [kvs_loop]. pose proof H0 as H'. apply plain_neq in H'.
    rewrite (plain_not_open _ H0), (plain_not_close _ H0), !eqb_false by tauto. reflexivity.
  - cbn [kvs_loop]. rewrite (eqb_false c 34) by assumption. reflexivity.
  - cbn [kvs_loop]. rewrite H1. reflexivity.
  - exists (length pre, snd e). reflexivity.
  - exists (fst e, length pre). cbn [kvs_loop]. rewrite H1. reflexivity.
  - exists e. apply open_cases in H0. destruct H0; subst c; reflexivity.
  - exists e. apply close_cases in H0.
    assert (E : (S l =? 1)%nat = false) by (apply Nat.eqb_neq; lia).
    destruct H0; subst c; cbn -[Nat.eqb]; rewrite ?E; reflexivity.
  - exists e. assert (E : (l =? 1)%nat = false) by (apply Nat.eqb_neq; lia).
    destruct H0; subst c; cbn -[Nat.eqb]; rewrite ?E; reflexivity.
Qed.

Lemma kvs_run json ms : forall pre post start ks ke,
  ms <> [] -> forallb mem_ok ms = true -> nobs pre ->
  json = pre ++ join (map mem_text ms) ++ 125 :: post ->
  kvs_loop json (join (map mem_text ms) ++ 125 :: post) (length pre) start 1 ks ke false = Ok (keys ms, listed_values ms).
Proof.
  induction ms as [|m l IH]; [contradiction|]. intros pre post start ks ke _ Hok Hn Hj.
  cbn [forallb] in Hok. apply andb_true_iff in Hok. destruct Hok as [Hm Hl].
  cbn [map] in *. rewrite join_cons in *. rewrite <- app_assoc in *.
  rewrite mem_text_split in *. rewrite <- app_assoc in *. cbn [app] in *.
  rewrite (head_pass json _ _ (kvs_scan json start)) with (e := (ks, ke)); try assumption.
  2:{ intros. reflexivity. }
  2:{ intros. cbn [kvs_loop]. cbn [fst snd]. rewrite H0. reflexivity. }
  2:{ intros pre0 c r0 l0 e HH Hp. cbn [kvs_loop]. pose proof Hp as H'. apply plain_neq in H'.
      rewrite (plain_not_open _ Hp), (plain_not_close _ Hp), !eqb_false by tauto. reflexivity. }
  cbn [fst snd kvs_loop].
  change (58 =? 34) with false. change (is_open 58) with false. change (is_close 58) with false.
  cbn [andb Nat.eqb N.eqb Pos.eqb].
  rewrite (slice_app_eq _ ((pre ++ m_pre m) ++ [34]) (m_key m) (34 :: m_mid m ++ 58 :: mem_tail m ++ jpost (map mem_text l) ++ 125 :: post));
    [|rewrite Hj; unfold mem_head; same_text|len|len].
  cbn [bind].
  rewrite <- length_snoc with (c := 58).
  set (pc := (pre ++ mem_head m) ++ [58]).
  assert (Hj2 : json = pc ++ mem_tail m ++ jpost (map mem_text l) ++ 125 :: post)
    by (rewrite Hj; subst pc; same_text).
  destruct (tail_pass json _ _ (kvs_scan json (length pc)) pc m (jpost (map mem_text l) ++ 125 :: post)
     (length (pre ++ m_pre m), length (pre ++ m_pre m ++ 34 :: m_key m)))
     as [[ks' ke'] E]; [exact Hm|apply nobs_snoc; discriminate|exact Hj2|].
  cbn [fst snd] in E. rewrite E. clear E.
  assert (Hsl : slice json (length pc) (length (pc ++ mem_tail m)) = Ok (mem_tail m)) by (rewrite Hj2; apply slice_app).
  destruct l as [|m2 l].
  - cbn [map jpost concat app kvs_loop].
    change (125 =? 34) with false. change (is_open 125) with false. change (is_close 125) with true.
    cbn [Nat.eqb]. rewrite Hsl. cbn [bind]. rewrite mem_value_clean by assumption. reflexivity.
  - cbn [map] in *. rewrite jpost_cons in *. cbn [app kvs_loop].
    change (44 =? 34) with false. change (is_open 44) with false. change (is_close 44) with false.
    cbn [andb Nat.eqb N.eqb Pos.eqb]. rewrite Hsl. cbn [bind]. rewrite mem_value_clean by assumption. cbn [bind].
    specialize (IH ((pc ++ mem_tail m) ++ [44]) post (S (length (pc ++ mem_tail m))) ks' ke' ltac:(discriminate) Hl).
    rewrite length_snoc in IH. rewrite join_cons in IH. rewrite IH; [reflexivity|apply nobs_snoc; discriminate|].
    rewrite Hj2. same_text.
Qed.

Lemma get_keys_values_listed d p w ms :
  wf_doc d = true -> lookup (d_val d) p = Some (JObj w ms) -> ms <> [] ->
  GetKeysValues (text d) p = Ok (keys ms, listed_values ms).
Proof.
  intros Hw Hl Hne. destruct (lookup_focus _ _ _ Hl) as (pre & post & Hf).
  pose proof (text_focus _ _ _ _ _ Hf) as Ht.
  assert (Hwa : wf (JObj w ms) = true) by (eapply focus_wf; [exact Hf|apply wf_doc_inv in Hw; tauto]).
  unfold GetKeysValues. destruct (bytes_eqb_spec (text d) (b "{}")) as [E|E].
  { destruct (obj_len _ _ _ _ _ _ Hf E). contradiction. }
  rewrite (start_of_present _ _ _ _ _ Hw Hf). cbn [bind].
  rewrite (at_start _ _ _ _ _ 123 (w ++ join (map mem_text ms) ++ [125]) Hf eq_refl).
  cbn [bind]. change (123 =? 123) with true. cbv beta iota.
  rewrite (obj_text_at _ _ _ _ _ _ Hf).
  cbn [kvs_loop]. change (123 =? 34) with false. change (is_open 123) with true. cbv beta iota.
  rewrite app_assoc, join_absorb_m by assumption. rewrite <- (listed_values_absorb w ms), <- (keys_absorb w ms).
  rewrite <- length_snoc with (c := 123). apply kvs_run.
  - destruct ms; [contradiction|discriminate].
  - apply absorb_m_ok. exact Hwa.
  - apply nobs_snoc. discriminate.
  - rewrite Ht, render_obj, <- join_absorb_m by assumption. same_text.
Qed.

Lemma get_values d p w ms :
  wf_doc d = true -> lookup (d_val d) p = Some (JObj w ms) -> ms <> [] -> Forall tight_m ms ->
  GetValues (text d) p = Ok (values ms).
Proof. intros Hw Hl Hne Ht. rewrite (get_values_listed d p w ms Hw Hl Hne), listed_values_tight by exact Ht. reflexivity. Qed.

Lemma get_keys_values d p w ms :
  wf_doc d = true -> lookup (d_val d) p = Some (JObj w ms) -> ms <> [] -> Forall tight_m ms ->
  GetKeysValues (text d) p = Ok (keys ms, values ms).
Proof. intros Hw Hl Hne Ht. rewrite (get_keys_values_listed d p w ms Hw Hl Hne), listed_values_tight by exact Ht. reflexivity. Qed.
