(** C59: IterateKeyValue with a callback that edits the document in place. *)
From Coq Require Import String.
From Verif Require Import GoStd Json SpecIter SpecList Core Skip Focus CoreProofs Errors Api ApiProofs Iter IterProofs IterObj GoMem Mem SpecMem MemProofs IterMem SpecIterMem IterMemProofs.

Local Open Scope nat_scope.

(** The loop of IterateKeyValue finds a key and a colon between any two members: [p] is the place of the last comma (or of the
    bracket), [fresh] says that a colon came since. *)
Fixpoint paired (json rest : bytes) (i level ks ke : nat) (inq fresh : bool) (p : nat) : bool :=
  match rest with
  | [] => true
  | c :: r =>
      if (c =? 34)%N then
        if inq then
          match qscan json i with
          | Some true => paired json r (S i) level ks i false fresh p
          | Some false => paired json r (S i) level ks ke inq fresh p
          | None => paired json r (S i) level i ke inq fresh p
          end
        else paired json r (S i) level i ke true fresh p
      else if inq then paired json r (S i) level ks ke inq fresh p
      else if is_open c then paired json r (S i) (S level) ks ke inq fresh p
      else if is_close c then
        if (c =? 125)%N && (level =? 1) then fresh
        else if level =? 1 then true
        else paired json r (S i) (pred level) ks ke inq fresh p
      else if (level =? 1) && (c =? 44)%N then fresh && paired json r (S i) level ks ke inq false i
      else if (level =? 1) && (c =? 58)%N then (p <? S ks) && paired json r (S i) level ks ke inq true p
      else paired json r (S i) level ks ke inq fresh p
  end.

Lemma paired_scan json fresh p : scanner json bool (nat * nat) (fun r i q l e => paired json r i l (fst e) (snd e) q fresh p) 1.
Proof.
  constructor; intros.
  - cbn [paired]. pose proof H0 as H'. apply plain_neq in H'.
    rewrite (plain_not_open _ H0), (plain_not_close _ H0), !eqb_false by tauto.
    rewrite !andb_false_r. reflexivity.
  - cbn [paired]. rewrite (eqb_false c 34) by assumption. reflexivity.
  - cbn [paired]. rewrite H1. reflexivity.
  - exists (length pre, snd e). reflexivity.
  - exists (fst e, length pre). cbn [paired]. rewrite H1. reflexivity.
  - exists e. apply open_cases in H0. destruct H0; subst c; reflexivity.
  - exists e. apply close_cases in H0.
    assert (E : (S l =? 1)%nat = false) by (apply Nat.eqb_neq; lia).
    destruct H0; subst c; cbn -[Nat.eqb]; rewrite ?E; reflexivity.
  - exists e. assert (E : (l =? 1)%nat = false) by (apply Nat.eqb_neq; lia).
    destruct H0; subst c; cbn -[Nat.eqb]; rewrite ?E; reflexivity.
Qed.

Lemma paired_member json m pre r ks ke fresh p : mem_ok m = true -> nobs pre -> json = pre ++ mem_text m ++ r -> p < length pre ->
  exists ks' ke', paired json (mem_text m ++ r) (length pre) 1 ks ke false fresh p =
    paired json r (length (pre ++ mem_text m)) 1 ks' ke' false true p.
Proof.
  intros Hok Hn Hj Hp. rewrite mem_text_split in *. rewrite <- app_assoc in *. cbn [app] in *.
  rewrite (head_pass json _ _ (paired_scan json fresh p)) with (e := (ks, ke)); try assumption.
  2:{ intros. reflexivity. }
  2:{ intros. cbn [paired]. cbn [fst snd]. rewrite H0. reflexivity. }
  2:{ intros pre0 c r0 l e HH Hq. cbn [paired]. pose proof Hq as H'. apply plain_neq in H'.
      rewrite (plain_not_open _ Hq), (plain_not_close _ Hq), !eqb_false by tauto.
      rewrite !andb_false_r. reflexivity. }
  cbn [fst snd paired].
  change (58 =? 34)%N with false. change (is_open 58) with false. change (is_close 58) with false.
  change (58 =? 44)%N with false. cbn [andb Nat.eqb N.eqb Pos.eqb].
  replace (p <? S (length (pre ++ m_pre m))) with true by (symmetry; apply Nat.ltb_lt; rewrite app_length; lia). cbn [andb].
  rewrite <- length_snoc with (c := 58%N).
  destruct (tail_pass json _ _ (paired_scan json true p)
     ((pre ++ mem_head m) ++ [58%N]) m r (length (pre ++ m_pre m), length (pre ++ m_pre m ++ 34%N :: m_key m)))
     as [[ks' ke'] E]; [exact Hok|apply nobs_snoc; discriminate|rewrite Hj; same_text|].
  cbn [fst snd] in E. exists ks', ke'. rewrite E. f_equal. len.
Qed.

Lemma paired_run json ms : forall pre post ks ke fresh p, ms <> [] -> forallb mem_ok ms = true -> nobs pre ->
  json = pre ++ join (map mem_text ms) ++ 125%N :: post -> p < length pre ->
  paired json (join (map mem_text ms) ++ 125%N :: post) (length pre) 1 ks ke false fresh p = true.
Proof.
  induction ms as [|m l IH]; [contradiction|]. intros pre post ks ke fresh p _ Hok Hn Hj Hp.
  cbn [forallb] in Hok. apply andb_true_iff in Hok. destruct Hok as [Hm Hl].
  cbn [map] in *. rewrite join_cons in *. rewrite <- app_assoc in *.
  destruct (paired_member json m pre (jpost (map mem_text l) ++ 125%N :: post) ks ke fresh p Hm Hn Hj Hp) as (ks' & ke' & E). rewrite E. clear E.
  destruct l as [|m2 l]; [reflexivity|]. cbn [map] in *. rewrite jpost_cons in *. cbn [app paired] in *.
  change (44 =? 34)%N with false. change (is_open 44) with false. change (is_close 44) with false. cbn [andb Nat.eqb N.eqb Pos.eqb].
  specialize (IH ((pre ++ mem_text m) ++ [44%N]) post ks' ke' false (length (pre ++ mem_text m))).
  rewrite length_snoc in IH. rewrite join_cons in IH. rewrite IH; [reflexivity|discriminate|exact Hl| | |lia].
  - apply nobs_snoc. discriminate.
  - rewrite Hj. same_text.
Qed.

Lemma qscan_local t t0 p i : length t = length t0 -> skipn p t = skipn p t0 -> p < i <= length t0 -> nth p t0 0%N <> 92%N -> qscan t i = qscan t0 i.
Proof.
  intros L A P Np.
  assert (S1 : forall u : bytes, length u = length t0 -> firstn i u = firstn p u ++ nth p u 0%N :: firstn (i - S p) (skipn (S p) u)).
  { intros u Lu. rewrite <- (firstn_skipn p (firstn i u)). rewrite firstn_firstn, Nat.min_l by lia. f_equal.
    rewrite skipn_firstn_comm. rewrite (drop_nth u p) by lia. destruct (i - p) as [|n] eqn:En; [lia|]. cbn [firstn]. replace (i - S p) with n by lia. reflexivity. }
  unfold qscan. rewrite (S1 t L), (S1 t0 eq_refl), (agree_nth t t0 p p A (Nat.le_refl _)), (agree_more t t0 p (S p) A (Nat.le_succ_diag_r _)).
  rewrite !rev_app_distr. cbn [rev]. rewrite <- !app_assoc. cbn [app]. apply qback_stops. exact Np.
Qed.

Section Local.
  Variables (t t0 : bytes) (p : nat).
  Hypothesis L : length t = length t0.
  Hypothesis A : skipn p t = skipn p t0.

  Lemma slice_local a c : p <= a -> slice t a c = slice t0 a c.
  Proof. intro H. unfold slice. rewrite L, (agree_more t t0 p a A H). reflexivity. Qed.
  Lemma at_local a : p <= a -> at_ t a = at_ t0 a.
  Proof.
    intro H. unfold at_. destruct (Nat.lt_ge_cases a (length t0)) as [Ha|Ha].
    - rewrite !(nth_error_nth' _ 0%N) by lia. rewrite (agree_nth t t0 p a A H). reflexivity.
    - rewrite !(proj2 (nth_error_None _ _)) by lia. reflexivity.
  Qed.
  Lemma find_local (l : list nat) : (forall j, In j l -> p <= j) ->
    find (fun j => negb (space (nth j t 0%N))) l = find (fun j => negb (space (nth j t0 0%N))) l.
  Proof.
    induction l as [|j l IH]; intro H; [reflexivity|]. cbn [find]. rewrite (agree_nth t t0 p j A (H j (or_introl eq_refl))).
    destruct (negb (space (nth j t0 0%N))); [reflexivity|]. apply IH. intros k Hk. apply H. right. exact Hk.
  Qed.
  Lemma fwd_trim_local a i : p <= a -> fwd_trim t a i = fwd_trim t0 a i.
  Proof. intro H. unfold fwd_trim. rewrite find_local; [reflexivity|]. intros j Hj. apply in_seq in Hj. lia. Qed.
  Lemma back_trim_local a i e : p <= a -> back_trim t a i e = back_trim t0 a i e.
  Proof. intro H. unfold back_trim. rewrite find_local; [reflexivity|]. intros j Hj. apply in_rev in Hj. apply in_seq in Hj. lia. Qed.
  Lemma kv_value_local a e : p <= a -> (nth a t0 0%N = 34%N -> p <= e) -> kv_value t a e = kv_value t0 a e.
  Proof.
    intros H He. unfold kv_value. rewrite (at_local a H). destruct (at_ t0 a) as [c| |] eqn:Ec; [|reflexivity|reflexivity]. cbn [bind].
    rewrite (slice_local a (S e) H). destruct (c =? 34)%N eqn:E34; [|reflexivity]. apply N.eqb_eq in E34. subst c.
    unfold at_ in Ec. destruct (nth_error t0 a) as [x|] eqn:E; [|discriminate]. injection Ec as ->. apply nth_error_nth with (d := 0%N) in E.
    rewrite (at_local e (He E)), (slice_local (S a) e) by lia. reflexivity.
  Qed.
End Local.

Lemma fwd_trim_range t a i : a <= i -> a <= fwd_trim t a i /\ (fwd_trim t a i < i \/ fwd_trim t a i = a).
Proof.
  intro H. unfold fwd_trim. destruct (find _ _) as [j|] eqn:F; [|lia]. apply find_some in F. destruct F as [F _]. apply in_seq in F. lia.
Qed.
Lemma back_trim_range t lo i e : back_trim t lo i e = e \/ lo <= back_trim t lo i e < i.
Proof.
  unfold back_trim. destruct (find _ _) as [j|] eqn:F; [|auto]. apply find_some in F. destruct F as [F _]. apply in_rev in F. apply in_seq in F. lia.
Qed.
Lemma back_trim_found t lo i e : lo < i -> nth lo t 0%N = 34%N -> lo <= back_trim t lo i e < i.
Proof.
  intros H N34. unfold back_trim. destruct (find _ _) as [j|] eqn:F.
  - apply find_some in F. destruct F as [F _]. apply in_rev in F. apply in_seq in F. lia.
  - exfalso. assert (K := find_none _ _ F lo). cbv beta in K. rewrite N34 in K. cbn in K. discriminate K. apply -> in_rev. apply in_seq. lia.
Qed.

Section Edit.
  Context {St StM : Type}.
  Variable R : St -> StM -> mem -> Prop.
  Variable json : bsl.
  Variable cb : St -> bytes -> bytes -> St * (bool * option err).
  Variable cbM : StM -> bsl -> bsl -> M (StM * (bool * option err)).
  Hypothesis HC : kv_editor R json cb cbM.
  Variable t0 : bytes.
  Hypothesis L0 : length t0 = b_len json.

  Lemma window_value h start end_ v h' : valid h json -> S end_ <= b_len json -> kv_valueM json start end_ h = Some (v, h') -> exists a c, window json v a c /\ c <= S end_.
  Proof.
    intros V He E. unfold kv_valueM, mbind, look, eval in E.
    assert (W : forall i j, j <= S end_ -> sub json i j h = Some (v, h') -> exists a c, window json v a c /\ c <= S end_).
    { intros i j Hj Ei. pose proof (sub_follows json h i j V ltac:(lia)) as S1. rewrite Ei in S1. destruct S1 as (_ & _ & W & _). eauto. }
    destruct (at_ (content h json) start) as [c| |]; cbn [ret panic] in E; try discriminate.
    destruct (c =? 34)%N; [|apply (W start (S end_)); [lia|exact E]].
    destruct (at_ (content h json) end_) as [d| |]; cbn [ret panic] in E; try discriminate.
    destruct (d =? 34)%N; [apply (W (S start) end_); [lia|exact E]|apply (W start (S end_)); [lia|exact E]].
  Qed.

  Lemma edit_pair h p i start end_ key kb s sm (kM : StM * (bool * option err) -> M (StM * option err)) (k : St * (bool * option err) -> itres St) :
    valid h json -> skipn p (content h json) = skipn p t0 -> p <= i -> p <= start -> (nth start t0 0%N = 34%N -> p <= end_) -> end_ < i <= b_len json ->
    valid h key -> (exists a c, window json key a c) -> content h key = kb -> R s sm h ->
    (forall sm' s' ge h', valid h' json -> skipn i (content h' json) = skipn i t0 -> R s' sm' h' -> iter_follows R (kM (sm', ge) h') (k (s', ge))) ->
    iter_follows R ((let! v := kv_valueM json start end_ in let! r := cbM sm key v in kM r) h)
      (ibind s (kv_value t0 start end_) (fun v => k (cb s kb v))).
  Proof.
    intros V A Hpi Hps H34 He Vk Wk <- RR K. pose proof (kv_value_follows json h start end_ V ltac:(lia)) as F.
    rewrite (kv_value_local (content h json) t0 p) in F; [|rewrite content_len by exact V; lia|exact A|exact Hps|exact H34].
    unfold mbind at 1. destruct (kv_valueM json start end_ h) as [[v h1]|] eqn:Ev; [|rewrite F; reflexivity].
    destruct (window_value h start end_ v h1 V ltac:(lia) Ev) as (a & c & W & Hc). destruct F as (-> & Vv & _ & ->). cbn [ibind].
    destruct (HC s sm h key v a c RR V Vk Vv W Wk) as (sm' & h' & E1 & R1 & V1 & C1). unfold mbind at 1. rewrite E1.
    rewrite (surjective_pairing (cb s (content h key) (content h v))) at 2. apply K; [exact V1| |exact R1].
    rewrite (agree_more _ _ c i C1) by lia. apply (agree_more _ _ p i A Hpi).
  Qed.

  Lemma edit_loop : forall n i start end_ level ks ke inq key kb fresh p s sm h, n = b_len json - i -> p < i <= b_len json -> nth p t0 0%N <> 92%N ->
    end_ < i -> ke <= b_len json -> valid h json -> skipn p (content h json) = skipn p t0 ->
    (fresh = true -> valid h key /\ (exists a c, window json key a c) /\ content h key = kb /\ p < start <= i) ->
    paired t0 (skipn i t0) i level ks ke inq fresh p = true -> R s sm h ->
    iter_follows R (iter_kvM json cbM n i start end_ level ks ke inq key sm h) (iter_kv t0 cb (skipn i t0) i start end_ level ks ke inq kb s).
  Proof.
    induction n as [|n IH]; intros i start end_ level ks ke inq key kb fresh p s sm h En Hi Np He Hk V A HF PR RR.
    - rewrite skipn_all2 by lia. cbn. eauto.
    - rewrite drop_nth in * by lia. cbn [iter_kvM iter_kv paired] in *. unfold mbind at 1, look.
      assert (LL : length (content h json) = length t0) by (rewrite content_len by exact V; lia).
      rewrite (agree_nth (content h json) t0 p i) by (assumption || lia). rewrite (qscan_local (content h json) t0 p i) by (assumption || lia).
      assert (HF' : fresh = true -> valid h key /\ (exists a c, window json key a c) /\ content h key = kb /\ p < start <= S i).
      { intro E. destruct (HF E) as (F1 & F2 & F3 & F4). split; [exact F1|]. split; [exact F2|]. split; [exact F3|lia]. }
      set (c := nth i t0 0%N) in *.
      destruct (c =? 34)%N eqn:E34.
      { destruct inq; [|apply (IH _ _ _ _ _ _ _ _ _ fresh p); (assumption || lia)].
        destruct (qscan t0 i) as [[|]|]; apply (IH _ _ _ _ _ _ _ _ _ fresh p); (assumption || lia). }
      destruct inq; [apply (IH _ _ _ _ _ _ _ _ _ fresh p); (assumption || lia)|].
      destruct (is_open c); [apply (IH _ _ _ _ _ _ _ _ _ fresh p); (assumption || lia)|]. destruct (is_close c).
      + destruct ((c =? 125)%N && (level =? 1)).
        * destruct (HF PR) as (Vk & Wk & Ck & Hst). cbv zeta.
          rewrite (fwd_trim_local (content h json) t0 p LL A) by lia.
          pose proof (fwd_trim_range t0 start i (proj2 Hst)) as [FT1 FT2]. set (st := fwd_trim t0 start i) in *.
          rewrite (back_trim_local (content h json) t0 p LL A) by lia.
          assert (B1 : back_trim t0 st i end_ < i) by (destruct (back_trim_range t0 st i end_); lia).
          apply (edit_pair h p i st _ key kb s sm (fun r => ret (fst r, None)) (fun r => IDone (fst r) None)); try assumption; try lia.
          -- intro H34. assert (st < i).
             { destruct (Nat.eq_dec st i) as [E|E]; [|lia]. exfalso. rewrite E in H34. fold c in H34. rewrite H34 in E34. discriminate. }
             pose proof (back_trim_found t0 st i end_ H H34). lia.
          -- intros sm' s' ge h' V' E' R'. cbn. eauto.
        * destruct (level =? 1); [cbn; eauto|apply (IH _ _ _ _ _ _ _ _ _ fresh p); (assumption || lia)].
      + destruct ((level =? 1) && (c =? 44)%N) eqn:E44.
        * apply andb_true_iff in PR. destruct PR as [PF PR]. destruct (HF PF) as (Vk & Wk & Ck & Hst). cbv zeta.
          apply andb_true_iff in E44. destruct E44 as [_ E44]. apply N.eqb_eq in E44.
          rewrite (fwd_trim_local (content h json) t0 p LL A) by lia.
          pose proof (fwd_trim_range t0 start i (proj2 Hst)) as [FT1 FT2]. set (st := fwd_trim t0 start i) in *.
          rewrite (back_trim_local (content h json) t0 p LL A) by lia. pose proof (back_trim_range t0 (S st) i (pred i)) as BR. set (en := back_trim t0 (S st) i (pred i)) in *.
          assert (Hen : p <= en < i) by lia.
          apply (edit_pair h p i st en key kb s sm
            (fun r => match snd (snd r) with Some e => ret (fst r, Some e) | None => if fst (snd r) then iter_kvM json cbM n (S i) st en level ks ke false key (fst r) else ret (fst r, None) end)
            (fun r => let '(s', (go, e)) := r in match e with Some e => IDone s' (Some e) | None => if go : bool then iter_kv t0 cb (skipn (S i) t0) (S i) st en level ks ke false kb s' else IDone s' None end)); try assumption; try lia.
          intros sm' s' [go [e|]] h' V' E' R'; cbn [fst snd]; [cbn; eauto|]. destruct go; [|cbn; eauto].
          apply (IH _ _ _ _ _ _ _ _ _ false i); try assumption; try lia.
        * destruct ((level =? 1) && (c =? 58)%N); [|apply (IH _ _ _ _ _ _ _ _ _ fresh p); (assumption || lia)].
          apply andb_true_iff in PR. destruct PR as [PK PR]. apply Nat.ltb_lt in PK.
          unfold mbind at 1. pose proof (sub_follows json h (S ks) ke V Hk) as F. rewrite (slice_local (content h json) t0 p LL A) in F by lia.
          destruct (sub json (S ks) ke h) as [[k1 h1]|] eqn:Ek; [|rewrite F; reflexivity]. destruct F as (-> & Vk & W & ->). cbn [ibind].
          apply (IH _ _ _ _ _ _ _ _ _ true p); try assumption; try lia. intros _. split; [exact Vk|]. split; [eauto|]. split; [reflexivity|lia].
  Qed.
End Edit.

(** At an object with members the callback may edit what it was handed, and all before. *)
Theorem edits_follow {St StM} (R : St -> StM -> mem -> Prop) json cb cbM d path w ms s sm h : kv_editor R json cb cbM -> valid h json ->
  wf_doc d = true -> content h json = text d -> lookup (d_val d) path = Some (JObj w ms) -> ms <> [] -> R s sm h ->
  iter_follows R (IterateKeyValueM json cbM path sm h) (IterateKeyValue (text d) cb path s).
Proof.
  intros HC V Hw Ht Hl Hne RR. destruct (lookup_focus _ _ _ Hl) as (pre & post & Hf). pose proof (text_focus _ _ _ _ _ Hf) as HT.
  assert (Hwa : wf (JObj w ms) = true) by (eapply focus_wf; [exact Hf|apply wf_doc_inv in Hw; tauto]).
  assert (Hn : text d <> b "{}") by (intro E; destruct (obj_len _ _ _ _ _ _ Hf E); contradiction).
  rewrite (iterate_kv_enter cb d path pre w ms post s Hw Hf Hn).
  unfold IterateKeyValueM, mbind at 1, look. rewrite Ht.
  destruct (bytes_eqb_spec (text d) (b "{}")) as [E|_]; [contradiction|].
  rewrite (start_of_present _ _ _ _ _ Hw Hf). cbn [ibindM].
  rewrite (at_start _ _ _ _ _ 123%N (w ++ join (map mem_text ms) ++ [125%N]) Hf eq_refl).
  cbn [ibindM]. change (123 =? 123)%N with true. cbv beta iota.
  assert (LT : length (text d) = b_len json) by (rewrite <- Ht; apply content_len; exact V).
  assert (HT2 : text d = (d_pre d ++ pre) ++ 123%N :: w ++ join (map mem_text ms) ++ 125%N :: post ++ d_post d) by (rewrite HT, render_obj; same_text).
  set (st := length (d_pre d ++ pre)) in *.
  assert (Hst : st < b_len json) by (rewrite <- LT, HT2; unfold st; len).
  assert (N123 : nth st (text d) 0%N = 123%N) by (rewrite HT2; unfold st; apply nth_at).
  assert (Hsk : skipn (S st) (text d) = w ++ join (map mem_text ms) ++ 125%N :: post ++ d_post d).
  { rewrite HT2. unfold st. change (123%N :: ?r) with ([123%N] ++ r). rewrite app_assoc. replace (S (length (d_pre d ++ pre))) with (length ((d_pre d ++ pre) ++ [123%N])) by len.
    apply skipn_length_app. }
  replace (b_len json - st) with (S (b_len json - S st)) by lia. cbn [iter_kvM]. unfold mbind at 1, look. rewrite Ht, N123.
  change (123 =? 34)%N with false. change (is_open 123) with true. cbv beta iota. rewrite <- Hsk.
  apply (edit_loop R json cb cbM HC (text d) LT _ (S st) st 0 1 0 0 false nil_bytes [] false st); try assumption; try lia.
  - rewrite Ht. reflexivity.
  - rewrite Hsk, app_assoc, join_absorb_m by assumption. unfold st.
    rewrite <- length_snoc with (c := 123%N). apply paired_run.
    + destruct ms; [contradiction|discriminate].
    + apply absorb_m_ok. exact Hwa.
    + apply nobs_snoc. discriminate.
    + rewrite HT2, <- join_absorb_m by assumption. same_text.
    + len.
Qed.
