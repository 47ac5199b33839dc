(** C59: the iterators on memory do what they do on strings. *)
From Coq Require Import String.
From Verif Require Import GoStd Core Errors Api Iter GoMem Mem SpecMem MemProofs IterMem SpecIterMem.

Local Open Scope nat_scope.

Lemma trim1_split t : t <> [] -> exists sp, t = sp ++ trim1 t /\ trim1 t <> [] /\ length sp < length t.
Proof.
  induction t as [|c t IH]; intro H; [congruence|]. destruct t as [|d t].
  - exists []. cbn. split; [reflexivity|]. split; [discriminate|lia].
  - change (trim1 (c :: d :: t)) with (if space c then trim1 (d :: t) else c :: d :: t). destruct (space c).
    + destruct IH as (sp & E & N & L); [discriminate|]. exists (c :: sp). cbn [app]. rewrite <- E. cbn [length] in *. split; [reflexivity|]. split; [exact N|lia].
    + exists []. cbn [app length]. split; [reflexivity|]. split; [discriminate|lia].
Qed.

Lemma last_nth (t : bytes) d : last t d = nth (pred (length t)) t d.
Proof. induction t as [|a [|b t] IH]; [reflexivity|reflexivity|]. change (last (a :: b :: t) d) with (last (b :: t) d). rewrite IH. reflexivity. Qed.

(** cleanValue keeps a stretch of what it is given. *)
Lemma cleanValueM_spec h s : valid h s ->
  match cleanValueM s h with
  | None => cleanValue (content h s) = Panic
  | Some (v, h') => h' = h /\ valid h v /\ (exists i j, window s v i j) /\ cleanValue (content h s) = Ok (content h v)
  end.
Proof.
  intro V. unfold cleanValueM, mbind, look. pose proof (content_len h s V) as L. remember (content h s) as t eqn:ET.
  destruct t as [|c0 t0] eqn:ET0.
  - cbn [ret]. split; [reflexivity|]. split; [exact V|]. rewrite <- ET. split; [|reflexivity]. exists 0, (b_len s). unfold window. lia.
  - rewrite <- ET0 in *. assert (NN : t <> []) by (rewrite ET0; discriminate).
    destruct (trim1_split t NN) as (sp & E1 & N1 & L1). set (m := trim1 t) in *.
    assert (Nr : rev m <> []) by (intro H; apply (f_equal (@rev _)) in H; rewrite rev_involutive in H; exact (N1 H)).
    destruct (trim1_split (rev m) Nr) as (sp2 & E2 & N2 & L2). set (m2 := trim1 (rev m)) in *.
    assert (Em : m = rev m2 ++ rev sp2) by (rewrite <- rev_app_distr, <- E2, rev_involutive; reflexivity).
    assert (Est : length t - length m = length sp) by (rewrite E1, app_length; lia).
    rewrite Est. assert (Esk : skipn (length sp) t = m) by (rewrite E1; rewrite skipn_app, Nat.sub_diag, skipn_all2 by lia; reflexivity).
    rewrite Esk. fold m2. assert (Lk : length m2 = length (rev m2)) by (rewrite rev_length; reflexivity). rewrite Lk.
    assert (Ec : cleanValue t = if (hd 0%N (rev m2) =? 34)%N && (last (rev m2) 0%N =? 34)%N then match rev m2 with _ :: (_ :: _) as r => Ok (removelast r) | _ => Panic end else Ok (rev m2)).
    { unfold cleanValue. rewrite ET0 at 1. reflexivity. }
    rewrite Ec. clear Ec. assert (Nk : rev m2 <> []) by (intro H; apply (f_equal (@rev _)) in H; rewrite rev_involutive in H; exact (N2 H)).
    set (k := rev m2) in *. clearbody k.
    assert (Lk' : 0 < length k) by (destruct k; [congruence|cbn; lia]).
    assert (Et : t = sp ++ k ++ rev sp2) by (rewrite E1, Em; reflexivity).
    assert (N0 : nth (length sp) t 0%N = hd 0%N k).
    { rewrite Et, app_nth2, Nat.sub_diag by lia. destruct k; [congruence|reflexivity]. }
    assert (N3 : nth (length sp + pred (length k)) t 0%N = last k 0%N).
    { rewrite Et, app_nth2, last_nth by lia. replace (length sp + pred (length k) - length sp) with (pred (length k)) by lia. apply app_nth1. lia. }
    assert (Lt : length t = length sp + length k + length sp2) by (rewrite Et, !app_length, rev_length; lia).
    rewrite N0, N3. destruct ((hd 0%N k =? 34)%N && (last k 0%N =? 34)%N).
    + destruct k as [|x k]; [congruence|]. destruct k as [|y k].
      * unfold sub. cbn [length pred]. rewrite Nat.add_0_r. replace (S (length sp) <=? length sp) with false by (symmetry; apply Nat.leb_gt; lia). reflexivity.
      * destruct (sub_spec h s (S (length sp)) (length sp + pred (length (x :: y :: k))) V) as (v & -> & Wv & Vv & C); [cbn [length] in *; lia|].
        split; [reflexivity|]. split; [exact Vv|]. split; [eauto|]. rewrite C, <- ET, Et. f_equal.
        cbn [length pred]. rewrite removelast_firstn_len. change (x :: y :: k) with ([x] ++ y :: k). rewrite <- !app_assoc, app_assoc.
        replace (S (length sp)) with (length (sp ++ [x])) at 2 by (rewrite app_length; cbn; lia). rewrite skipn_app, Nat.sub_diag, skipn_all. cbn [skipn app].
        change (y :: k ++ rev sp2) with ((y :: k) ++ rev sp2). rewrite firstn_app. cbn [length pred].
        replace (length sp + S (length k) - S (length sp)) with (length k) by lia.
        replace (length k - S (length k)) with 0 by lia. cbn [firstn]. rewrite app_nil_r. reflexivity.
    + destruct (sub_spec h s (length sp) (S (length sp + pred (length k))) V) as (v & -> & Wv & Vv & C); [lia|].
      split; [reflexivity|]. split; [exact Vv|]. split; [eauto|]. rewrite C, <- ET, Et. f_equal.
      rewrite skipn_app, Nat.sub_diag, skipn_all. cbn [skipn app]. rewrite firstn_app.
      replace (S (length sp + pred (length k)) - length sp) with (length k) by lia. rewrite Nat.sub_diag, firstn_all. cbn [firstn]. rewrite app_nil_r. reflexivity.
Qed.

Lemma skipn_add {A} (a b : nat) (l : list A) : skipn a (skipn b l) = skipn (a + b) l.
Proof. revert l. induction b as [|n IH]; intro l; [rewrite Nat.add_0_r; reflexivity|]. rewrite Nat.add_succ_r. destruct l; [rewrite !skipn_nil; reflexivity|]. cbn [skipn]. apply IH. Qed.
Lemma nth_skipn {A} (l : list A) p k d : nth k (skipn p l) d = nth (p + k) l d.
Proof. revert l. induction p as [|p IH]; intro l; [reflexivity|]. destruct l; [destruct k; reflexivity|]. cbn [skipn plus nth]. apply IH. Qed.

Lemma qback_stops (x : bytes) c r r' : c <> 92%N -> forall odd, qback (x ++ c :: r) odd = qback (x ++ c :: r') odd.
Proof.
  intro H. apply N.eqb_neq in H. induction x as [|a x IH]; intro odd; cbn [app qback]; [rewrite H; reflexivity|]. rewrite IH. reflexivity.
Qed.

(** The look-back of a quote behind position [p], where some byte but no backslash stands, does not look beyond it. *)
Lemma closes1_local t t0 p i : length t = length t0 -> skipn p t = skipn p t0 -> p < i <= length t0 -> nth p t0 0%N <> 92%N -> closes1 t i = closes1 t0 i.
Proof.
  intros L A P Np. destruct p as [|p]; [cbn [skipn] in A; rewrite A; reflexivity|].
  assert (S1 : forall u : bytes, length u = length t0 -> skipn 1 (firstn i u) = skipn 1 (firstn (S p) u) ++ nth (S p) u 0%N :: firstn (i - S (S p)) (skipn (S (S p)) u)).
  { intros u Lu. replace (firstn i u) with (firstn (S p) u ++ nth (S p) u 0%N :: firstn (i - S (S p)) (skipn (S (S p)) u)).
    - rewrite skipn_app. rewrite firstn_length_le by lia. reflexivity.
    - rewrite <- (firstn_skipn (S p) (firstn i u)). rewrite firstn_firstn, Nat.min_l by lia. f_equal.
      rewrite skipn_firstn_comm. destruct (skipn (S p) u) as [|c r] eqn:E.
      + apply (f_equal (@length _)) in E. rewrite skipn_length in E. cbn in E. lia.
      + destruct (i - S p) as [|n] eqn:En; [lia|]. cbn [firstn]. replace (i - S (S p)) with n by lia. f_equal.
        * rewrite <- (firstn_skipn (S p) u) at 1. rewrite app_nth2; rewrite firstn_length_le by lia; [|lia]. rewrite Nat.sub_diag, E. reflexivity.
        * f_equal. replace (S (S p)) with (1 + S p) by lia. rewrite <- skipn_add, E. reflexivity. }
  assert (E1 : nth (S p) t 0%N = nth (S p) t0 0%N).
  { rewrite <- (Nat.add_0_r (S p)). rewrite <- !nth_skipn, A. reflexivity. }
  assert (E2 : skipn (S (S p)) t = skipn (S (S p)) t0) by (change (S (S p)) with (1 + S p); rewrite <- !skipn_add, A; reflexivity).
  unfold closes1. rewrite (S1 t L), (S1 t0 eq_refl), E1, E2. rewrite !rev_app_distr. cbn [rev]. rewrite <- !app_assoc. cbn [app].
  rewrite (qback_stops _ _ _ (rev (skipn 1 (firstn (S p) t0))) Np). reflexivity.
Qed.

(** A window is a stretch of what the slice shows. *)
Lemma window_content h s v i j : valid h s -> window s v i j -> content h v = firstn (j - i) (skipn i (content h s)).
Proof.
  intros [V1 V2] (W1 & W2 & W3 & W4). unfold content. rewrite W2, W3, W4. rewrite skipn_firstn_comm, firstn_firstn, Nat.min_l by lia.
  rewrite skipn_add. f_equal. f_equal. lia.
Qed.
Lemma window_trans s v w i j a c : window s v i j -> window v w a c -> window s w (i + a) (i + c).
Proof. intros (H1 & H2 & H3 & H4) (K1 & K2 & K3 & K4). unfold window. rewrite K2, K3, K4, H2, H3. lia. Qed.

Lemma drop_nth (t : bytes) i : i < length t -> skipn i t = nth i t 0%N :: skipn (S i) t.
Proof. revert t. induction i as [|i IH]; intros [|c t] H; cbn in H; try lia; [reflexivity|]. cbn [skipn nth]. apply IH. lia. Qed.
Lemma agree_nth (t t0 : bytes) p i : skipn p t = skipn p t0 -> p <= i -> nth i t 0%N = nth i t0 0%N.
Proof. intros A H. replace i with (p + (i - p)) by lia. rewrite <- !nth_skipn, A. reflexivity. Qed.
Lemma agree_more (t t0 : bytes) p q : skipn p t = skipn p t0 -> p <= q -> skipn q t = skipn q t0.
Proof. intros A H. replace q with ((q - p) + p) by lia. rewrite <- !skipn_add, A. reflexivity. Qed.
Lemma slice_ok (t : bytes) i j : i <= j <= length t -> slice t i j = Ok (firstn (j - i) (skipn i t)).
Proof. intro H. unfold slice. replace ((i <=? j) && (j <=? length t)) with true by (symmetry; apply andb_true_iff; split; apply Nat.leb_le; lia). reflexivity. Qed.

Section Arrays.
  Context {St StM : Type}.
  Variable R : St -> StM -> mem -> Prop.
  Variable json : bsl.
  Variable cb : St -> bytes -> St * (bool * option err).
  Variable cbM : StM -> bsl -> M (StM * (bool * option err)).
  Hypothesis HC : arr_callback R json cb cbM.
  Variable t0 : bytes.
  Hypothesis L0 : length t0 = b_len json.

  (** One element: cut out, cleaned and handed over *)
  Lemma element_follows h p i s sm (kM : StM * (bool * option err) -> M (StM * option err)) (k : St * (bool * option err) -> itres St) :
    valid h json -> skipn p (content h json) = skipn p t0 -> p < i <= b_len json -> R s sm h ->
    (forall sm' s' ge h', valid h' json -> skipn i (content h' json) = skipn i t0 -> R s' sm' h' -> iter_follows R (kM (sm', ge) h') (k (s', ge))) ->
    iter_follows R ((let! v := sub json (S p) i in let! v := cleanValueM v in let! r := cbM sm v in kM r) h)
      (ibind s (slice t0 (S p) i) (fun v => ibind s (cleanValue v) (fun v => k (cb s v)))).
  Proof.
    intros V A P RR K. destruct (sub_spec h json (S p) i V) as (v & E & W & Vv & C); [lia|]. unfold mbind at 1. rewrite E.
    rewrite slice_ok by lia. cbn [ibind]. replace (skipn (S p) (content h json)) with (skipn (S p) t0) in C by (symmetry; apply (agree_more _ _ p); [exact A|lia]).
    rewrite <- C. unfold mbind at 1. pose proof (cleanValueM_spec h v Vv) as CL. destruct (cleanValueM v h) as [[w h1]|]; [|rewrite CL; reflexivity].
    destruct CL as (-> & Vw & (a & c & Ww) & ->). cbn [ibind]. pose proof (window_trans _ _ _ _ _ _ _ W Ww) as WW.
    destruct (HC s sm h w _ _ RR V Vw WW) as (sm' & h' & E1 & R1 & V1 & A1). unfold mbind at 1. rewrite E1.
    rewrite (surjective_pairing (cb s (content h w))) at 2. apply K; [exact V1| |exact R1].
    assert (S p + c <= i) by (destruct W as (_ & _ & _ & W4); destruct Ww as (Ww1 & _); lia).
    apply (agree_more _ _ _ i) in A1; [|lia]. rewrite A1. apply (agree_more _ _ p); [exact A|lia].
  Qed.

  Lemma arr_loop_follows : forall n i p lv inq s sm h, n = b_len json - i -> p < i <= b_len json -> nth p t0 0%N <> 92%N ->
    valid h json -> skipn p (content h json) = skipn p t0 -> R s sm h ->
    iter_follows R (iter_arrM json cbM n i (S p) lv inq sm h) (iter_arr t0 (closes1 t0) cb (skipn i t0) i (S p) lv inq s).
  Proof.
    induction n as [|n IH]; intros i p lv inq s sm h En P Np V A RR.
    - rewrite skipn_all2 by lia. cbn. eauto.
    - rewrite drop_nth by lia. cbn [iter_arrM iter_arr]. unfold mbind at 1, look. rewrite (agree_nth (content h json) t0 p i) by (assumption || lia).
      rewrite (closes1_local (content h json) t0 p i); [|rewrite content_len by exact V; lia|exact A|lia|exact Np].
      set (c := nth i t0 0%N) in *.
      destruct (c =? 34)%N; [apply IH; (assumption || lia)|]. destruct inq; [apply IH; (assumption || lia)|].
      destruct (is_open c); [apply IH; (assumption || lia)|]. destruct (is_close c).
      + destruct (lv =? 0); [cbn; eauto|]. destruct ((c =? 93)%N && (lv =? 1)); [|apply IH; (assumption || lia)].
        apply (element_follows h p i s sm (fun r => ret (fst r, snd (snd r))) (fun r => let '(s', (_, e)) := r in IDone s' e) V A P RR).
        intros sm' s' [go e] h' V' A' R'. cbn. eauto.
      + destruct ((lv =? 1) && (c =? 44)%N) eqn:EC; [|apply IH; (assumption || lia)]. apply andb_true_iff in EC. destruct EC as [_ EC]. apply N.eqb_eq in EC.
        apply (element_follows h p i s sm
          (fun r => match snd (snd r) with Some e => ret (fst r, Some e) | None => if fst (snd r) then iter_arrM json cbM n (S i) (S i) lv false (fst r) else ret (fst r, None) end)
          (fun r => let '(s', (go, e)) := r in match e with Some e => IDone s' (Some e) | None => if go : bool then iter_arr t0 (closes1 t0) cb (skipn (S i) t0) (S i) (S i) lv false s' else IDone s' None end) V A P RR).
        intros sm' s' [go [e|]] h' V' A' R'; cbn [fst snd]; [cbn; eauto|]. destruct go; [|cbn; eauto].
        apply IH; try assumption; lia.
  Qed.
End Arrays.

Theorem array_follows {St StM} (R : St -> StM -> mem -> Prop) json cb cbM path s sm h : arr_callback R json cb cbM -> valid h json -> R s sm h ->
  iter_follows R (IterateArrayM json cbM path sm h) (IterateArray (content h json) cb path s).
Proof.
  intros HC V RR. unfold IterateArrayM, IterateArray, mbind at 1, look. rewrite content_len by exact V.
  destruct (b_len json <? 2); [cbn; eauto|]. destruct (b_len json =? 2); [destruct (bytes_eqb (content h json) (b "[]")); cbn; eauto|].
  match goal with |- context [ibindM sm ?r _] => destruct r as [start|e|] end; cbn [ibindM ibind]; [|cbn; eauto|reflexivity].
  destruct (at_ (content h json) start) as [c|e|] eqn:Ec; cbn [ibindM ibind]; [|cbn; eauto|reflexivity].
  destruct (c =? 91)%N eqn:E91; [|cbn; eauto]. apply N.eqb_eq in E91. subst c.
  assert (Hs : start < b_len json /\ nth start (content h json) 0%N = 91%N).
  { unfold at_ in Ec. destruct (nth_error (content h json) start) as [x|] eqn:E; [|discriminate]. injection Ec as ->.
    split; [|apply nth_error_nth; exact E]. rewrite <- (content_len h json V). apply nth_error_Some. congruence. }
  destruct Hs as [Hs Hn]. apply (arr_loop_follows R json cb cbM HC (content h json) (content_len h json V)); try assumption; try lia.
  reflexivity.
Qed.

Section Pairs.
  Context {St StM : Type}.
  Variable R : St -> StM -> mem -> Prop.
  Variable json : bsl.
  Variable cb : St -> bytes -> bytes -> St * (bool * option err).
  Variable cbM : StM -> bsl -> bsl -> M (StM * (bool * option err)).
  Hypothesis HC : kv_callback R json cb cbM.
  Variable t0 : bytes.
  Hypothesis L0 : length t0 = b_len json.

  Lemma sub_follows h i j : valid h json -> j <= b_len json ->
    match sub json i j h with
    | None => slice (content h json) i j = Panic
    | Some (v, h') => h' = h /\ valid h v /\ window json v i j /\ slice (content h json) i j = Ok (content h v)
    end.
  Proof using.
    clear L0. intros V H. destruct (Nat.le_gt_cases i j) as [L|L].
    - destruct (sub_spec h json i j V) as (v & -> & W & Vv & C); [lia|]. rewrite slice_ok by (rewrite content_len by exact V; lia). rewrite C. auto.
    - unfold sub, slice. replace (i <=? j) with false by (symmetry; apply Nat.leb_gt; exact L). reflexivity.
  Qed.

  Lemma kv_value_follows h start end_ : valid h json -> end_ < b_len json ->
    match kv_valueM json start end_ h with
    | None => kv_value (content h json) start end_ = Panic
    | Some (v, h') => h' = h /\ valid h v /\ (exists i j, window json v i j) /\ kv_value (content h json) start end_ = Ok (content h v)
    end.
  Proof using.
    clear L0. intros V H. unfold kv_valueM, kv_value, mbind, look, eval.
    assert (W : forall i j, j <= b_len json -> match sub json i j h with
      | None => slice (content h json) i j = Panic
      | Some (v, h') => h' = h /\ valid h v /\ (exists i j, window json v i j) /\ slice (content h json) i j = Ok (content h v) end).
    { intros i j Hj. pose proof (sub_follows h i j V Hj) as S. destruct (sub json i j h) as [[v h']|]; [|exact S]. destruct S as (S1 & S2 & S3 & S4). eauto 10. }
    destruct (at_ (content h json) start) as [c| |] eqn:E1; cbn [ret panic bind]; [|unfold at_ in E1; destruct nth_error; discriminate|reflexivity].
    destruct (c =? 34)%N; [|apply W; lia].
    destruct (at_ (content h json) end_) as [d| |] eqn:E2; cbn [ret panic bind]; [|unfold at_ in E2; destruct nth_error; discriminate|reflexivity].
    destruct (d =? 34)%N; apply W; lia.
  Qed.

  (** The key is nil or was cut out of the document. *)
  Definition cut (key : bsl) : Prop :=
    key = nil_bytes \/ exists i j, i <= j <= b_len json /\ key = Bsl (b_arr json) (b_off json + i) (j - i) (b_cap json - i).
  Lemma cut_keeps h h' key : cut key -> valid h json -> valid h' json -> content h' json = content h json ->
    valid h' key /\ content h' key = content h key /\ (content h key = [] \/ exists i j, window json key i j).
  Proof using.
    clear L0. intros [->|(i & j & H & ->)] V V' E.
    - split; [apply nil_valid|]. split; [reflexivity|left; reflexivity].
    - assert (W : window json (Bsl (b_arr json) (b_off json + i) (j - i) (b_cap json - i)) i j) by (unfold window; cbn; lia).
      split; [destruct V' as [V1 V2]; unfold valid; cbn; lia|]. split; [|right; exists i, j; exact W].
      rewrite (window_content h' json _ i j), (window_content h json _ i j) by assumption. rewrite E. reflexivity.
  Qed.
  Lemma sub_cut h i j v h' : j <= b_len json -> sub json i j h = Some (v, h') -> cut v.
  Proof using.
    clear L0. intros H E. unfold sub in E. destruct ((i <=? j) && (j <=? b_cap json)) eqn:B; [|discriminate]. injection E as <- <-.
    apply andb_true_iff in B. destruct B as [B _]. apply Nat.leb_le in B. right. exists i, j. split; [lia|reflexivity].
  Qed.

  Lemma back_trim_lt t lo i e : e < b_len json -> i <= b_len json -> back_trim t lo i e < b_len json.
  Proof using.
    clear L0. intros H1 H2. unfold back_trim. destruct (find _ _) as [j|] eqn:F; [|exact H1]. apply find_some in F. destruct F as [F _].
    apply in_rev in F. apply in_seq in F. lia.
  Qed.

  Lemma pair_follows h start end_ key s sm (kM : StM * (bool * option err) -> M (StM * option err)) (k : St * (bool * option err) -> itres St) :
    valid h json -> content h json = t0 -> end_ < b_len json -> cut key -> R s sm h ->
    (forall sm' s' ge h', valid h' json -> content h' json = t0 -> content h' key = content h key -> R s' sm' h' -> iter_follows R (kM (sm', ge) h') (k (s', ge))) ->
    iter_follows R ((let! v := kv_valueM json start end_ in let! r := cbM sm key v in kM r) h)
      (ibind s (kv_value t0 start end_) (fun v => k (cb s (content h key) v))).
  Proof.
    intros V E He Hc RR K. pose proof (kv_value_follows h start end_ V He) as F. rewrite E in F. unfold mbind at 1.
    destruct (kv_valueM json start end_ h) as [[v h1]|]; [|rewrite F; reflexivity]. destruct F as (-> & Vv & (i & j & W) & ->). cbn [ibind].
    destruct (cut_keeps h h key Hc V V eq_refl) as (Vk & _ & Wk).
    destruct (HC s sm h key v i j RR V Vk Vv W Wk) as (sm' & h' & E1 & R1 & V1 & C1). unfold mbind at 1. rewrite E1.
    rewrite (surjective_pairing (cb s (content h key) (content h v))) at 2. apply K; [exact V1|congruence| |exact R1].
    apply (cut_keeps h h' key Hc V V1 C1).
  Qed.

  Lemma kv_loop_follows : forall n i start end_ level ks ke inq key s sm h, n = b_len json - i -> i <= b_len json -> end_ < b_len json -> ke <= b_len json ->
    valid h json -> content h json = t0 -> cut key -> R s sm h ->
    iter_follows R (iter_kvM json cbM n i start end_ level ks ke inq key sm h) (iter_kv t0 cb (skipn i t0) i start end_ level ks ke inq (content h key) s).
  Proof.
    induction n as [|n IH]; intros i start end_ level ks ke inq key s sm h En Hi He Hk V E Hc RR.
    - rewrite skipn_all2 by lia. cbn. eauto.
    - rewrite drop_nth by lia. cbn [iter_kvM iter_kv]. unfold mbind at 1, look. rewrite E. set (c := nth i t0 0%N) in *.
      destruct (c =? 34)%N.
      { destruct inq; [|apply IH; (assumption || lia)]. destruct (qscan t0 i) as [[|]|]; apply IH; (assumption || lia). }
      destruct inq; [apply IH; (assumption || lia)|]. destruct (is_open c); [apply IH; (assumption || lia)|]. destruct (is_close c).
      + destruct ((c =? 125)%N && (level =? 1)).
        * cbv zeta. apply (pair_follows h _ _ key s sm (fun r => ret (fst r, None)) (fun r => IDone (fst r) None)); try assumption.
          -- apply back_trim_lt; lia.
          -- intros sm' s' ge h' V' E' _ R'. cbn. eauto.
        * destruct (level =? 1); [cbn; eauto|apply IH; (assumption || lia)].
      + destruct ((level =? 1) && (c =? 44)%N).
        * cbv zeta. set (st := fwd_trim t0 start i). set (en := back_trim t0 (S st) i (pred i)).
          assert (Hen : en < b_len json) by (apply back_trim_lt; lia).
          apply (pair_follows h st en key s sm
            (fun r => match snd (snd r) with Some e => ret (fst r, Some e) | None => if fst (snd r) then iter_kvM json cbM n (S i) st en level ks ke false key (fst r) else ret (fst r, None) end)
            (fun r => let '(s', (go, e)) := r in match e with Some e => IDone s' (Some e) | None => if go : bool then iter_kv t0 cb (skipn (S i) t0) (S i) st en level ks ke false (content h key) s' else IDone s' None end)); try assumption.
          intros sm' s' [go [e|]] h' V' E' Ck R'; cbn [fst snd]; [cbn; eauto|]. destruct go; [|cbn; eauto]. rewrite <- Ck. apply IH; (assumption || lia).
        * destruct ((level =? 1) && (c =? 58)%N); [|apply IH; (assumption || lia)].
          unfold mbind at 1. pose proof (sub_follows h (S ks) ke V Hk) as F. rewrite E in F.
          destruct (sub json (S ks) ke h) as [[k1 h1]|] eqn:Ek; [|rewrite F; reflexivity]. destruct F as (-> & Vk & W & ->). cbn [ibind].
          apply IH; try assumption; try lia. exact (sub_cut h _ _ _ _ Hk Ek).
  Qed.
End Pairs.

Theorem pairs_follow {St StM} (R : St -> StM -> mem -> Prop) json cb cbM path s sm h : kv_callback R json cb cbM -> valid h json -> R s sm h ->
  iter_follows R (IterateKeyValueM json cbM path sm h) (IterateKeyValue (content h json) cb path s).
Proof.
  intros HC V RR. unfold IterateKeyValueM, IterateKeyValue, mbind at 1, look.
  destruct (bytes_eqb (content h json) (b "{}")); [cbn; eauto|].
  destruct (start_of (content h json) path) as [start|e|]; cbn [ibindM ibind]; [|cbn; eauto|reflexivity].
  destruct (at_ (content h json) start) as [c|e|] eqn:Ec; cbn [ibindM ibind]; [|cbn; eauto|reflexivity].
  destruct (c =? 123)%N; [|cbn; eauto].
  assert (Hs : start < b_len json).
  { unfold at_ in Ec. destruct (nth_error (content h json) start) as [x|] eqn:E; [|discriminate].
    rewrite <- (content_len h json V). apply nth_error_Some. congruence. }
  apply (kv_loop_follows R json cb cbM HC (content h json) (content_len h json V) _ start start 0 0 0 0 false nil_bytes); try lia; try assumption; try reflexivity.
  left. reflexivity.
Qed.

(** A callback that writes to no array there was, for instance one that calls the functions of the package. *)
Lemma extends_arr {St StM} (R : St -> StM -> mem -> Prop) json cb cbM :
  (forall s sm h v i j, R s sm h -> valid h json -> valid h v -> window json v i j ->
     exists sm' h', cbM sm v h = Some ((sm', snd (cb s (content h v))), h') /\ R (fst (cb s (content h v))) sm' h' /\ extends h h') ->
  arr_callback R json cb cbM.
Proof.
  intros H s sm h v i j RR V Vv W. destruct (H s sm h v i j RR V Vv W) as (sm' & h' & E & R' & X). exists sm', h'.
  split; [exact E|]. split; [exact R'|]. split; [exact (extends_valid _ _ _ X V)|]. rewrite (extends_content h h') by assumption. reflexivity.
Qed.
Lemma extends_kv {St StM} (R : St -> StM -> mem -> Prop) json cb cbM :
  (forall s sm h k v i j, R s sm h -> valid h json -> valid h k -> valid h v -> window json v i j ->
     content h k = [] \/ (exists i' j', window json k i' j') ->
     exists sm' h', cbM sm k v h = Some ((sm', snd (cb s (content h k) (content h v))), h') /\ R (fst (cb s (content h k) (content h v))) sm' h' /\ extends h h') ->
  kv_callback R json cb cbM.
Proof.
  intros H s sm h k v i j RR V Vk Vv W Wk. destruct (H s sm h k v i j RR V Vk Vv W Wk) as (sm' & h' & E & R' & X). exists sm', h'.
  split; [exact E|]. split; [exact R'|]. split; [exact (extends_valid _ _ _ X V)|]. apply extends_content; assumption.
Qed.

(** The callback that overwrites every byte of what it is handed, and remembers what it was. *)
Definition blot (x : N) (ws : list bytes) (v : bsl) : M (list bytes * (bool * option err)) :=
  let! t := look v in fun h => Some ((ws ++ [t], (true, None)), poke v 0 (repeat x (length t)) h).
Definition note (ws : list bytes) (t : bytes) : list bytes * (bool * option err) := (ws ++ [t], (true, None)).

Lemma set_block_same h a t : a < length h -> block (set_block h a t) a = t.
Proof. unfold block. revert a. induction h as [|x h IH]; intros [|a] H; cbn in *; try lia; [reflexivity|]. apply IH. lia. Qed.

Lemma poke_before h json v i j xs : valid h json -> valid h v -> window json v i j -> length xs <= b_len v ->
  valid (poke v 0 xs h) json /\ skipn j (content (poke v 0 xs h) json) = skipn j (content h json).
Proof.
  intros V Vv W Lx. destruct W as (W1 & W2 & W3 & W4). destruct V as [V1 V2].
  assert (Lp : length (overwrite (block h (b_arr json)) xs (b_off v)) = length (block h (b_arr json))).
  { unfold overwrite. rewrite !app_length, firstn_length_le, skipn_length by lia. lia. }
  unfold poke. rewrite Nat.add_0_r, W2. destruct (Nat.lt_ge_cases (b_arr json) (length h)) as [La|La].
  - assert (B : block (set_block h (b_arr json) (overwrite (block h (b_arr json)) xs (b_off v))) (b_arr json) =
      overwrite (block h (b_arr json)) xs (b_off v)) by (apply set_block_same; exact La).
    split; [unfold valid; rewrite B; lia|]. unfold content. rewrite B. rewrite !skipn_firstn_comm, !skipn_add. f_equal.
    unfold overwrite. rewrite app_assoc, skipn_app, skipn_all2.
    + cbn [app]. rewrite app_length, firstn_length_le by lia. rewrite skipn_add. f_equal. lia.
    + rewrite app_length, firstn_length_le by lia. lia.
  - unfold block in V2. rewrite nth_overflow in V2 by lia. cbn in V2. unfold valid, content. assert (H : b_len json = 0) by lia.
    rewrite H. cbn [firstn]. split; [lia|]. reflexivity.
Qed.

Lemma blot_follows x json : arr_callback (fun s sm _ => s = sm) json note (blot x).
Proof.
  intros s sm h v i j <- V Vv W. unfold blot, mbind, look. eexists _, _. split; [reflexivity|]. split; [reflexivity|].
  apply (poke_before h json v i j); try assumption. rewrite repeat_length, content_len by exact Vv. lia.
Qed.

(** Every element is overwritten as it comes, and yet each is seen as it was. *)
Theorem blot_sees x json path h : valid h json ->
  match IterateArrayM json (blot x) path [] h with
  | None => IterateArray (content h json) note path [] = IPanic
  | Some ((ws, e), _) => IterateArray (content h json) note path [] = IDone ws e
  end.
Proof.
  intro V. pose proof (array_follows _ json note (blot x) path [] [] h (blot_follows x json) V eq_refl) as F. unfold iter_follows in F.
  destruct (IterateArrayM json (blot x) path [] h) as [[[ws e] h']|]; [|exact F]. destruct F as (s & -> & ->). reflexivity.
Qed.

Definition blot2 (x : N) (ws : list (bytes * bytes)) (k v : bsl) : M (list (bytes * bytes) * (bool * option err)) :=
  let! kt := look k in let! t := look v in fun h => Some ((ws ++ [(kt, t)], (true, None)), poke v 0 (repeat x (length t)) h).
Definition note2 (ws : list (bytes * bytes)) (kt t : bytes) : list (bytes * bytes) * (bool * option err) := (ws ++ [(kt, t)], (true, None)).
Lemma blot2_edits x json : kv_editor (fun s sm _ => s = sm) json note2 (blot2 x).
Proof.
  intros s sm h k v i j <- V Vk Vv W Wk. unfold blot2, mbind, look. eexists _, _. split; [reflexivity|]. split; [reflexivity|].
  apply (poke_before h json v i j); try assumption. rewrite repeat_length, content_len by exact Vv. lia.
Qed.

(** Off documents an edited value may be handed over again. *)
Definition e_mem : mem := [b "{""a"":1,,""b"":2}"].
Definition e_json : bsl := Bsl 0 0 14 14.
Lemma editing_shows : ~ (forall (St StM : Type) (R : St -> StM -> mem -> Prop) json cb cbM path s sm h, kv_editor R json cb cbM -> valid h json -> R s sm h ->
  iter_follows R (IterateKeyValueM json cbM path sm h) (IterateKeyValue (content h json) cb path s)).
Proof.
  intro F. assert (V : valid e_mem e_json) by (vm_compute; repeat split; repeat constructor).
  specialize (F _ _ _ e_json note2 (blot2 88) [] [] [] e_mem (blot2_edits 88 e_json) V eq_refl). unfold iter_follows in F.
  destruct (IterateKeyValueM e_json (blot2 88) [] [] e_mem) as [[[ws e] h']|] eqn:E; vm_compute in E; [|discriminate]. injection E as <- <- <-.
  destruct F as (s & E & ->). vm_compute in E. discriminate.
Qed.
(** A callback that writes behind what it was handed is noticed. *)
Definition w_behind (v : list bytes) (s : bsl) : M (list bytes * (bool * option err)) :=
  let! t := look s in let! _ := store (Bsl 0 0 5 5) 3 57%N in ret (v ++ [t], (true, None)).
Lemma writing_shows : ~ (forall json cbM path h sm e h',
  (forall sm v h, valid h v -> exists h', cbM sm v h = Some ((sm ++ [content h v], (true, None)), h')) ->
  valid h json -> IterateArrayM json cbM path [] h = Some ((sm, e), h') -> IterateArray (content h json) note path [] = IDone sm e).
Proof.
  intro F. assert (V : valid [b "[1,2]"] (Bsl 0 0 5 5)) by (vm_compute; repeat split; repeat constructor).
  assert (K := F (Bsl 0 0 5 5) w_behind [] [b "[1,2]"] [b "1"; b "9"] None [b "[1,9]"] (fun sm v h _ => ex_intro _ _ eq_refl) V eq_refl).
  vm_compute in K. discriminate.
Qed.
