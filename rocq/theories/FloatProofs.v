(** Facts about the model of strconv.ParseFloat. *)
From Coq Require Import String.
From Verif Require Import GoStd Json Rfc RfcProofs SpecNumber GoFloat.

Local Open Scope N_scope.

(** ** Rounding *)

Lemma window v d : 0 < d -> let u := N.log2 (v / d) - 52 in v < 2 ^ 53 * (d * 2 ^ u) /\ (0 < u -> 2 ^ 52 * (d * 2 ^ u) <= v).
Proof.
  intros Hd u. pose proof (N.div_mod v d ltac:(lia)) as E. pose proof (N.mod_upper_bound v d ltac:(lia)) as Hr.
  set (Q := v / d) in *. set (r := v mod d) in *. clearbody r.
  destruct (N.eq_dec Q 0) as [HQ|HQ].
  - assert (u = 0) by (subst u; rewrite HQ; reflexivity). clearbody u. subst u. rewrite N.mul_1_r. split; nia.
  - destruct (N.log2_spec Q ltac:(lia)) as [H1 H2]. rewrite N.pow_succ_r' in H2. subst u.
    set (L := N.log2 Q) in *. clearbody L.
    assert (P : 2 ^ L <= 2 ^ 52 * 2 ^ (L - 52)) by (rewrite <- N.pow_add_r; apply N.pow_le_mono_r; lia).
    split.
    + change (2 ^ 53) with (2 * 2 ^ 52). assert (Q + 1 <= 2 * (2 ^ 52 * 2 ^ (L - 52))) by lia.
      enough (v < d * (Q + 1)) by nia. nia.
    + intro Hu. assert (P' : 2 ^ L = 2 ^ 52 * 2 ^ (L - 52)) by (rewrite <- N.pow_add_r; f_equal; lia).
      enough (d * 2 ^ L <= v) by nia. nia.
Qed.

Definition picked (c q r : N) : N := if (2 * r <? c) || ((2 * r =? c) && N.even q) then q else q + 1.

(** The integer next to v/c. *)
Lemma picked_nearest v c q r k : 0 < c -> v = c * q + r -> r < c ->
  let m := picked c q r in
  (Z.abs (Z.of_N (m * c) - Z.of_N v) <= Z.abs (Z.of_N (k * c) - Z.of_N v))%Z /\
  (Z.abs (Z.of_N (m * c) - Z.of_N v) = Z.abs (Z.of_N (k * c) - Z.of_N v) -> k = m \/ N.even m = true)%Z.
Proof.
  intros Hc Hv Hr. unfold picked.
  assert (Hk : k <= q \/ q + 1 <= k) by lia.
  destruct (N.ltb_spec (2 * r) c) as [H|H]; cbn [orb].
  - split; [|intro E; left]; destruct Hk; nia.
  - destruct (N.eqb_spec (2 * r) c) as [E2|E2]; cbn [andb].
    + destruct (N.even q) eqn:Ev.
      * split; [destruct Hk; nia|auto].
      * split; [destruct Hk; nia|]. intros _. right. rewrite N.add_1_r, N.even_succ, <- N.negb_even, Ev. reflexivity.
    + split; [|intro E; left]; destruct Hk; nia.
Qed.

Lemma picked_range v c q r lo hi : 0 < c -> v = c * q + r -> r < c -> lo * c <= v -> v < hi * c -> lo <= picked c q r <= hi.
Proof.
  intros Hc Hv Hr Hlo Hhi. assert (q < hi) by nia. assert (lo <= q) by nia. unfold picked. destruct (_ || _); lia.
Qed.

Lemma finite_ok_iff m u : finite_ok m u = true <-> m < 2 ^ 53 /\ u <= 2045 /\ (2 ^ 52 <= m \/ u = 0).
Proof.
  unfold finite_ok. rewrite !andb_true_iff, orb_true_iff, N.ltb_lt, !N.leb_le, N.eqb_eq. tauto.
Qed.

(** What [round64] computes before it looks for an overflow. *)
Lemma round64_eq n d : 0 < d ->
  exists u c m, 
    let v := n * 2 ^ 1074 in
    u = N.log2 (v / d) - 52 /\ c = d * 2 ^ u /\ v < 2 ^ 53 * c /\ (0 < u -> 2 ^ 52 * c <= v) /\ 0 < c /\ m = picked c (v / c) (v mod c) /\
    m <= 2 ^ 53 /\ (0 < u -> 2 ^ 52 <= m) /\
    round64 n d = if m =? 2 ^ 53 then (if u + 1 <=? 2045 then Some (2 ^ 52, u + 1) else None)
                  else if u <=? 2045 then Some (m, u) else None.
Proof.
  intro Hd. set (v := n * 2 ^ 1074). exists (N.log2 (v / d) - 52), (d * 2 ^ (N.log2 (v / d) - 52)).
  destruct (window v d Hd) as [W1 W2]. unfold round64. fold v.
  set (u := N.log2 (v / d) - 52) in *. clearbody u. assert (Hp : 0 < 2 ^ u) by (apply N.neq_0_lt_0, N.pow_nonzero; lia).
  set (c := d * 2 ^ u) in *. assert (Hc : 0 < c) by (subst c; nia). clearbody c v.
  exists (picked c (v / c) (v mod c)). cbv zeta.
  pose proof (N.div_mod v c ltac:(lia)) as E. pose proof (N.mod_upper_bound v c ltac:(lia)) as Hr.
  split; [reflexivity|]. split; [reflexivity|]. split; [exact W1|]. split; [exact W2|]. split; [exact Hc|]. split; [reflexivity|].
  split; [apply (picked_range v c _ _ 0 (2 ^ 53) Hc E Hr); lia|].
  split; [intro Hu; apply (picked_range v c _ _ (2 ^ 52) (2 ^ 53) Hc E Hr); [apply W2; exact Hu|exact W1]|].
  fold (picked c (v / c) (v mod c)). destruct (_ =? 2 ^ 53); reflexivity.
Qed.

Lemma below_half k A X Y d : k < A * 2 -> X * 2 <= Y -> 0 < X -> 0 < d -> k * X * d < A * (d * Y).
Proof.
  intros H1 H2 H3 H4. assert (k * X < A * Y) by nia. nia.
Qed.

Theorem round64_nearest n d m u : 0 < d -> round64 n d = Some (m, u) ->
  finite_ok m u = true /\
  forall m' u', finite_ok m' u' = true ->
    (off_by n d m u <= off_by n d m' u')%Z /\
    (off_by n d m u = off_by n d m' u' -> (m', u') = (m, u) \/ N.even m = true).
Proof.
  intros Hd H. destruct (round64_eq n d Hd) as (w & c & k & _ & Ec & W1 & W2 & Hc & Ek & Kmax & Kmin & E).
  rewrite H in E. clear H. unfold off_by. set (v := n * 2 ^ 1074) in *. clearbody v.
  pose proof (N.div_mod v c ltac:(lia)) as Ev. pose proof (N.mod_upper_bound v c ltac:(lia)) as Hr.
  assert (R : finite_ok m u = true /\ m * 2 ^ u = k * 2 ^ w /\ (k = m /\ u = w \/ k = 2 ^ 53 /\ N.even m = true)).
  { destruct (N.eqb_spec k (2 ^ 53)) as [Ek2|Nk].
    - destruct (N.leb_spec (w + 1) 2045); [|discriminate]. injection E as -> ->.
      split; [apply finite_ok_iff; split; [reflexivity|split; [assumption|left; apply N.le_refl]]|].
      split; [rewrite Ek2, N.pow_add_r; change (2 ^ 53) with (2 ^ 52 * 2); lia|]. right. split; [exact Ek2|reflexivity].
    - destruct (N.leb_spec w 2045); [|discriminate]. injection E as -> ->.
      split; [|split; [reflexivity|left; split; reflexivity]].
      apply finite_ok_iff. split; [lia|]. split; [assumption|]. destruct (N.eq_dec w 0); [right; assumption|left; apply Kmin; lia]. }
  destruct R as (F & Em & Cs). split; [exact F|]. intros m' u' F'. apply finite_ok_iff in F' as (F1 & F2 & F3).
  rewrite Em. replace (k * 2 ^ w * d) with (k * c) by (subst c; lia).
  destruct (N.le_gt_cases w u') as [Hle|Hgt].
  - replace (m' * 2 ^ u' * d) with ((m' * 2 ^ (u' - w)) * c).
    2:{ subst c. replace (2 ^ u') with (2 ^ (u' - w) * 2 ^ w) by (rewrite <- N.pow_add_r; f_equal; lia). lia. }
    destruct (picked_nearest v c (v / c) (v mod c) (m' * 2 ^ (u' - w)) Hc Ev Hr) as [N1 N2]. rewrite <- Ek in N1, N2.
    split; [exact N1|]. intro T. destruct (N2 T) as [T1|T1].
    + destruct Cs as [[Ck Cu]|[Ck Ce]]; [|right; exact Ce]. subst k u.
      destruct (N.eq_dec u' w) as [->|Nw].
      * left. rewrite N.sub_diag, N.mul_1_r in T1. subst. reflexivity.
      * right. rewrite <- Ck, <- T1, N.even_mul, N.even_pow by lia. apply orb_true_r.
    + destruct Cs as [[Ck Cu]|[Ck Ce]]; right; [subst m; exact T1|exact Ce].
  - specialize (W2 ltac:(lia)). destruct (picked_nearest v c (v / c) (v mod c) (2 ^ 52) Hc Ev Hr) as [N1 _]. rewrite <- Ek in N1.
    assert (Hy : m' * 2 ^ u' * d < 2 ^ 52 * c).
    { subst c. assert (2 ^ u' * 2 <= 2 ^ w).
      { replace (2 ^ u' * 2) with (2 ^ (u' + 1)) by (rewrite N.pow_add_r; reflexivity). apply N.pow_le_mono_r; lia. }
      assert (0 < 2 ^ u') by (apply N.neq_0_lt_0, N.pow_nonzero; lia).
      change (2 ^ 53) with (2 ^ 52 * 2) in F1. apply below_half; assumption. }
    split; [lia|]. intro T. exfalso. lia.
Qed.

(** The inequalities between the bounds; [K] is twice [B] less one. *)
Lemma far_below K B Z W d : K + 1 = 2 * B -> 0 < B -> W <= Z -> B * (d * W) <= K * Z * d.
Proof. intros H1 H2 H3. assert (B * W <= K * Z) by nia. nia. Qed.
Lemma far_above K B A Z W d : K + 1 = 2 * B -> B = 2 * A -> Z * 2 * 2 <= W -> K * Z * d <= A * (d * W).
Proof. intros H1 H2 H3. assert (K * Z <= A * W) by nia. nia. Qed.
Lemma in_range m B Z W d : m < B -> W <= 2 * Z -> 0 < Z -> 0 < d -> (2 * B - 1) * Z * d <= m * W * d -> False.
Proof.
  intros H1 H2 H3 H4 H5. assert (m * W <= m * (2 * Z)) by nia. assert (m * (2 * Z) < (2 * B - 1) * Z).
  { replace (m * (2 * Z)) with ((2 * m) * Z) by lia. apply N.mul_lt_mono_pos_r; lia. }
  assert ((2 * B - 1) * Z <= m * W) by (apply (N.mul_le_mono_pos_r _ _ d); assumption). lia.
Qed.
Lemma doubled K Z d v : K * Z * d <= v <-> K * (d * (Z * 2)) <= 2 * v.
Proof. replace (K * (d * (Z * 2))) with (2 * (K * Z * d)) by lia. lia. Qed.
Lemma below_q v c q r B : v = c * q + r -> v < B * c -> q < B.
Proof. intros. nia. Qed.
Lemma last_half v c q r B K : 0 < c -> v = c * q + r -> K + 1 = 2 * B -> q + 1 = B -> c <= 2 * r -> K * c <= 2 * v.
Proof. intros H1 H2 H3 H4 H5. replace K with (2 * q + 1) by lia. nia. Qed.
Lemma last_half_inv v c q r B K : 0 < c -> v = c * q + r -> r < c -> K + 1 = 2 * B -> q < B -> K * c <= 2 * v ->
  q + 1 = B /\ c <= 2 * r.
Proof.
  intros H1 H2 H3 H4 H5 H6. assert (E : q + 1 = B).
  { destruct (N.lt_trichotomy (q + 1) B) as [L|[L|L]]; [exfalso|exact L|lia]. assert (2 * q + 3 <= K) by lia. nia. }
  split; [exact E|]. replace K with (2 * q + 1) in H6 by lia. nia.
Qed.

(** An overflow: at least half a unit beyond the largest number. *)
Theorem round64_overflow n d : 0 < d -> (round64 n d = None <-> (2 ^ 54 - 1) * 2 ^ 2044 * d <= n * 2 ^ 1074).
Proof.
  intro Hd. destruct (round64_eq n d Hd) as (w & c & k & _ & Ec & W1 & W2 & Hc & Ek & Kmax & Kmin & E).
  rewrite E. clear E. set (v := n * 2 ^ 1074) in *. clearbody v.
  pose proof (N.div_mod v c ltac:(lia)) as Ev. pose proof (N.mod_upper_bound v c ltac:(lia)) as Hr.
  change (2 ^ 54 - 1) with (2 * 2 ^ 53 - 1). set (B := 2 ^ 53) in *. set (A := 2 ^ 52) in *.
  assert (HB : B = 2 * A) by reflexivity. assert (HA : 1 < A) by reflexivity.
  assert (HBe : N.even B = true) by reflexivity. clearbody A B.
  set (K := 2 * B - 1). assert (HK : K + 1 = 2 * B) by (subst K; lia). clearbody K.
  set (q := v / c) in *. set (r := v mod c) in *. clearbody q r.
  assert (Cw : w < 2045 \/ w = 2045 \/ 2045 < w) by lia. destruct Cw as [Cw|[Cw|Cw]].
  - assert (P : 2 ^ w * 2 <= 2 ^ 2045).
    { replace (2 ^ w * 2) with (2 ^ (w + 1)) by (rewrite N.pow_add_r; reflexivity). apply N.pow_le_mono_r; lia. }
    change (2 ^ 2045) with (2 ^ 2044 * 2) in P. set (Z := 2 ^ 2044) in *. clearbody Z.
    assert (HZ : v < K * Z * d).
    { apply N.lt_le_trans with (1 := W1). subst c. apply far_below with (1 := HK); lia. }
    split; intro H; [|lia]. exfalso. destruct (_ =? _).
    + destruct (N.leb_spec (w + 1) 2045); [discriminate|lia].
    + destruct (N.leb_spec w 2045); [discriminate|lia].
  - subst w. change (2 ^ 2045) with (2 ^ 2044 * 2) in Ec. set (Z := 2 ^ 2044) in *. clearbody Z.
    assert (HZ : K * Z * d <= v <-> K * c <= 2 * v) by (subst c; apply doubled).
    rewrite HZ. clear HZ. replace (2045 + 1 <=? 2045) with false by reflexivity. replace (2045 <=? 2045) with true by reflexivity.
    assert (Hq : q < B) by (apply (below_q v c q r B); assumption). destruct (N.eqb_spec k B) as [Kb|Kb].
    + split; [intros _|reflexivity]. subst k. unfold picked in Kb.
      destruct (N.ltb_spec (2 * r) c); cbn [orb] in Kb; [lia|].
      destruct ((2 * r =? c) && N.even q); [lia|]. apply (last_half v c q r B K); assumption.
    + split; [discriminate|]. intro H. exfalso. apply Kb. rewrite Ek. unfold picked.
      destruct (last_half_inv v c q r B K Hc Ev Hr HK Hq H) as [Hq1 Hr1].
      assert (Eq : N.even q = false).
      { rewrite <- N.negb_odd. replace q with (N.pred B) by lia. rewrite N.odd_pred, HBe by lia. reflexivity. }
      rewrite Eq, andb_false_r, orb_false_r. destruct (N.ltb_spec (2 * r) c); lia.
  - assert (P : 2 ^ 2044 * 2 * 2 <= 2 ^ w).
    { change (2 ^ 2044 * 2 * 2) with (2 ^ 2046). apply N.pow_le_mono_r; lia. }
    set (Z := 2 ^ 2044) in *. clearbody Z. specialize (W2 ltac:(lia)). split; intro H.
    + apply N.le_trans with (2 := W2). subst c. apply far_above with (1 := HK) (2 := HB). exact P.
    + replace (w + 1 <=? 2045) with false by (symmetry; apply N.leb_gt; lia).
      replace (w <=? 2045) with false by (symmetry; apply N.leb_gt; lia). destruct (_ =? _); reflexivity.
Qed.

(** A fraction that is a float64 is not changed. *)
Theorem round64_exact n d m u : 0 < d -> finite_ok m u = true -> n * 2 ^ 1074 = m * 2 ^ u * d -> round64 n d = Some (m, u).
Proof.
  intros Hd F E. destruct (round64 n d) as [[m' u']|] eqn:R.
  - destruct (round64_nearest n d m' u' Hd R) as (F' & H). destruct (H m u F) as [H1 _].
    unfold off_by in H1. rewrite E in H1.
    assert (D : m' * 2 ^ u' = m * 2 ^ u) by nia. f_equal.
    apply finite_ok_iff in F as (F1 & F2 & F3), F' as (F1' & F2' & F3').
    destruct (N.lt_trichotomy u u') as [L|[L|L]].
    + exfalso. assert (2 ^ u' = 2 ^ u * 2 ^ (u' - u)) by (rewrite <- N.pow_add_r; f_equal; lia).
      assert (2 ^ 1 <= 2 ^ (u' - u)) by (apply N.pow_le_mono_r; lia). change (2 ^ 1) with 2 in *. change (2 ^ 53) with (2 * 2 ^ 52) in *.
      assert (0 < 2 ^ u) by (apply N.neq_0_lt_0, N.pow_nonzero; lia). set (A := 2 ^ 52) in *. clearbody A.
      assert (A <= m') by lia. rewrite H0 in D. assert (m' * 2 ^ (u' - u) = m) by nia. nia.
    + subst u'. f_equal. assert (0 < 2 ^ u) by (apply N.neq_0_lt_0, N.pow_nonzero; lia). nia.
    + exfalso. assert (2 ^ u = 2 ^ u' * 2 ^ (u - u')) by (rewrite <- N.pow_add_r; f_equal; lia).
      assert (2 ^ 1 <= 2 ^ (u - u')) by (apply N.pow_le_mono_r; lia). change (2 ^ 1) with 2 in *. change (2 ^ 53) with (2 * 2 ^ 52) in *.
      assert (0 < 2 ^ u') by (apply N.neq_0_lt_0, N.pow_nonzero; lia). set (A := 2 ^ 52) in *. clearbody A.
      assert (A <= m) by lia. rewrite H0 in D. assert (m * 2 ^ (u - u') = m') by nia. nia.
  - exfalso. apply round64_overflow in R; [|exact Hd]. rewrite E in R.
    apply finite_ok_iff in F as (F1 & F2 & F3). assert (2 ^ u <= 2 ^ 2045) by (apply N.pow_le_mono_r; lia).
    change (2 ^ 2045) with (2 * 2 ^ 2044) in *. change (2 ^ 54 - 1) with (2 * 2 ^ 53 - 1) in R.
    set (Z := 2 ^ 2044) in *. assert (0 < Z) by reflexivity. clearbody Z. set (B := 2 ^ 53) in *. assert (0 < B) by reflexivity. clearbody B.
    apply (in_range m B Z (2 ^ u) d) in R; assumption.
Qed.

(** ** Everything ParseFloat accepts is a token *)
Lemma lower_small c : lower c < 128 -> c < 128.
Proof.
  unfold lower. intro H. destruct (N.lt_ge_cases c 128) as [L|L]; [exact L|]. exfalso.
  assert (c <= N.lor c 32).
  { apply N.ldiff_le, N.bits_inj_iff. intro i. rewrite N.ldiff_spec, N.lor_spec, N.bits_0. destruct (N.testbit c i); reflexivity. }
  lia.
Qed.

Definition below128 (P : N -> bool) : bool := forallb P (map N.of_nat (seq 0 128)).
Lemma check128 P c : below128 P = true -> c < 128 -> P c = true.
Proof.
  intros H Hc. unfold below128 in H. rewrite forallb_forall in H. apply H. apply in_map_iff. exists (N.to_nat c). split; [lia|].
  apply in_seq. lia.
Qed.

Definition letter_of (x : N) (c : N) : bool := implb (lower c =? x) (is_token_char c).
Lemma lower_token c x : lower c = x -> x < 128 -> below128 (letter_of x) = true -> is_token_char c = true.
Proof.
  intros E Hx H. assert (Hc : c < 128) by (apply lower_small; lia). pose proof (check128 _ c H Hc) as K.
  unfold letter_of in K. rewrite E, N.eqb_refl in K. exact K.
Qed.
Lemma dec_token c : dec_digit c = true -> is_token_char c = true.
Proof.
  intro H. assert (Hc : c < 128) by (unfold dec_digit in H; apply andb_true_iff in H as [_ H]; apply N.leb_le in H; lia).
  pose proof (check128 (fun c => implb (dec_digit c) (is_token_char c)) c eq_refl Hc) as K. cbv beta in K. rewrite H in K. exact K.
Qed.
Lemma hex_token c : hex_letter c = true -> is_token_char c = true.
Proof.
  intro H. assert (Hc : c < 128).
  { apply lower_small. unfold hex_letter in H. apply andb_true_iff in H as [_ H]. apply N.leb_le in H. lia. }
  pose proof (check128 (fun c => implb (hex_letter c) (is_token_char c)) c eq_refl Hc) as K. cbv beta in K. rewrite H in K. exact K.
Qed.

Definition token_list (s : bytes) : bool := forallb is_token_char s.
Lemma token_app s t : token_list (s ++ t) = token_list s && token_list t.
Proof. apply forallb_app. Qed.

Lemma mantissa_token hex : forall s dot sd us m f sd' us' m' f' rest,
  mantissa hex dot sd us m f s = (sd', us', m', f', rest) -> exists t, s = t ++ rest /\ token_list t = true.
Proof.
  induction s as [|c s IH]; intros dot sd us m f sd' us' m' f' rest H; cbn [mantissa] in H.
  - exists []. injection H as _ _ _ _ <-. split; reflexivity.
  - assert (K : forall sd dot us m f, is_token_char c = true -> mantissa hex dot sd us m f s = (sd', us', m', f', rest) ->
                exists t, c :: s = t ++ rest /\ token_list t = true).
    { intros sd0 dot0 us0 m0 f0 Hc E. destruct (IH _ _ _ _ _ _ _ _ _ _ E) as (t & -> & Ht). exists (c :: t). split; [reflexivity|].
      cbn [token_list forallb]. rewrite Hc. exact Ht. }
    assert (S : (sd, us, m, f, c :: s) = (sd', us', m', f', rest) -> exists t, c :: s = t ++ rest /\ token_list t = true).
    { intro E. injection E as _ _ _ _ <-. exists []. split; reflexivity. }
    destruct (N.eqb_spec c 95) as [->|N1]; [eapply K; [reflexivity|exact H]|].
    destruct (N.eqb_spec c 46) as [->|N2]; [destruct dot; [apply S; exact H|eapply K; [reflexivity|exact H]]|].
    destruct (dec_digit c) eqn:D; [eapply K; [apply dec_token; exact D|exact H]|].
    destruct (hex && hex_letter c) eqn:X; [|apply S; exact H].
    apply andb_true_iff in X as [_ X]. eapply K; [apply hex_token; exact X|exact H].
Qed.

Lemma exponent_token : forall s us e us' e' rest, exponent us e s = (us', e', rest) -> exists t, s = t ++ rest /\ token_list t = true.
Proof.
  induction s as [|c s IH]; intros us e us' e' rest H; cbn [exponent] in H.
  - exists []. injection H as _ _ <-. split; reflexivity.
  - assert (K : forall us e, is_token_char c = true -> exponent us e s = (us', e', rest) -> exists t, c :: s = t ++ rest /\ token_list t = true).
    { intros us0 e0 Hc E. destruct (IH _ _ _ _ _ E) as (t & -> & Ht). exists (c :: t). split; [reflexivity|].
      cbn [token_list forallb]. rewrite Hc. exact Ht. }
    destruct (N.eqb_spec c 95) as [->|N1]; [eapply K; [reflexivity|exact H]|].
    destruct (dec_digit c) eqn:D; [eapply K; [apply dec_token; exact D|exact H]|].
    injection H as _ _ <-. exists []. split; reflexivity.
Qed.

Lemma sign_token s neg r : sign s = (neg, r) -> exists t, s = t ++ r /\ token_list t = true.
Proof.
  destruct s as [|c s]; cbn [sign]; intro H; [injection H as _ <-; exists []; split; reflexivity|].
  destruct (N.eqb_spec c 43) as [->|]; [injection H as _ <-; exists [43]; split; reflexivity|].
  destruct (N.eqb_spec c 45) as [->|]; [injection H as _ <-; exists [45]; split; reflexivity|].
  injection H as _ <-. exists []. split; reflexivity.
Qed.

Lemma readFloat_token s x : readFloat s = Some x -> scalar_ok s = true.
Proof.
  intro H. assert (G : s <> [] /\ token_list s = true).
  2:{ destruct G as [G1 G2]. destruct s; [contradiction|exact G2]. }
  split; [intros ->; vm_compute in H; discriminate H|]. unfold readFloat in H.
  destruct (sign s) as [neg s1] eqn:E1. destruct (sign_token _ _ _ E1) as (t1 & -> & T1).
  rewrite token_app, T1. cbn [andb]. clear T1.
  assert (P : exists t, s1 = t ++ snd (hex_prefix s1) /\ token_list t = true).
  { destruct s1 as [|z [|x0 [|y r]]]; try (exists []; split; reflexivity). cbn [hex_prefix].
    destruct (N.eqb_spec z 48) as [->|]; [|exists []; split; reflexivity]. cbn [andb].
    destruct (N.eqb_spec (lower x0) 120) as [L|]; [|exists []; split; reflexivity].
    exists [48; x0]. split; [reflexivity|]. cbn [token_list forallb]. rewrite (lower_token x0 120 L); reflexivity. }
  destruct (hex_prefix s1) as [hex s2]. cbn [snd] in P. destruct P as (t2 & -> & T2). rewrite token_app, T2. cbn [andb]. clear T2.
  destruct (mantissa hex false false false 0 0 s2) as [[[[sd us] m] f] s3] eqn:E3.
  destruct (mantissa_token _ _ _ _ _ _ _ _ _ _ _ _ E3) as (t3 & -> & T3). rewrite token_app, T3. cbn [andb]. clear T3 E3.
  destruct (negb sd); [discriminate|]. destruct s3 as [|c s4]; [reflexivity|].
  destruct (lower c =? (if hex then 112 else 101)) eqn:L; [|discriminate]. apply N.eqb_eq in L.
  destruct (sign s4) as [eneg s5] eqn:E5. destruct (sign_token _ _ _ E5) as (t5 & -> & T5). change (c :: t5 ++ s5) with ([c] ++ t5 ++ s5).
  rewrite !token_app, T5. clear T5 E5. assert (Hc : token_list [c] = true).
  { cbn [token_list forallb]. destruct hex; rewrite (lower_token c _ L); reflexivity. }
  rewrite Hc. cbn [andb]. destruct s5 as [|c5 s5]; [discriminate|]. destruct (dec_digit c5); [|discriminate].
  destruct (exponent us 0 (c5 :: s5)) as [[us' e] s6] eqn:E6. destruct (exponent_token _ _ _ _ _ _ E6) as (t6 & -> & T6).
  destruct s6; [|discriminate]. rewrite token_app, T6. reflexivity.
Qed.

Lemma fold_token c : is_token_char (fold_case c) = true -> is_token_char c = true.
Proof.
  unfold fold_case. destruct ((65 <=? c) && (c <=? 90)) eqn:E; [|auto]. intros _.
  assert (Hc : c < 128) by (apply andb_true_iff in E as [_ E]; apply N.leb_le in E; lia).
  pose proof (check128 (fun c => implb ((65 <=? c) && (c <=? 90)) (is_token_char c)) c eq_refl Hc) as K. cbv beta in K. rewrite E in K. exact K.
Qed.

Lemma special_token s x : special s = Some x -> scalar_ok s = true.
Proof.
  unfold special. intro H. assert (G : s <> [] /\ token_list (map fold_case s) = true).
  { assert (K : exists k, map fold_case s = k /\ In k [b "nan"; b "inf"; b "infinity"; b "+inf"; b "+infinity"; b "-inf"; b "-infinity"]).
    { destruct (bytes_eqb (map fold_case s) (b "nan")) eqn:E1; [apply bytes_eqb_eq in E1; exists (b "nan"); split; [exact E1|left; reflexivity]|].
      destruct (existsb _ [b "inf"; b "infinity"; b "+inf"; b "+infinity"]) eqn:E2.
      - apply existsb_exists in E2 as (k & Hk & E2). apply bytes_eqb_eq in E2. exists k. split; [exact E2|]. cbn in Hk |- *. tauto.
      - destruct (existsb _ [b "-inf"; b "-infinity"]) eqn:E3; [|discriminate H].
        apply existsb_exists in E3 as (k & Hk & E3). apply bytes_eqb_eq in E3. exists k. split; [exact E3|]. cbn in Hk |- *. tauto. }
    destruct K as (k & E & Hk). rewrite E. split.
    - intros ->. cbn in E. subst k. repeat destruct Hk as [Hk|Hk]; try discriminate Hk; contradiction.
    - repeat destruct Hk as [<-|Hk]; try reflexivity; contradiction. }
  destruct G as [G1 G2]. destruct s as [|c s]; [contradiction|]. unfold scalar_ok. clear G1 H.
  revert G2. generalize (c :: s). intro t. induction t as [|a t IH]; intro G; [reflexivity|].
  cbn [token_list map forallb] in G |- *. apply andb_true_iff in G as [Ga Gt]. rewrite (fold_token _ Ga). apply IH. exact Gt.
Qed.

Theorem ParseFloat_token s : float_ok s = true -> scalar_ok s = true.
Proof.
  unfold float_ok, ParseFloat. destruct (special s) eqn:E; [intros _; eapply special_token; exact E|].
  destruct (readFloat s) eqn:E'; [intros _; eapply readFloat_token; exact E'|discriminate].
Qed.

(** ** The numbers of JSON *)
Lemma round64_spec n d : 0 < d ->
  match round64 n d with Some (m, u) => nearest n d m u | None => too_large n d end.
Proof.
  intro Hd. destruct (round64 n d) as [[m u]|] eqn:E.
  - destruct (round64_nearest n d m u Hd E) as (F & H). split; [apply finite_ok_iff; exact F|].
    intros m' u' F'. apply H. apply finite_ok_iff. exact F'.
  - apply round64_overflow; assumption.
Qed.

Lemma dec_is_digit c : dec_digit c = digit c.
Proof. reflexivity. Qed.

Lemma digit_not c : digit c = true -> (c =? 95) = false /\ (c =? 46) = false /\ (c =? 43) = false /\ (c =? 45) = false /\ (c =? 101) = false.
Proof. unfold digit. intro H. apply andb_true_iff in H as [H1 H2]. apply N.leb_le in H1, H2. repeat split; apply N.eqb_neq; lia. Qed.

(** Does the text stop the loop over digits? *)
Definition stops (dot : bool) (s : bytes) : Prop :=
  match s with [] => True | c :: _ => c <> 95 /\ digit c = false /\ (c = 46 -> dot = true) end.

Lemma mantissa_stops dot sd us m f s : stops dot s -> mantissa false dot sd us m f s = (sd, us, m, f, s).
Proof.
  destruct s as [|c s]; intro H; [reflexivity|]. destruct H as (H1 & H2 & H3). cbn [mantissa].
  destruct (N.eqb_spec c 95); [contradiction|]. rewrite dec_is_digit, H2. cbn [andb].
  destruct (N.eqb_spec c 46) as [->|]; [rewrite (H3 eq_refl)|]; reflexivity.
Qed.

Lemma mantissa_digits ds : forall dot sd us m f r, forallb digit ds = true ->
  mantissa false dot sd us m f (ds ++ r) =
  mantissa false dot (sd || negb (length ds =? 0)%nat) us (decimal m ds) (if dot then f + N.of_nat (length ds) else f) r.
Proof.
  induction ds as [|c ds IH]; intros dot sd us m f r H.
  - cbn. rewrite orb_false_r. destruct dot; [rewrite N.add_0_r|]; reflexivity.
  - cbn [forallb] in H. apply andb_true_iff in H as [Hc H]. destruct (digit_not c Hc) as (E1 & E2 & _).
    cbn [app mantissa]. rewrite E1, E2, dec_is_digit, Hc, IH by exact H. cbn [decimal length].
    replace (true || negb (length ds =? 0)%nat) with true by reflexivity.
    replace (sd || negb (S (length ds) =? 0)%nat) with true by (cbn; rewrite orb_true_r; reflexivity).
    destruct dot; [|reflexivity]. f_equal. lia.
Qed.

Lemma exponent_digits ds : forall us e, forallb digit ds = true -> decimal e ds < 100000 -> e < 10000 \/ ds = [] ->
  exponent us e ds = (us, decimal e ds, []).
Proof.
  assert (mono : forall ds e, e <= decimal e ds).
  { induction ds0 as [|c ds0 IH]; intro e; cbn [decimal]; [lia|]. specialize (IH (e * 10 + (c - 48))). lia. }
  induction ds as [|c ds IH]; intros us e H Hd He; [reflexivity|].
  cbn [forallb] in H. apply andb_true_iff in H as [Hc H]. destruct (digit_not c Hc) as (E1 & _).
  destruct He as [He|He]; [|discriminate]. cbn [exponent decimal] in *. rewrite E1, dec_is_digit, Hc.
  replace (e <? 10000) with true by (symmetry; apply N.ltb_lt; exact He). apply IH; [exact H|exact Hd|].
  destruct ds as [|c' ds]; [right; reflexivity|left]. cbn [decimal] in Hd.
  specialize (mono ds ((e * 10 + (c - 48)) * 10 + (c' - 48))). lia.
Qed.

Lemma decimal_app s t : forall a, decimal a (s ++ t) = decimal (decimal a s) t.
Proof. induction s as [|c s IH]; intro a; [reflexivity|cbn [app decimal]; apply IH]. Qed.

Lemma digits1_all s : digits1 s = true -> forallb digit s = true /\ s <> [].
Proof. destruct s; [discriminate|]. intro H. split; [exact H|discriminate]. Qed.

Definition exp_text (x : number) : bytes := match n_exp x with Some (l, sg, e) => l :: sg ++ e | None => [] end.
Definition frac_text (x : number) : bytes := match n_frac x with Some f => 46 :: f | None => [] end.

Lemma number_read x : number_wf x = true -> (Z.abs (exponent_of x) < 100000)%Z ->
  readFloat (number_text x) = Some (n_neg x, 10, decimal 0 (n_int x ++ frac_digits x), scale x).
Proof.
  intros Hx He. unfold number_wf in Hx. rewrite !andb_true_iff in Hx. destruct Hx as [[[Hi _] Hf] Hex].
  destruct (digits1_all _ Hi) as [Di Ni].
  assert (S1 : sign (number_text x) = (n_neg x, n_int x ++ frac_text x ++ exp_text x)).
  { unfold number_text. destruct (n_neg x); [reflexivity|]. destruct (n_int x) as [|c i]; [contradiction|].
    cbn [forallb] in Di. apply andb_true_iff in Di as [Dc _]. destruct (digit_not c Dc) as (_ & _ & E3 & E4 & _).
    cbn [app sign]. rewrite E3, E4. reflexivity. }
  unfold readFloat. rewrite S1.
  assert (S2 : stops true (exp_text x)).
  { unfold exp_text. destruct (n_exp x) as [[[l sg] e]|]; [|exact I]. rewrite !andb_true_iff, orb_true_iff, !N.eqb_eq in Hex.
    destruct Hex as [[[->| ->] _] _]; (split; [discriminate|split; [reflexivity|discriminate]]). }
  assert (S3 : hex_prefix (n_int x ++ frac_text x ++ exp_text x) = (false, n_int x ++ frac_text x ++ exp_text x)).
  { destruct (n_int x) as [|c i] eqn:Ei; [contradiction|]. cbn [app hex_prefix].
    destruct (i ++ frac_text x ++ exp_text x) as [|c2 [|c3 r]] eqn:Er; try reflexivity.
    replace (lower c2 =? 120) with false; [rewrite andb_false_r; reflexivity|].
    symmetry. apply N.eqb_neq. intro L. assert (Hc2 : digit c2 = true \/ c2 = 46 \/ c2 = 101 \/ c2 = 69).
    { cbn [forallb] in Di. apply andb_true_iff in Di as [_ Di]. destruct i as [|c' i].
      - unfold frac_text, exp_text in Er. destruct (n_frac x); cbn [app] in Er; [injection Er as <- _; auto|].
        destruct (n_exp x) as [[[l sg] e]|]; [|discriminate]. injection Er as <- _.
        rewrite !andb_true_iff, orb_true_iff, !N.eqb_eq in Hex. tauto.
      - injection Er as <- _. cbn [forallb] in Di. apply andb_true_iff in Di as [Di _]. auto. }
    assert (Hs : c2 < 128).
    { destruct Hc2 as [Hc2|[->|[->| ->]]]; [|lia..]. unfold digit in Hc2. apply andb_true_iff in Hc2 as [_ Hc2]. apply N.leb_le in Hc2. lia. }
    pose proof (check128 (fun c => implb (digit c || (c =? 46) || (c =? 101) || (c =? 69)) (negb (lower c =? 120))) c2 eq_refl Hs) as K.
    cbv beta in K. rewrite L, N.eqb_refl in K. cbn [negb] in K.
    replace (digit c2 || (c2 =? 46) || (c2 =? 101) || (c2 =? 69)) with true in K; [discriminate K|].
    symmetry. destruct Hc2 as [->|[->|[->| ->]]]; reflexivity. }
  rewrite S3.
  assert (S4 : mantissa false false false false 0 0 (n_int x ++ frac_text x ++ exp_text x) =
    (true, false, decimal 0 (n_int x ++ frac_digits x), N.of_nat (length (frac_digits x)), exp_text x)).
  { rewrite mantissa_digits by exact Di. cbn [orb].
    replace (negb (length (n_int x) =? 0)%nat) with true by (destruct (n_int x); [contradiction|reflexivity]).
    unfold frac_text, frac_digits. destruct (n_frac x) as [f|]; cbn [app].
    - cbn [mantissa]. change (46 =? 95) with false. change (46 =? 46) with true. cbv iota.
      destruct (digits1_all _ Hf) as [Df _]. rewrite mantissa_digits by exact Df. cbn [orb].
      rewrite mantissa_stops by exact S2. rewrite decimal_app. reflexivity.
    - rewrite app_nil_r. rewrite mantissa_stops; [reflexivity|]. unfold stops in S2 |- *. destruct (exp_text x) eqn:Ex; [exact I|].
      destruct S2 as (A1 & A2 & A3). repeat split; auto. intro E. exfalso. unfold exp_text in Ex. destruct (n_exp x) as [[[l0 sg] e]|]; [|discriminate].
      injection Ex as -> _. subst n. rewrite !andb_true_iff in Hex. destruct Hex as [[Hex _] _]. discriminate Hex. }
  rewrite S4. cbn [negb]. unfold scale, exponent_of, exp_text in *. destruct (n_exp x) as [[[l sg] e]|].
  - rewrite !andb_true_iff, !orb_true_iff, !N.eqb_eq in Hex. destruct Hex as [[Hl Hsg] Hd]. destruct (digits1_all _ Hd) as [De Ne].
    assert (L : lower l =? 101 = true) by (destruct Hl as [->| ->]; reflexivity). rewrite L.
    assert (S5 : sign (sg ++ e) = (bytes_eqb sg [45], e)).
    { rewrite !bytes_eqb_eq in Hsg. destruct Hsg as [[->| ->]| ->]; [|reflexivity..]. cbn [app].
      destruct e as [|c e]; [contradiction|]. cbn [forallb] in De. apply andb_true_iff in De as [Dc _].
      destruct (digit_not c Dc) as (_ & _ & E3 & E4 & _). cbn [sign]. rewrite E3, E4. reflexivity. }
    rewrite S5. destruct e as [|c e']; [contradiction|].
    assert (Dc : dec_digit c = true). { cbn [forallb] in De. apply andb_true_iff in De as [Dc _]. exact Dc. }
    rewrite Dc. rewrite exponent_digits; [|exact De| |left; lia].
    + cbn [andb]. rewrite nat_N_Z. reflexivity.
    + destruct (bytes_eqb sg [45]); lia.
  - cbn [andb]. rewrite nat_N_Z. reflexivity.
Qed.

Lemma number_starts x : number_wf x = true -> exists c r, n_int x = c :: r /\ digit c = true.
Proof.
  unfold number_wf. rewrite !andb_true_iff. intros [[[H _] _] _]. destruct (digits1_all _ H) as [H1 H2].
  destruct (n_int x) as [|c r]; [contradiction|]. exists c, r. split; [reflexivity|]. cbn [forallb] in H1. apply andb_true_iff in H1. apply H1.
Qed.

Lemma fold_digit c : digit c = true -> fold_case c = c.
Proof. intro H. unfold digit, fold_case in *. apply andb_true_iff in H as [_ H]. apply N.leb_le in H. replace (65 <=? c) with false; [reflexivity|]. symmetry. apply N.leb_gt. lia. Qed.

Lemma number_not_special x : number_wf x = true -> special (number_text x) = None.
Proof.
  intro H. destruct (number_starts x H) as (c & r & E & D).
  assert (G : forall k, In k [b "nan"; b "inf"; b "infinity"; b "+inf"; b "+infinity"; b "-inf"; b "-infinity"] ->
    bytes_eqb (map fold_case (number_text x)) k = false).
  { intros k Hk. apply not_true_iff_false. intro T. apply bytes_eqb_eq in T. unfold number_text in T. rewrite E in T.
    unfold digit in D. apply andb_true_iff in D as [D1 D2]. apply N.leb_le in D1, D2.
    assert (F : fold_case c = c) by (apply fold_digit; unfold digit; apply andb_true_iff; split; apply N.leb_le; assumption).
    destruct (n_neg x); cbn [app map] in T; [change (fold_case 45) with 45 in T|]; rewrite F in T;
      repeat destruct Hk as [<-|Hk]; try contradiction; cbn in T; injection T; intros; try discriminate; subst; lia. }
  unfold special. rewrite G by (cbn; tauto). cbn [existsb]. rewrite !G by (cbn; tauto). reflexivity.
Qed.

Theorem number_float x : number_wf x = true -> (Z.abs (exponent_of x) < 100000)%Z ->
  ParseFloat (number_text x) =
  match round64 (numerator x) (denominator x) with Some (m, u) => Some (Fin (n_neg x) m u) | None => None end.
Proof.
  intros H He. unfold ParseFloat. rewrite (number_not_special x H), (number_read x H He). unfold scaled, numerator, denominator.
  destruct (Z.leb_spec 0 (scale x)) as [L|L].
  - replace (Z.to_N (- scale x)) with 0 by lia. reflexivity.
  - replace (Z.to_N (scale x)) with 0 by lia. rewrite N.mul_1_r. reflexivity.
Qed.

(** Every number of the grammar has parts. *)
Lemma drop_split s : exists i, s = i ++ drop_digits s /\ forallb digit i = true.
Proof.
  induction s as [|c s (i & E & H)]; [exists []; split; reflexivity|]. cbn [drop_digits]. destruct (digit c) eqn:D.
  - exists (c :: i). split; [cbn [app]; f_equal; exact E|]. cbn [forallb]. rewrite D. exact H.
  - exists []. split; reflexivity.
Qed.

Definition exp_part (e : option (N * bytes * bytes)) : bytes := match e with Some (l, sg, e) => l :: sg ++ e | None => [] end.
Definition exp_part_ok (e : option (N * bytes * bytes)) : bool :=
  match e with
  | Some (l, sg, e) => ((l =? 101) || (l =? 69)) && (bytes_eqb sg [] || bytes_eqb sg [43] || bytes_eqb sg [45]) && digits1 e
  | None => true
  end.
Lemma exp_parts s : exp_ok s = true -> exists e, s = exp_part e /\ exp_part_ok e = true.
Proof.
  destruct s as [|c s]; intro H; [exists None; split; reflexivity|]. cbn [exp_ok] in H. apply andb_true_iff in H as [Hc H].
  destruct s as [|d s]; [discriminate|]. destruct ((d =? 43) || (d =? 45)) eqn:D.
  - exists (Some (c, [d], s)). split; [reflexivity|]. cbn [exp_part_ok]. rewrite Hc, H. cbn [andb]. rewrite andb_true_r.
    apply orb_true_iff in D as [D|D]; apply N.eqb_eq in D; subst d; reflexivity.
  - exists (Some (c, [], d :: s)). split; [reflexivity|]. cbn [exp_part_ok]. rewrite Hc, H. reflexivity.
Qed.

Lemma frac_parts s : frac_ok s = true -> exists f e, s = (match f with Some f => 46 :: f | None => [] end) ++ exp_part e /\
  match f with Some f => digits1 f | None => true end = true /\ exp_part_ok e = true.
Proof.
  intro H. assert (C : (exists c r, s = 46 :: c :: r /\ digit c = true /\ exp_ok (drop_digits r) = true) \/ exp_ok s = true).
  { unfold frac_ok in H. destruct s as [|a s]; [right; exact H|]. destruct (N.eq_dec a 46) as [->|N].
    - destruct s as [|c r]; [discriminate H|]. apply andb_true_iff in H. left. exists c, r. tauto.
    - right. destruct a as [|a]; [exact H|]. do 6 (destruct a as [a|a|]; try exact H). contradiction. }
  destruct C as [(c & r & -> & D & E)|E].
  - destruct (drop_split r) as (i & Er & Hi). destruct (exp_parts _ E) as (e & Ee & He). exists (Some (c :: i)), e.
    split; [|split; [cbn [digits1]; rewrite D; exact Hi|exact He]]. cbn [app]. rewrite Er at 1. rewrite Ee. reflexivity.
  - destruct (exp_parts _ E) as (e & Ee & He). exists None, e. split; [exact Ee|split; [reflexivity|exact He]].
Qed.

Lemma unsigned_parts s : unsigned_ok s = true -> exists i f e, s = i ++ (match f with Some f => 46 :: f | None => [] end) ++ exp_part e /\
  digits1 i = true /\ (negb (hd 0 i =? 48) || (length i =? 1)%nat) = true /\
  match f with Some f => digits1 f | None => true end = true /\ exp_part_ok e = true.
Proof.
  destruct s as [|c s]; [discriminate|]. cbn [unsigned_ok]. destruct (N.eqb_spec c 48) as [->|N]; intro H.
  - destruct (frac_parts _ H) as (f & e & -> & Hf & He). exists [48], f, e. repeat split; assumption.
  - apply andb_true_iff in H as [D H]. destruct (drop_split s) as (i & Es & Hi). destruct (frac_parts _ H) as (f & e & Ef & Hf & He).
    exists (c :: i), f, e. split; [cbn [app]; rewrite <- Ef, <- Es; reflexivity|]. split; [cbn [digits1]; rewrite D; exact Hi|].
    split; [|split; assumption]. cbn [hd]. apply N.eqb_neq in N. rewrite N. reflexivity.
Qed.

Theorem number_parts s : number_ok s = true -> exists x, number_wf x = true /\ number_text x = s.
Proof.
  intro H. assert (C : exists (neg : bool) r, s = (if neg then [45] else []) ++ r /\ unsigned_ok r = true).
  { destruct s as [|c s]; [discriminate|]. cbn [number_ok] in H. destruct (N.eqb_spec c 45) as [->|]; [exists true, s|exists false, (c :: s)]; split; auto. }
  destruct C as (neg & r & -> & Hr). destruct (unsigned_parts r Hr) as (i & f & e & -> & Hi & Hz & Hf & He).
  exists (Number neg i f e). split; [|reflexivity]. unfold number_wf. cbn [n_int n_frac n_exp]. rewrite Hi, Hz, Hf. exact He.
Qed.

(** And what has parts is a number of the grammar. *)
Lemma drop_app i r : forallb digit i = true -> (match r with c :: _ => digit c = false | [] => True end) -> drop_digits (i ++ r) = r.
Proof.
  induction i as [|c i IH]; intros H Hr; cbn [app drop_digits forallb] in *.
  - destruct r as [|c r]; [reflexivity|]. cbn [drop_digits]. rewrite Hr. reflexivity.
  - apply andb_true_iff in H as [Hc H]. rewrite Hc. apply IH; assumption.
Qed.

Lemma exp_part_head e : exp_part_ok e = true -> match exp_part e with c :: _ => digit c = false /\ c <> 46 | [] => True end.
Proof.
  destruct e as [[[l sg] e]|]; [|exact (fun _ => I)]. cbn [exp_part exp_part_ok]. rewrite !andb_true_iff, orb_true_iff, !N.eqb_eq.
  intros [[[->| ->] _] _]; (split; [reflexivity|discriminate]).
Qed.

Lemma exp_part_valid e : exp_part_ok e = true -> exp_ok (exp_part e) = true.
Proof.
  destruct e as [[[l sg] e]|]; [|reflexivity]. cbn [exp_part exp_part_ok]. rewrite !andb_true_iff, !orb_true_iff, !bytes_eqb_eq.
  intros [[Hl Hs] He]. cbn [exp_ok]. assert (Hl' : (l =? 101) || (l =? 69) = true) by (apply orb_true_iff; exact Hl). rewrite Hl'. cbn [andb].
  destruct Hs as [[->| ->]| ->]; cbn [app]; [|exact He..]. destruct e as [|c e]; [discriminate He|].
  assert (D : digit c = true) by (cbn [digits1] in He; apply andb_true_iff in He; apply He). destruct (digit_not c D) as (_ & _ & E3 & E4 & _).
  rewrite E3, E4. exact He.
Qed.

Lemma frac_ok_other s : (forall r, s <> 46 :: r) -> frac_ok s = exp_ok s.
Proof.
  intro H. destruct s as [|a s]; [reflexivity|]. destruct (N.eq_dec a 46) as [->|N]; [exfalso; exact (H s eq_refl)|].
  destruct a as [|a]; [reflexivity|]. do 6 (destruct a as [a|a|]; try reflexivity). contradiction.
Qed.

Theorem number_valid x : number_wf x = true -> number_ok (number_text x) = true.
Proof.
  intro H. destruct (number_starts x H) as (c & r & E & D). unfold number_wf in H. rewrite !andb_true_iff in H. destruct H as [[[Hi Hz] Hf] He].
  change (exp_part_ok (n_exp x) = true) in He. rewrite E in *.
  assert (F : frac_ok (match n_frac x with Some f => 46 :: f | None => [] end ++ exp_part (n_exp x)) = true).
  { destruct (n_frac x) as [f|].
    - destruct f as [|a f]; [discriminate Hf|]. cbn [digits1] in Hf. apply andb_true_iff in Hf as [Ha Hf]. cbn [app frac_ok]. rewrite Ha. cbn [andb].
      rewrite drop_app; [apply exp_part_valid; exact He|exact Hf|]. pose proof (exp_part_head _ He) as P. destruct (exp_part (n_exp x)); tauto.
    - cbn [app]. rewrite frac_ok_other; [apply exp_part_valid; exact He|]. intros q Eq. pose proof (exp_part_head _ He) as P. rewrite Eq in P. tauto. }
  assert (U : unsigned_ok ((c :: r) ++ match n_frac x with Some f => 46 :: f | None => [] end ++ exp_part (n_exp x)) = true).
  { cbn [app unsigned_ok]. cbn [digits1] in Hi. apply andb_true_iff in Hi as [_ Hr]. destruct (N.eqb_spec c 48) as [->|N].
    - cbn [hd] in Hz. change (48 =? 48) with true in Hz. cbn [negb orb length] in Hz. destruct r; [exact F|discriminate Hz].
    - rewrite D. cbn [andb]. rewrite drop_app; [exact F|exact Hr|]. pose proof (exp_part_head _ He) as P.
      destruct (n_frac x); cbn [app]; [reflexivity|]. destruct (exp_part (n_exp x)); tauto. }
  unfold number_text. rewrite E. fold (exp_part (n_exp x)). destruct (n_neg x).
  - cbn [app number_ok]. exact U.
  - cbn [app number_ok] in U |- *. destruct (digit_not c D) as (_ & _ & _ & E4 & _). rewrite E4. exact U.
Qed.
