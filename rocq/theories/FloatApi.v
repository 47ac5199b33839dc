(** Reading and writing floating-point numbers. *)
From Coq Require Import String DecimalN.
From Verif Require Import GoStd Json Spec Core CoreProofs Errors Api SpecProofs ApiProofs Parse Domains Updates Rfc RfcProofs Typed TypedProofs
  SpecIter Iter IterMisc SpecNumber GoFloat FloatProofs.

Local Open Scope N_scope.

(** ** Every float64 can be written *)
Lemma itoa_N_head n : hd 0 (itoa_N n) <> 48 \/ itoa_N n = [48].
Proof.
  unfold itoa_N. pose proof (DecimalN.Unsigned.to_of (N.to_uint n)) as E. rewrite DecimalN.Unsigned.of_to in E.
  assert (H : forall u, match Decimal.nzhead u with Decimal.D0 _ => False | _ => True end).
  { induction u; cbn; auto. }
  specialize (H (N.to_uint n)). unfold Decimal.unorm in E. destruct (Decimal.nzhead (N.to_uint n)) eqn:Z; rewrite E; cbn;
    try (left; discriminate); [right; reflexivity|contradiction].
Qed.

Lemma itoa_N_digits1 n : digits1 (itoa_N n) = true.
Proof.
  destruct (itoa_N n) as [|c r] eqn:E; [exfalso; exact (itoa_N_nonnil n E)|]. change (forallb digit (c :: r) = true). rewrite <- E.
  apply forallb_forall. intros x Hx. apply itoa_N_digits in Hx. unfold digit. apply andb_true_iff. split; apply N.leb_le; lia.
Qed.

Lemma decimal_denote s : forallb digit s = true -> forall a, decimal a s = denote 10 a s.
Proof.
  induction s as [|c s IH]; intros H a; [reflexivity|]. cbn [forallb] in H. apply andb_true_iff in H as [Hc H]. cbn [decimal denote].
  rewrite IH by exact H. unfold digit_val. unfold digit in Hc. apply andb_true_iff in Hc as [_ Hc]. apply N.leb_le in Hc.
  replace (c <? 58) with true by (symmetry; apply N.ltb_lt; lia). reflexivity.
Qed.

Lemma decimal_itoa n : decimal 0 (itoa_N n) = n.
Proof. rewrite decimal_denote; [apply itoa_N_denotes|]. apply digits1_all. apply itoa_N_digits1. Qed.

(** The last [k] digits of a number. *)
Fixpoint fixed (k : nat) (n : N) : bytes := match k with O => [] | S k => fixed k (n / 10) ++ [48 + n mod 10] end.

Lemma fixed_length k : forall n, length (fixed k n) = k.
Proof. induction k as [|k IH]; intro n; [reflexivity|]. cbn [fixed]. rewrite app_length, IH. cbn. lia. Qed.
Lemma fixed_digits k : forall n, forallb digit (fixed k n) = true.
Proof.
  induction k as [|k IH]; intro n; [reflexivity|]. cbn [fixed]. rewrite forallb_app, IH. cbn [forallb andb]. rewrite andb_true_r.
  pose proof (N.mod_upper_bound n 10 ltac:(lia)). set (r := n mod 10) in *. clearbody r. unfold digit. apply andb_true_iff. split; apply N.leb_le; lia.
Qed.
Lemma fixed_decimal k : forall n a, decimal a (fixed k n) = a * 10 ^ N.of_nat k + n mod 10 ^ N.of_nat k.
Proof.
  induction k as [|k IH]; intros n a; [cbn; rewrite N.mod_1_r; lia|]. cbn [fixed]. rewrite decimal_app, IH. cbn [decimal].
  rewrite Nat2N.inj_succ, N.pow_succ_r'. set (P := 10 ^ N.of_nat k).
  assert (HP : P <> 0) by (apply N.pow_nonzero; lia).
  rewrite (N.mod_mul_r n 10 P ltac:(lia) HP).
  set (r := n mod 10). set (s := (n / 10) mod P). clearbody r s. lia.
Qed.

Theorem every_float neg m u : finite_ok m u = true -> exists t, formats (Fin neg m u) t.
Proof.
  intro F. set (n := m * 2 ^ u * 5 ^ 1074). 
  exists (number_text (Number neg (itoa_N (n / 10 ^ 1074)) (Some (fixed 1074 n)) None)).
  set (y := Number neg (itoa_N (n / 10 ^ 1074)) (Some (fixed 1074 n)) None).
  assert (Hy : number_wf y = true).
  { unfold number_wf, y. cbn [n_int n_frac n_exp]. rewrite itoa_N_digits1. cbn [andb]. rewrite andb_true_r.
    apply andb_true_iff. split.
    - apply orb_true_iff. destruct (itoa_N_head (n / 10 ^ 1074)) as [H| ->]; [left|right; reflexivity].
      apply N.eqb_neq in H. rewrite H. reflexivity.
    - destruct (fixed 1074 n) as [|c r] eqn:E; [pose proof (fixed_length 1074 n) as L; rewrite E in L; discriminate L|].
      change (forallb digit (c :: r) = true). rewrite <- E. apply fixed_digits. }
  split; [|exists y; repeat split; assumption].
  rewrite (number_float y Hy) by (cbn; lia).
  assert (Hs : scale y = (-1074)%Z).
  { unfold scale, exponent_of, frac_digits, y. cbn [n_exp n_frac]. rewrite fixed_length. reflexivity. }
  assert (Hn : numerator y = n).
  { unfold numerator. rewrite Hs. change (Z.to_N (-1074)) with 0. rewrite N.mul_1_r. unfold frac_digits, y. cbn [n_int n_frac].
    rewrite decimal_app, decimal_itoa, fixed_decimal. change (N.of_nat 1074) with 1074.
    pose proof (N.div_mod n (10 ^ 1074) ltac:(apply N.pow_nonzero; lia)) as E. rewrite N.mul_comm. symmetry. exact E. }
  assert (Hd : denominator y = 10 ^ 1074) by (unfold denominator; rewrite Hs; reflexivity).
  rewrite Hn, Hd, (round64_exact n (10 ^ 1074) m u); [reflexivity|apply N.neq_0_lt_0, N.pow_nonzero; lia|exact F|].
  unfold n. change 10 with (5 * 2). rewrite N.pow_mul_l. lia.
Qed.

(** ** What is written is a token, and for a finite number one of JSON *)
Lemma formats_scalar x t : formats x t -> scalar_ok t = true.
Proof. intros [H _]. apply ParseFloat_token. unfold float_ok. rewrite H. reflexivity. Qed.

Lemma formats_simple x t : formats x t -> simple (JScalar t) t.
Proof. intro H. split; [left; reflexivity|]. cbn [wf]. eapply formats_scalar. exact H. Qed.

Theorem formats_number neg m u t : formats (Fin neg m u) t -> number_ok t = true.
Proof. intros [_ (y & Hy & _ & _ & <-)]. apply number_valid. exact Hy. Qed.

(** ** Writing and reading *)
Lemma get_float json p x t : formats x t -> Get json p = Ok t -> GetFloat ParseFloat json p = Ok x.
Proof. intros [H _] E. unfold GetFloat, GetString. rewrite E. cbn [bind]. rewrite H. reflexivity. Qed.

Theorem set_float d p x t : wf_doc d = true -> formats x t -> p <> [] -> lookup (d_val d) p <> None ->
  exists out, SetFloat (text d) t p = Done out /\ GetFloat ParseFloat out p = Ok x.
Proof. intros. read_with (set_read d p _ _ H (formats_simple x t H0) H1 H2). eapply get_float; eassumption. Qed.

Theorem add_float d p x t w els : wf_doc d = true -> formats x t -> lookup (d_val d) p = Some (JArr w els) ->
  in_int64 (Z.of_nat (length els)) = true ->
  exists out, AddFloat (text d) t p = Done out /\ GetFloat ParseFloat out (p ++ [itoa (Z.of_nat (length els))]) = Ok x.
Proof. intros. read_with (add_read d p _ _ w els H (formats_simple x t H0) H1 H2). eapply get_float; eassumption. Qed.

Theorem add_kv_float d p k x t w ms out : wf_doc d = true -> formats x t -> str_ok k = true ->
  lookup (d_val d) p = Some (JObj w ms) -> AddKeyValueFloat (text d) k t p = Done out -> GetFloat ParseFloat out (p ++ [k]) = Ok x.
Proof.
  intros Hw Hx Hk Hl Hd. apply null_key_done in Hd. eapply get_float; [exact Hx|].
  exact (add_kv_read d p k _ _ w ms out Hw (formats_simple x t Hx) Hk Hl Hd).
Qed.

Theorem store_float d p k x t w ms : wf_doc d = true -> formats x t -> str_ok k = true ->
  lookup (d_val d) p = Some (JObj w ms) ->
  (d_lookup (content (d_val d)) (p ++ [k]) <> None \/ seen_absent d p k) ->
  exists out, StoreFloat (text d) k t p = Done out /\ GetFloat ParseFloat out (p ++ [k]) = Ok x.
Proof. intros. read_with (store_read d p k _ _ w ms H (formats_simple x t H0) H1 H2 H3). eapply get_float; eassumption. Qed.

Theorem insert_float d p i x t w els : wf_doc d = true -> formats x t -> (i <= int64_max)%Z ->
  lookup (d_val d) p = Some (JArr w els) -> insert_layout els i -> nth_z els i <> None ->
  exists out, InsertFloat (text d) i t p = Done out /\ GetFloat ParseFloat out (p ++ [itoa i]) = Ok x.
Proof.
  intros. unfold InsertFloat, neg_index. rewrite (nth_z_nonneg _ _ H4).
  read_with (insert_read d p i _ _ w els H (formats_simple x t H0) H1 H2 H3 H4). eapply get_float; eassumption.
Qed.

(** ** Reading the numbers of a document *)
Lemma denominator_pos x : 0 < denominator x.
Proof. apply N.neq_0_lt_0, N.pow_nonzero. lia. Qed.

Lemma too_large_not_nearest n d : 0 < d -> (too_large n d <-> round64 n d = None).
Proof. intro H. symmetry. apply round64_overflow. exact H. Qed.

Theorem read_float d p x : wf_doc d = true -> p <> [] -> lookup (d_val d) p = Some (JScalar (number_text x)) ->
  number_wf x = true -> (Z.abs (exponent_of x) < 100000)%Z ->
  (too_large (numerator x) (denominator x) /\ GetFloat ParseFloat (text d) p = Err (EFloatParse (number_text x))) \/
  (~ too_large (numerator x) (denominator x) /\
   exists m u, nearest (numerator x) (denominator x) m u /\ GetFloat ParseFloat (text d) p = Ok (Fin (n_neg x) m u)).
Proof.
  intros Hw Hp Hl Hx He. unfold GetFloat, GetString. rewrite (get_present d p _ Hw Hp Hl).
  replace (bare (JScalar (number_text x))) with (number_text x) by reflexivity. cbn [bind].
  rewrite (number_float x Hx He). rewrite (too_large_not_nearest _ _ (denominator_pos x)).
  pose proof (round64_spec (numerator x) (denominator x) (denominator_pos x)) as R.
  destruct (round64 (numerator x) (denominator x)) as [[m u]|].
  - right. split; [discriminate|]. exists m, u. split; [exact R|reflexivity].
  - left. split; reflexivity.
Qed.

(** ** Integer texts *)
Lemma uint_bytes s : forall u, uint_of_bytes s = Some u -> s = bytes_of_uint u /\ forallb digit s = true.
Proof.
  induction s as [|c r IH]; intros u H; [injection H as <-; split; reflexivity|]. cbn [uint_of_bytes] in H.
  destruct (uint_of_bytes r) as [u'|]; [|discriminate]. destruct (IH u' eq_refl) as [-> Hd].
  destruct c as [|p]; [discriminate|]. do 6 (destruct p as [p|p|]; try discriminate); injection H as <-; (split; [reflexivity|exact Hd]).
Qed.

Lemma parse_digits_inv s n : parse_digits s = Some n -> digits1 s = true /\ decimal 0 s = n.
Proof.
  unfold parse_digits. destruct s as [|c r]; [discriminate|]. destruct (uint_of_bytes (c :: r)) as [u|] eqn:E; [|discriminate].
  intro H. injection H as <-. destruct (uint_bytes _ _ E) as [Eu Hd]. split; [exact Hd|].
  rewrite (decimal_denote _ Hd 0), of_uint_denote, <- Eu. reflexivity.
Qed.

Lemma parse_signed_inv s z : parse_signed s = Some z -> exists sg i, s = sg ++ i /\ In sg [[]; [43]; [45]] /\ digits1 i = true /\ Z.abs_N z = decimal 0 i.
Proof.
  intro H. assert (D : forall t f, option_map f (parse_digits t) = Some z -> (forall n, Z.abs_N (f n) = n) -> digits1 t = true /\ Z.abs_N z = decimal 0 t).
  { intros t f E F. destruct (parse_digits t) as [n|] eqn:P; [|discriminate]. injection E as <-. rewrite F.
    destruct (parse_digits_inv _ _ P) as [H1 H2]. split; [exact H1|symmetry; exact H2]. }
  destruct s as [|c r]; [discriminate|].
  destruct (N.eqb_spec c 43) as [->|H43].
  { cbn [parse_signed] in H. apply D in H; [|intro; lia]. exists [43], r. repeat split; cbn; tauto. }
  destruct (N.eqb_spec c 45) as [->|H45].
  { cbn [parse_signed] in H. apply D in H; [|intro; lia]. exists [45], r. repeat split; cbn; tauto. }
  assert (H' : option_map Z.of_N (parse_digits (c :: r)) = Some z).
  { revert H. unfold parse_signed. destruct c as [|p]; [auto|]. do 6 (destruct p as [p|p|]; auto); contradiction. }
  apply D in H'; [|intro; lia]. exists [], (c :: r). repeat split; cbn [app]; try tauto. left. reflexivity.
Qed.

Lemma int_read sg i : In sg [[]; [43]; [45]] -> digits1 i = true ->
  readFloat (sg ++ i) = Some (bytes_eqb sg [45], 10, decimal 0 i, 0%Z) /\ special (sg ++ i) = None.
Proof.
  intros Hs Hi. destruct (digits1_all _ Hi) as [Di Ni]. destruct i as [|c r] eqn:Ei; [contradiction|]. rewrite <- Ei in *.
  assert (Dc : digit c = true) by (subst i; cbn [forallb] in Di; apply andb_true_iff in Di; apply Di).
  destruct (digit_not c Dc) as (_ & _ & E3 & E4 & _).
  assert (S1 : sign (sg ++ i) = (bytes_eqb sg [45], i)).
  { destruct Hs as [<-|[<-|[<-|[]]]]; [|reflexivity..]. subst i. cbn [app sign]. rewrite E3, E4. reflexivity. }
  split.
  - unfold readFloat. rewrite S1. assert (S2 : hex_prefix i = (false, i)).
    { subst i. destruct r as [|c2 [|c3 r]]; try reflexivity. cbn [hex_prefix].
      cbn [forallb] in Di. apply andb_true_iff in Di as [_ Di]. apply andb_true_iff in Di as [D2 _].
      replace (lower c2 =? 120) with false; [rewrite andb_false_r; reflexivity|].
      assert (Hs2 : c2 < 128) by (unfold digit in D2; apply andb_true_iff in D2 as [_ D2]; apply N.leb_le in D2; lia).
      pose proof (check128 (fun c => implb (digit c) (negb (lower c =? 120))) c2 eq_refl Hs2) as K. cbv beta in K. rewrite D2 in K.
      cbn [implb] in K. apply negb_true_iff in K. symmetry. exact K. }
    rewrite S2. rewrite <- (app_nil_r i) at 1. rewrite mantissa_digits by exact Di.
    replace (false || negb (length i =? 0)%nat) with true by (subst i; reflexivity). reflexivity.
  - assert (G : forall k, In k [b "nan"; b "inf"; b "infinity"; b "+inf"; b "+infinity"; b "-inf"; b "-infinity"] ->
      bytes_eqb (map fold_case (sg ++ i)) k = false).
    { intros k Hk. apply not_true_iff_false. intro T. apply bytes_eqb_eq in T. rewrite Ei in T. pose proof (fold_digit c Dc) as F.
      unfold digit in Dc. apply andb_true_iff in Dc as [D1 D2]. apply N.leb_le in D1, D2.
      destruct Hs as [<-|[<-|[<-|[]]]]; cbn [app map] in T; [|change (fold_case 43) with 43 in T|change (fold_case 45) with 45 in T]; rewrite F in T;
        repeat destruct Hk as [<-|Hk]; try contradiction; cbn in T; injection T; intros; try discriminate; subst; lia. }
    unfold special. rewrite G by (cbn; tauto). cbn [existsb]. rewrite !G by (cbn; tauto). reflexivity.
Qed.

Lemma small_not_large n : n <= 2 ^ 64 -> exists m u, round64 n 1 = Some (m, u).
Proof.
  intro H. destruct (round64 n 1) as [[m u]|] eqn:E; [eauto|]. exfalso. apply round64_overflow in E; [|reflexivity].
  rewrite N.mul_1_r in E. assert (n * 2 ^ 1074 <= 2 ^ 64 * 2 ^ 1074) by (apply N.mul_le_mono_r; exact H).
  assert (2 ^ 64 * 2 ^ 1074 < (2 ^ 54 - 1) * 2 ^ 2044) by (vm_compute; reflexivity).
  set (X := n * 2 ^ 1074) in *. set (Y := 2 ^ 64 * 2 ^ 1074) in *. set (W := (2 ^ 54 - 1) * 2 ^ 2044) in *. clearbody X Y W. lia.
Qed.

Lemma int_float bits s z : (1 <= bits <= 64)%Z -> parse_int bits s = Some z -> float_ok s = true.
Proof.
  intros Hb H. unfold parse_int in H. destruct (parse_signed s) as [z'|] eqn:E; [|discriminate].
  destruct (_ && _)%Z eqn:R; [|discriminate]. injection H as ->. apply andb_true_iff in R as [R1 R2]. apply Z.leb_le in R1, R2.
  destruct (parse_signed_inv _ _ E) as (sg & i & -> & Hs & Hi & Ha). destruct (int_read sg i Hs Hi) as [A B].
  unfold float_ok, ParseFloat. rewrite A, B. cbn [scaled Z.leb Z.compare]. change (Z.to_N 0) with 0. rewrite N.mul_1_r, <- Ha.
  assert (P : (2 ^ (bits - 1) <= 2 ^ 63)%Z) by (apply Z.pow_le_mono_r; lia).
  destruct (small_not_large (Z.abs_N z)) as (m & u & ->); [|reflexivity].
  change (2 ^ 64) with (2 * 2 ^ 63). change (2 ^ 63)%Z with (Z.of_N (2 ^ 63)) in P. set (Q := 2 ^ 63) in *. clearbody Q. lia.
Qed.

(** ** GetType of a number *)
Lemma number_no_literal s : number_ok s = true -> bytes_eqb s (b "true") = false /\ bytes_eqb s (b "false") = false /\ bytes_eqb s (b "null") = false.
Proof.
  intro H. repeat split; apply bytes_eqb_neq; intros ->; discriminate H.
Qed.

Theorem type_number d p x : wf_doc d = true -> lookup (d_val d) p = Some (JScalar (number_text x)) ->
  number_wf x = true -> (Z.abs (exponent_of x) < 100000)%Z -> p <> [] \/ (d_pre d = [] /\ d_post d = []) ->
  (too_large (numerator x) (denominator x) /\ GetType float_ok (text d) p = Ok TString) \/
  (~ too_large (numerator x) (denominator x) /\ GetType float_ok (text d) p = Ok TNumber).
Proof.
  intros Hw Hl Hx He Hor. rewrite (get_type float_ok d p _ Hw Hl) by tauto. unfold token_type.
  destruct (number_no_literal _ (number_valid x Hx)) as (-> & -> & ->). cbn [orb].
  assert (F : float_ok (number_text x) = match round64 (numerator x) (denominator x) with Some _ => true | None => false end).
  { unfold float_ok. rewrite (number_float x Hx He). destruct (round64 _ _) as [[m u]|]; reflexivity. }
  rewrite (too_large_not_nearest _ _ (denominator_pos x)). rewrite F.
  destruct (atoi (number_text x)) as [z|] eqn:A.
  - unfold atoi in A. apply int_float in A; [|lia]. rewrite F in A. destruct (round64 _ _); [|discriminate]. right. split; [discriminate|reflexivity].
  - destruct (round64 _ _); [right; split; [discriminate|reflexivity]|left; split; reflexivity].
Qed.

(** ** Strings *)
Lemma value_quoted s : value (quote s) <-> chars s = true.
Proof.
  split; [|apply V_string]. unfold quote. intro H. inversion H as [t Ht E|t Ht E|t Ht E|t Ht E|t Ht E|t Ht E|t Ht E]; subst; try discriminate.
  apply app_inj_tail in E as [-> _]. exact Ht.
Qed.

Lemma value_fence s : value s -> literal s = true \/ number_ok s = true \/ (hd 0 s = 34 /\ last s 0 = 34) \/ fenced s = true.
Proof.
  intro H. destruct H as [t Ht|t Ht|t Ht|t Ht|t Ht|t Ht|t Ht]; [tauto|tauto|..]; unfold fenced.
  - right. right. left. change (34 :: t ++ [34]) with ((34 :: t) ++ [34]). rewrite last_app_one. split; reflexivity.
  - do 3 right. change (91 :: t ++ [93]) with ((91 :: t) ++ [93]). rewrite last_app_one. reflexivity.
  - do 3 right. change (91 :: t ++ [93]) with ((91 :: t) ++ [93]). rewrite last_app_one. reflexivity.
  - do 3 right. change (123 :: t ++ [125]) with ((123 :: t) ++ [125]). rewrite last_app_one. reflexivity.
  - do 3 right. change (123 :: t ++ [125]) with ((123 :: t) ++ [125]). rewrite last_app_one. reflexivity.
Qed.

(** An int32 in decimal that begins with a superfluous zero. *)
Definition zero_led (s : bytes) : bool := isInt s && (hd 0 s =? 48) && (1 <? length s)%nat.

Lemma fenced_no_float s : fenced s = true -> float_ok s = false.
Proof.
  intro H. apply not_true_iff_false. intro F. apply ParseFloat_token in F. destruct s as [|c r]; [discriminate|]. cbn [scalar_ok forallb] in F.
  apply andb_true_iff in F as [F _]. unfold fenced in H. cbn [hd] in H. apply orb_true_iff in H as [H|H]; apply andb_true_iff in H as [H _];
    apply N.eqb_eq in H; subst c; discriminate F.
Qed.

Theorem formatType_exact s : chars s = true ->
  (value (formatType float_ok s) <->
   (float_ok s = true -> number_ok s = true \/ zero_led s = true) /\ (fenced s = true -> value s)).
Proof.
  intro Hc. split.
  - intro H. split.
    + intro F. destruct (formatType_cases float_ok s) as [Q|(K & Hne & C)].
      * right. unfold zero_led. unfold formatType in Q. destruct s as [|c r]; [discriminate F|].
        destruct (isBool (c :: r)); [exfalso; apply (f_equal (@length N)) in Q; unfold quote in Q; cbn in Q; rewrite app_length in Q; cbn in Q; lia|].
        destruct (isInt (c :: r)) eqn:I.
        { cbn [hd andb]. destruct ((c =? 48) && (1 <? length (c :: r))%nat); [reflexivity|].
          exfalso. apply (f_equal (@length N)) in Q; unfold quote in Q; cbn in Q; rewrite app_length in Q; cbn in Q; lia. }
        rewrite F in Q. exfalso. apply (f_equal (@length N)) in Q; unfold quote in Q; cbn in Q; rewrite app_length in Q; cbn in Q; lia.
      * rewrite K in H. left. destruct (value_fence s H) as [L|[N|[[Q _]|B]]]; [|exact N| |].
        -- exfalso. unfold literal in L. rewrite !orb_true_iff, !bytes_eqb_eq in L. destruct L as [[->| ->]| ->]; discriminate F.
        -- exfalso. exact (hd_quote_chars s Hc Q).
        -- rewrite (fenced_no_float s B) in F. discriminate F.
    + intro B. rewrite <- (formatType_kept float_ok s) by tauto. exact H.
  - intros [H1 H2]. apply formatType_valid; [exact Hc| | |exact H2].
    + intro I. assert (F : float_ok s = true).
      { unfold isInt in I. destruct (parse_int 32 s) eqn:E; [|discriminate]. apply (int_float 32 s z); [lia|exact E]. }
      destruct (H1 F) as [N|Z]; [left; exact N|right]. unfold zero_led in Z. rewrite !andb_true_iff, N.eqb_eq, Nat.ltb_lt in Z. tauto.
    + intros I F. destruct (H1 F) as [N|Z]; [exact N|]. unfold zero_led in Z. rewrite I in Z. discriminate Z.
Qed.

Theorem formatType_other s : chars s = false -> (value (formatType float_ok s) <-> value s).
Proof.
  intro Hc. split; [|apply formatType_of_value]. destruct (formatType_cases float_ok s) as [-> |(-> & _)]; [|auto].
  intro H. apply value_quoted in H. congruence.
Qed.

(** ** Integers *)
Theorem itoa_number z : number_ok (itoa z) = true.
Proof.
  set (i := itoa_N (Z.abs_N z)). assert (E : itoa z = number_text (Number (z <? 0)%Z i None None)).
  { unfold itoa, number_text, i. cbn [n_neg n_int n_frac n_exp]. rewrite !app_nil_r.
    destruct (Z.ltb_spec z 0); cbn [app]; [replace (Z.to_N (- z)) with (Z.abs_N z) by lia|replace (Z.to_N z) with (Z.abs_N z) by lia]; reflexivity. }
  rewrite E. apply number_valid. unfold number_wf, i. cbn [n_int n_frac n_exp]. rewrite itoa_N_digits1. cbn [andb]. rewrite !andb_true_r.
  apply orb_true_iff. destruct (itoa_N_head (Z.abs_N z)) as [H| ->]; [left|right; reflexivity]. apply N.eqb_neq in H. rewrite H. reflexivity.
Qed.
