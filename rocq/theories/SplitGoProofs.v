(** The single values and arrays of inter_get.go statement by statement (SplitGo.v) are what the models compute. *)
From Coq Require Import String.
From Verif Require Import GoStd GoLang Core Api Iter Splice.
From Verif Require CoreGo IterGo SplitGo.
From Verif Require Import CoreGoProofs IterGoProofs ListGoProofs.

Local Open Scope Z_scope.
Module S_ := SplitGo.

Lemma slice_len (x : bytes) i j v : slice x i j = Ok v -> (length v <= length x)%nat.
Proof.
  unfold slice. destruct ((i <=? j)%nat && (j <=? length x)%nat); [|discriminate]. intro H. injection H as <-. rewrite firstn_length, skipn_length. lia.
Qed.

Section Elements.
  Context {A R : Type}.
  Variables (fuel : nat) (val : bytes) (fails : err -> R).
  Hypothesis Hval : (length val < fuel)%nat.
  Definition does (E : bytes -> cmd (@S_.sp A * Z) R) (elem : bytes -> res A) : Prop := forall v s i, (length v <= length val)%nat ->
    E v (s, i) = match elem v with Ok a => Nrm (S_.p_to_array (S_.p_array s ++ [a]) s, i) | Err e => Ret (fails e) | Panic => Pan end.
  Variables (mid fin : bytes -> cmd (@S_.sp A * Z) R) (mmid mfin : bytes -> res A).
  Hypothesis Hmid : does mid mmid.
  Hypothesis Hfin : does fin mfin.

  Definition kept (done : list A -> R) (r : flow (@S_.sp A) R) : flow unit R := match r with Nrm s => Ret (done (S_.p_array s)) | Ret r => Ret r | Out => Out | _ => Pan end.
  Definition shown (done : list A -> R) (r : res (list A)) : flow unit R := match r with Ok l => Ret (done l) | Err e => Ret (fails e) | Panic => Pan end.

  Ltac pnorm := unfold S_.pset, S_.p_to_start, S_.p_to_inQuote, S_.p_to_level, S_.p_to_array, then_, if_, set_, pass, continue_, break_; cbn [fst snd S_.p_start S_.p_inQuote S_.p_level S_.p_array S_.p_to_start S_.p_to_inQuote S_.p_to_level S_.p_to_array bind negb orb N.eqb Pos.eqb].
  Lemma split_go (done : list A -> R) : forall fu rest i start level inq acc, skipn i val = rest -> (length rest < fu)%nat ->
    kept done (leave (for_ fu (fun s => Ok (snd s <? zlen val)) (fun s => (fst s, snd s + 1)) (S_.split_body val mid fin) (S_.Sp (Z.of_nat start) inq level acc, Z.of_nat i))) =
    shown done (do l <- split_loop mmid mfin val rest i start level inq; Ok (acc ++ l)).
  Proof.
    induction fu as [|fu IH]; intros rest i start level inq acc Hi Hfu; [lia|]. cbn [for_ snd]. unfold zlen. rewrite zltb. destruct rest as [|c r].
    - destruct (Nat.ltb_spec i (length val)) as [H|H]; [apply (f_equal (@length N)) in Hi; rewrite skipn_length in Hi; cbn in Hi; lia|].
      cbn [leave kept fst split_loop bind shown S_.p_array]. rewrite app_nil_r. reflexivity.
    - assert (Hlt : (i < length val)%nat) by (apply (f_equal (@length N)) in Hi; rewrite skipn_length in Hi; cbn in Hi; lia).
      rewrite (proj2 (Nat.ltb_lt _ _) Hlt).
      assert (Hz : nth_error val i = Some c) by (rewrite <- (firstn_skipn i val) at 1; rewrite Hi, nth_error_app2, firstn_length, Nat.min_l, Nat.sub_diag by (rewrite ?firstn_length; lia); reflexivity).
      assert (Hs : skipn (S i) val = r) by (rewrite <- (firstn_skipn i val) at 1; rewrite Hi, skipn_app, firstn_length, Nat.min_l by lia; rewrite skipn_all2 by (rewrite firstn_length; lia); replace (S i - i)%nat with 1%nat by lia; reflexivity).
      cbn [length] in Hfu.
      assert (IH1 := fun start level inq acc => IH r (S i) start level inq acc Hs ltac:(lia)).
      unfold S_.split_body at 1. unfold read at 1. cbn [snd]. rewrite zat_nth, Hz. cbn [split_loop]. unfold is_open, is_close.
      destruct (N.eqb_spec c 92) as [->|H92].
      { pnorm. replace (Z.of_nat i + 1 + 1) with (Z.of_nat (i + 2)) by lia. destruct r as [|d r].
        - rewrite (IH [] (i + 2)%nat); [reflexivity| |cbn; lia]. apply skipn_all2. apply (f_equal (@length N)) in Hs. rewrite skipn_length in Hs. cbn in Hs. lia.
        - apply IH; [|cbn in Hfu; lia]. assert (i + 1 < length val)%nat by (apply (f_equal (@length N)) in Hs; rewrite skipn_length in Hs; cbn in Hs; lia).
          rewrite <- (firstn_skipn (S i) val) at 1. rewrite Hs, skipn_app, firstn_length, Nat.min_l by lia. rewrite skipn_all2 by (rewrite firstn_length; lia). replace (i + 2 - S i)%nat with 1%nat by lia. reflexivity. }
      destruct (N.eqb_spec c 34) as [->|H34]; [pnorm; rewrite zsucc; apply IH1|].
      hide fu. unfold then_ at 1 2, if_ at 1 2, pass at 1 2. 
      destruct inq; [pnorm; rewrite zsucc; apply IH1|].
      destruct (N.eqb_spec c 91) as [->|H91]; [|destruct (N.eqb_spec c 123) as [->|H123]; [|destruct (N.eqb_spec c 93) as [->|H93]; [|destruct (N.eqb_spec c 125) as [->|H125]; [|destruct (N.eqb_spec c 44) as [->|H44]]]]].
      + pnorm. cbn [andb]. rewrite andb_false_r. destruct (level + 1 =? 1); cbn [fst snd]; rewrite zsucc; apply IH1.
      + pnorm. cbn [andb]. rewrite andb_false_r. destruct (level + 1 =? 1); cbn [fst snd]; rewrite zsucc; apply IH1.
      + pnorm. cbn [andb]. destruct (level - 1 =? 0).
        * unfold read. cbn [fst snd S_.p_start S_.p_inQuote S_.p_level S_.p_array S_.p_to_level]. rewrite zslice_slice. destruct (slice val start i) as [v|e|] eqn:E; cbn [bind]; [|unfold slice in E; destruct (_ && _)%bool; discriminate E|reflexivity].
          rewrite Hfin by (eapply slice_len; exact E). destruct (mfin v); reflexivity.
        * rewrite andb_false_r. pnorm. destruct (level - 1 =? 1); pnorm; rewrite zsucc; apply IH1.
      + pnorm. cbn [andb]. rewrite andb_false_r. destruct (level - 1 =? 1); cbn [fst snd]; rewrite zsucc; apply IH1.
      + pnorm. cbn [andb]. rewrite andb_true_r. destruct (level =? 1); [|cbn [fst snd]; rewrite zsucc; apply IH1].
        unfold read. cbn [fst snd S_.p_start S_.p_inQuote S_.p_level S_.p_array S_.p_to_level]. rewrite zslice_slice. destruct (slice val start i) as [v|e|] eqn:E; cbn [bind]; [|unfold slice in E; destruct (_ && _)%bool; discriminate E|reflexivity].
        rewrite Hmid by (eapply slice_len; exact E). destruct (mmid v) as [a|e|]; cbn [bind]; try reflexivity. pnorm. rewrite !zsucc. etransitivity; [apply IH1|].
        destruct (split_loop mmid mfin val r (S i) (S i) level false); cbn [bind shown S_.p_array]; try reflexivity; rewrite <- app_assoc; reflexivity.
      + pnorm. cbn [andb]. rewrite andb_false_r. destruct (level =? 1); cbn [fst snd]; rewrite zsucc; apply IH1.
  Qed.
  Lemma split_for_spec (done : list A -> R) : kept done (S_.split_for fuel val mid fin (S_.Sp 1 false 0 [])) = shown done (split_loop mmid mfin val val 0 1 0 false).
  Proof.
    unfold S_.split_for, var. etransitivity; [exact (split_go done fuel val 0 1 0 false [] eq_refl Hval)|]. cbn [app]. destruct (split_loop _ _ _ _ _ _ _ _); reflexivity.
  Qed.
  Lemma split_then (done : list A -> R) : returns ((S_.split_for fuel val mid fin ;; return_ (fun s => done (S_.p_array s))) (S_.Sp 1 false 0 [])) = shown done (split_loop mmid mfin val val 0 1 0 false).
  Proof.
    rewrite <- split_for_spec. unfold then_, return_. destruct (S_.split_for fuel val mid fin (S_.Sp 1 false 0 [])); reflexivity.
  Qed.
End Elements.

Lemma clean_not_err v e : cleanValueString v <> Err e.
Proof.
  unfold cleanValueString. destruct v as [|c v]; [discriminate|]. cbv zeta. destruct (_ && _)%bool; [unfold slice; destruct (_ && _)%bool; discriminate|]. unfold slice. destruct (_ && _)%bool; discriminate.
Qed.

Lemma then_return {S R} (c d : cmd S R) f s : returns (((c ;; return_ f) ;; d) s) = returns ((c ;; return_ f) s).
Proof. unfold then_, return_. destruct (c s); reflexivity. Qed.
Lemma split_not_err {A} (mid fin : bytes -> res A) arr : (forall v e, mid v <> Err e) -> (forall v e, fin v <> Err e) ->
  forall n rest i start level inq e, (length rest <= n)%nat -> split_loop mid fin arr rest i start level inq <> Err e.
Proof.
  intros Hm Hf. assert (Hs : forall i j e, slice arr i j <> Err e) by (intros i j e; unfold slice; destruct (_ && _)%bool; discriminate).
  induction n as [|n IH]; intros [|c r] i start level inq e Hn; cbn [split_loop]; try discriminate; cbn [length] in Hn; [lia|].
  destruct (c =? 92)%N; [destruct r as [|d r]; [discriminate|apply IH; cbn in Hn; lia]|]. destruct (c =? 34)%N; [apply IH; lia|]. destruct inq; [apply IH; lia|].
  cbv zeta. set (lv := if is_open c then _ else _). destruct ((c =? 93)%N && (lv =? 0))%bool.
  - specialize (Hs start i). destruct (slice arr start i) as [v|e'|]; cbn [bind]; [|intros _; eapply Hs; reflexivity|discriminate]. specialize (Hf v). destruct (fin v) as [a|e'|]; cbn [bind]; [discriminate|intros _; eapply Hf; reflexivity|discriminate].
  - destruct ((lv =? 1) && (c =? 44)%N)%bool; [|apply IH; lia].
    specialize (Hs start i). destruct (slice arr start i) as [v|e'|]; cbn [bind]; [|intros _; eapply Hs; reflexivity|discriminate]. specialize (Hm v). destruct (mid v) as [a|e'|]; cbn [bind]; [|intros _; eapply Hm; reflexivity|discriminate].
    specialize (IH r (S i) (S i) lv false). destruct (split_loop mid fin arr r (S i) (S i) lv false) as [l|e'|]; cbn [bind]; [discriminate| |discriminate]. intros _. apply (IH e'); [lia|reflexivity].
Qed.
Lemma parse_not_err arr e : ParseArray arr <> Err e.
Proof.
  unfold ParseArray. destruct (length arr <? 2)%nat; [discriminate|]. destruct (bracketed arr); [|discriminate]. destruct (length arr =? 2)%nat; [discriminate|].
  destruct (split_loop _ _ _ _ _ _ _ _) as [l|e'|] eqn:E; cbn [bind]; [discriminate| |discriminate]. exfalso. eapply (split_not_err cleanValueString cleanValueString); [apply clean_not_err|apply clean_not_err|apply le_n|exact E].
Qed.

Section Values.
  Variable fuel : nat.
  Lemma clean_call {S R} v (k : bytes -> cmd S R) s : (length v < fuel)%nat ->
    call (fun _ => I.cleanValueString_go fuel v) k s = match cleanValueString v with Ok t => k t s | _ => Pan end.
  Proof. intro H. unfold call. rewrite (cleanValueString_go_spec fuel v H). destruct (cleanValueString v); reflexivity. Qed.
  Lemma string_does val : (length val < fuel)%nat -> does val (fun _ => None) (S_.string_element fuel) cleanValueString.
  Proof.
    intros Hval v s i Hv. unfold S_.string_element. rewrite clean_call by lia. destruct (cleanValueString v) as [t|e|] eqn:E; [reflexivity|exfalso; eapply clean_not_err; exact E|reflexivity].
  Qed.
  Definition failed {A : Type} (e : err) : list A * option err := ([], Some e).
  Lemma int_does val : (length val < fuel)%nat -> does val failed (S_.int_element fuel) int_elem.
  Proof.
    intros Hval v s i Hv. unfold S_.int_element, int_elem. rewrite clean_call by lia. destruct (cleanValueString v) as [t|e|] eqn:E; cbn [bind]; [|exfalso; eapply clean_not_err; exact E|reflexivity].
    destruct (atoi t); [reflexivity|]. rewrite clean_call, E by lia. reflexivity.
  Qed.
  Lemma float_does {F} (pf : bytes -> option F) val : (length val < fuel)%nat -> does val failed (S_.float_element fuel pf) (float_elem pf).
  Proof.
    intros Hval v s i Hv. unfold S_.float_element, float_elem. rewrite clean_call by lia. destruct (cleanValueString v) as [t|e|] eqn:E; cbn [bind]; [|exfalso; eapply clean_not_err; exact E|reflexivity].
    destruct (pf t); [reflexivity|]. rewrite clean_call, E by lia. reflexivity.
  Qed.
  Lemma clean_len v t : cleanValueString v = Ok t -> (length t <= length v)%nat.
  Proof.
    unfold cleanValueString. destruct v as [|c v]; [discriminate|]. cbv zeta. destruct (_ && _)%bool; intro H; apply slice_len in H; exact H.
  Qed.
  Lemma bool_mid_does val : (length val < fuel)%nat -> does val failed (S_.bool_element fuel (fun element => return_ (fun _ => ([], Some (EBoolParse element))))) bool_mid.
  Proof.
    intros Hval v s i Hv. unfold S_.bool_element, bool_mid. rewrite clean_call by lia. destruct (cleanValueString v) as [t|e|] eqn:E; cbn [bind]; [|exfalso; eapply clean_not_err; exact E|reflexivity].
    unfold if_. destruct (bytes_eqb t _); cbn [orb]; [reflexivity|]. destruct (bytes_eqb t _); reflexivity.
  Qed.
  Lemma bool_fin_does val : (length val < fuel)%nat -> does val failed (S_.bool_element fuel (fun element => call (fun _ => I.cleanValueString_go fuel element) (fun t => return_ (fun _ => ([], Some (EBoolParse t)))))) bool_fin.
  Proof.
    intros Hval v s i Hv. unfold S_.bool_element, bool_fin. rewrite clean_call by lia. destruct (cleanValueString v) as [t|e|] eqn:E; cbn [bind]; [|exfalso; eapply clean_not_err; exact E|reflexivity].
    apply clean_len in E. unfold if_. destruct (bytes_eqb t _); cbn [orb]; [reflexivity|]. destruct (bytes_eqb t _); [reflexivity|].
    rewrite clean_call by lia. destruct (cleanValueString t) as [u|e|] eqn:E2; cbn [bind]; [reflexivity|exfalso; eapply clean_not_err; exact E2|reflexivity].
  Qed.

  (** first and last byte *)
  Lemma both_spec {S R} (val : bytes) (k : bool -> cmd S R) s : (2 <= length val)%nat ->
    read (fun _ => I.and_also (do c <- zat val 0; Ok (c =? 91)%N) (do c <- zat val (zlen val - 1); Ok (c =? 93)%N)) k s = k (bracketed val) s.
  Proof.
    intro H. unfold read, I.and_also, bracketed. destruct val as [|c val]; [cbn in H; lia|]. change (zat (c :: val) 0) with (Ok c). cbn [bind hd].
    replace (zlen (c :: val) - 1) with (Z.of_nat (length val)) by (unfold zlen; cbn [length]; lia). rewrite zat_nth.
    assert (K : nth_error (c :: val) (length val) = Some (last (c :: val) 0%N)).
    { clear. revert c. induction val as [|d val IH]; intro c; [reflexivity|]. cbn [length nth_error]. rewrite IH. reflexivity. }
    rewrite K. cbn [bind]. destruct (c =? 91)%N; cbn [andb]; reflexivity.
  Qed.

  Theorem ParseArray_go_spec arr : (length arr < fuel)%nat -> S_.ParseArray_go fuel arr = match ParseArray arr with Ok r => Ret r | _ => Pan end.
  Proof.
    intro Hl. unfold S_.ParseArray_go, ParseArray, func. unfold then_ at 1, if_ at 1. change 2 with (Z.of_nat 2) at 1. unfold zlen at 1. rewrite zltb. destruct (Nat.ltb_spec (length arr) 2) as [H|H]; [reflexivity|].
    unfold pass at 1. unfold then_ at 1. rewrite both_spec by exact H. unfold if_ at 1. destruct (bracketed arr); [|reflexivity].
    unfold then_ at 1. unfold if_ at 1. change 2 with (Z.of_nat 2) at 1. unfold zlen at 1. rewrite zeqb. destruct (length arr =? 2)%nat; [reflexivity|]. unfold pass at 1.
    etransitivity; [apply then_return|]. rewrite (split_then fuel arr (fun _ => None) Hl _ _ _ _ (string_does arr Hl) (string_does arr Hl) Some).
    destruct (split_loop _ _ _ _ _ _ _ _) as [l|e|] eqn:E; cbn [bind shown]; [reflexivity| |reflexivity]. exfalso. eapply (split_not_err cleanValueString cleanValueString); [apply clean_not_err|apply clean_not_err|apply le_n|exact E].
  Qed.

  (** What is done with a text gotten somewhere *)
  Section Source.
    Variables (src : flow unit (bytes * option err)) (m : res bytes).
    Hypothesis Hsrc : src = told [] m.
    Hypothesis Hlen : forall val, m = Ok val -> (length val < fuel)%nat.
    Lemma gotten_spec {S A} (none : A) (s : S) c (model : bytes -> res A) :
      (forall val, (length val < fuel)%nat -> returns (c val s) = told none (model val)) ->
      S_.gotten src none s c = told none (do val <- m; model val).
    Proof.
      intro H. unfold S_.gotten, func, call. rewrite Hsrc. destruct m as [val|e|] eqn:E; cbn [told bind]; try reflexivity.
      unfold then_, pass. apply H, Hlen. reflexivity.
    Qed.
    Theorem GetInt_of_spec : S_.GetInt_of src = told (-1) (do val <- m; GetInt val []).
    Proof. apply gotten_spec. intros val _. unfold GetInt, GetString. cbn [Get bind]. destruct (atoi val); reflexivity. Qed.
    Theorem GetFloat_of_spec {F} (pf : bytes -> option F) minus1 : S_.GetFloat_of pf minus1 src = told minus1 (do val <- m; GetFloat pf val []).
    Proof. apply gotten_spec. intros val _. unfold GetFloat, GetString. cbn [Get bind]. destruct (pf val); reflexivity. Qed.
    Theorem GetBool_of_spec : S_.GetBool_of src = told false (do val <- m; GetBool val []).
    Proof. apply gotten_spec. intros val _. unfold GetBool, GetString. cbn [Get bind]. unfold then_, if_, pass, return_. destruct (bytes_eqb val _); [reflexivity|]. destruct (bytes_eqb val _); reflexivity. Qed.
    Theorem GetStringArray_of_spec : S_.GetStringArray_of fuel src = told [] (do val <- m; GetStringArray val []).
    Proof.
      apply gotten_spec. intros val Hv. unfold GetStringArray, GetString. cbn [Get bind]. unfold then_ at 1, if_ at 1. change 2 with (Z.of_nat 2) at 1. unfold zlen at 1. rewrite zltb. destruct (Nat.ltb_spec (length val) 2) as [H|H]; [reflexivity|].
      unfold pass at 1. unfold then_ at 1. rewrite both_spec by exact H. unfold if_ at 1. destruct (bracketed val); [|reflexivity].
      unfold call. rewrite ParseArray_go_spec by lia. destruct (ParseArray val) as [[l|]|e|] eqn:E; cbn [bind]; try reflexivity. exfalso. revert E. apply parse_not_err.
    Qed.
    Lemma array_of_spec {A} wrong mid fin (mmid mfin : bytes -> res A) : (forall val, (length val < fuel)%nat -> does val failed mid mmid) -> (forall val, (length val < fuel)%nat -> does val failed fin mfin) ->
      S_.array_of fuel src wrong mid fin = told [] (do val <- m; if (length val <? 2)%nat then Err (wrong val) else if bracketed val then split_loop mmid mfin val val 0 1 0 false else Err (wrong val)).
    Proof.
      intros Hm Hf. apply gotten_spec. intros val Hv. unfold then_ at 1, if_ at 1. change 2 with (Z.of_nat 2) at 1. unfold zlen at 1. rewrite zltb. destruct (Nat.ltb_spec (length val) 2) as [H|H]; [reflexivity|].
      unfold pass at 1. unfold then_ at 1. rewrite both_spec by exact H. unfold if_ at 1. destruct (bracketed val); [|reflexivity].
      etransitivity; [apply then_return|]. rewrite (split_then fuel val failed ltac:(lia) _ _ _ _ (Hm val ltac:(lia)) (Hf val ltac:(lia)) (fun l => (l, None))).
      destruct (split_loop _ _ _ _ _ _ _ _); reflexivity.
    Qed.
    Theorem GetIntArray_of_spec : S_.GetIntArray_of fuel src = told [] (do val <- m; GetIntArray val []).
    Proof. exact (array_of_spec _ _ _ _ _ int_does int_does). Qed.
    Theorem GetFloatArray_of_spec {F} (pf : bytes -> option F) : S_.GetFloatArray_of fuel pf src = told [] (do val <- m; GetFloatArray pf val []).
    Proof. exact (array_of_spec _ _ _ _ _ (float_does pf) (float_does pf)). Qed.
    Theorem GetBoolArray_of_spec : S_.GetBoolArray_of fuel src = told [] (do val <- m; GetBoolArray val []).
    Proof. exact (array_of_spec _ _ _ _ _ bool_mid_does bool_fin_does). Qed.
  End Source.

  Section Text.
    Variables (json : bytes) (path : list bytes).
    Hypothesis Hbytes : Forall (fun c => (c < 256)%N) json.
    Hypothesis Hjson : (length json < fuel)%nat.
    Hypothesis Hpath : (length path < fuel)%nat.

    Theorem Get_go_spec : S_.Get_go fuel json path = told [] (Get json path).
    Proof.
      unfold S_.Get_go, Get, func. unfold then_ at 1, if_ at 1. change 0 with (Z.of_nat 0) at 1. unfold zlen at 1. rewrite zeqb, nil_match. destruct (length path =? 0)%nat; [reflexivity|].
      unfold pass at 1. unfold call. rewrite core_go_as_core by assumption. destruct (core json false path) as [[[ks st] en]|e|]; cbn [bind returns]; try reflexivity.
      destruct ks as [ks|]; cbn [returns]; cbv beta iota; unfold then_, pass, read; rewrite zslice_slice; unfold slice; destruct (_ && _)%bool; reflexivity.
    Qed.
    Theorem GetString_go_spec : S_.GetString_go fuel json path = told [] (GetString json path).
    Proof.
      unfold S_.GetString_go, GetString, func, call. rewrite Get_go_spec. destruct (Get json path); reflexivity.
    Qed.
    Lemma get_len val : GetString json path = Ok val -> (length val < fuel)%nat.
    Proof.
      unfold GetString, Get. intro E. rewrite nil_match in E. destruct (length path =? 0)%nat; [injection E as <-; lia|].
      destruct (core json false path) as [[[ks st] en]|e|]; cbn [bind] in E; try discriminate E. apply slice_len in E. lia.
    Qed.
    Theorem GetInt_go_spec : S_.GetInt_go fuel json path = told (-1) (GetInt json path).
    Proof. exact (GetInt_of_spec _ _ GetString_go_spec get_len). Qed.
    Theorem GetFloat_go_spec {F} (pf : bytes -> option F) minus1 : S_.GetFloat_go fuel pf minus1 json path = told minus1 (GetFloat pf json path).
    Proof. exact (GetFloat_of_spec _ _ GetString_go_spec get_len pf minus1). Qed.
    Theorem GetBool_go_spec : S_.GetBool_go fuel json path = told false (GetBool json path).
    Proof. exact (GetBool_of_spec _ _ GetString_go_spec get_len). Qed.
    Theorem GetStringArray_go_spec : S_.GetStringArray_go fuel json path = told [] (GetStringArray json path).
    Proof. exact (GetStringArray_of_spec _ _ GetString_go_spec get_len). Qed.
    Theorem GetIntArray_go_spec : S_.GetIntArray_go fuel json path = told [] (GetIntArray json path).
    Proof. exact (GetIntArray_of_spec _ _ GetString_go_spec get_len). Qed.
    Theorem GetFloatArray_go_spec {F} (pf : bytes -> option F) : S_.GetFloatArray_go fuel pf json path = told [] (GetFloatArray pf json path).
    Proof. exact (GetFloatArray_of_spec _ _ GetString_go_spec get_len pf). Qed.
    Theorem GetBoolArray_go_spec : S_.GetBoolArray_go fuel json path = told [] (GetBoolArray json path).
    Proof. exact (GetBoolArray_of_spec _ _ GetString_go_spec get_len). Qed.
  End Text.
End Values.
