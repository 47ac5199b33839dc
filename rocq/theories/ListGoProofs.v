(** The listings, type tests and Length statement by statement (ListGo.v) compute what the models in Iter.v compute. *)
From Coq Require Import String.
From Verif Require Import GoStd GoLang Core Iter Splice.
From Verif Require CoreGo IterGo ListGo.
From Verif Require Import CoreGoProofs IterGoProofs.

Local Open Scope Z_scope.
Module L := ListGo.

Section List.
  Variables (fuel : nat) (json : bytes) (path : list bytes).
  Hypothesis Hbytes : Forall (fun c => (c < 256)%N) json.
  Hypothesis Hjson : (length json < fuel)%nat.
  Hypothesis Hpath : (length path < fuel)%nat.

  Lemma find_start_go {S R : Type} (get : S -> Z) (put : Z -> S -> S) (fails : err -> R) s :
    (forall x t, get (put x t) = x) -> (forall x y t, put x (put y t) = put x t) -> put 0 s = s ->
    L.find_start fuel json path get put fails s = match start_of json path with Ok n => Nrm (put (Z.of_nat n) s) | Err e => Ret (fails e) | Panic => Pan end.
  Proof.
    intros Hg Hp H0. unfold L.find_start, start_of. unfold if_ at 1. change 0 with (Z.of_nat 0) at 1. unfold zlen at 1. rewrite zeqb, nil_match. destruct (length path =? 0)%nat.
    - set (body := then_ _ _).
      enough (K : forall rest i fu, skipn i json = rest -> (length rest < fu)%nat -> for_ fu (fun s => do c <- zat json (get s); Ok (CoreGo.space c)) (fun s => s) body (put (Z.of_nat i) s) =
        match skip_space rest i with Ok n => Nrm (put (Z.of_nat n) s) | Err e => Ret (fails e) | Panic => Pan end).
      { specialize (K json 0%nat fuel eq_refl Hjson). change (Z.of_nat 0) with 0 in K. rewrite H0 in K. exact K. }
      induction rest as [|c r IH]; intros i fu Hi Hfu; (destruct fu as [|fu]; [cbn in Hfu; lia|]); cbn [for_]; rewrite Hg.
      + destruct (there fuel json path Hjson Hpath i Hi) as [_ ->]. reflexivity.
      + destruct (here fuel json path Hbytes Hjson Hpath i c r Hi) as (-> & _ & Hr & Hlt & _). cbn [length] in Hfu. specialize (IH (Datatypes.S i) fu Hr ltac:(lia)). cbn [bind skip_space]. destruct (space c); [|reflexivity].
        rewrite <- IH. hide fu. unfold body. unfold then_, if_, set_, pass, continue_. rewrite Hg.
        replace (Z.of_nat i >? zlen json - 1) with false by (symmetry; rewrite Z.gtb_ltb; apply Z.ltb_ge; unfold zlen; lia). rewrite Hg, Hp, zsucc. reflexivity.
    - unfold call. rewrite core_go_as_core by assumption. destruct (core json true path) as [[[[ks|] st] en]|e|]; cbn [bind returns]; reflexivity.
  Qed.

  Definition lst (start ks ke : nat) (inq : bool) (level : nat) (ls vs : list bytes) : L.ls := L.Ls (Z.of_nat start) (Z.of_nat ks) (Z.of_nat ke) inq (Z.of_nat level) ls vs.

  Lemma lst_look {R} start ks ke inq level l v n : (n <= length json)%nat -> inq = true ->
    G.look_back fuel json snd G.rem_odd (set_ (fun t => (L.l_to_inQuote (negb (L.l_inQuote (fst (fst t)))) (fst (fst t)), snd (fst t), snd t)) ;; break_) goto_ (L.Ls start ks ke inq level l v, Z.of_nat n) =
    after_back (qscan json n) (L.Ls start ks ke true level l v, Z.of_nat n) (Nrm (L.Ls start ks ke false level l v, Z.of_nat n)) (Gto (L.Ls start ks ke true level l v, Z.of_nat n)) :> flow _ R.
  Proof.
    intros Hn ->. apply (look_back_loop fuel json [] Hjson ltac:(cbn; lia)); try reflexivity; [exact Hn|intros; apply rem_odd_spec; assumption|].
    intro. right. split; reflexivity.
  Qed.

  Ltac lnorm := unfold L.lset, L.lset_i, then_, if_, read, set_, pass, continue_, break_, label;
    cbn [fst snd L.l_start L.l_keyStart L.l_keyEnd L.l_inQuote L.l_level L.l_keys L.l_values
         L.l_to_start L.l_to_keyStart L.l_to_keyEnd L.l_to_inQuote L.l_to_level L.l_to_keys L.l_to_values bind negb].

  Lemma at_quote_spec {R} start ks ke inq level l v i : (i <= length json)%nat ->
    L.at_quote fuel json (lst start ks ke inq level l v, Z.of_nat i) =
    (if inq then after_back (qscan json i) (lst start ks ke true level l v, Z.of_nat i) (Nrm (lst start ks ke false level l v, Z.of_nat i)) (Gto (lst start ks ke true level l v, Z.of_nat i))
     else Nrm (lst start ks ke true level l v, Z.of_nat i)) :> flow _ R.
  Proof.
    intro Hi. unfold L.at_quote, if_. cbn [fst lst L.l_inQuote]. destruct inq; [|reflexivity]. unfold lst. rewrite lst_look by (exact Hi || reflexivity). reflexivity.
  Qed.
  Lemma key_quote_spec {R} start ks ke inq level l v i : (i <= length json)%nat ->
    L.key_quote fuel json (lst start ks ke inq level l v, Z.of_nat i) =
    (if inq then match qscan json i with
                 | Some true => Cnt (lst start ks i false level l v, Z.of_nat i)
                 | Some false => Cnt (lst start ks ke true level l v, Z.of_nat i)
                 | None => Cnt (lst start i ke true level l v, Z.of_nat i)
                 end
     else Cnt (lst start i ke true level l v, Z.of_nat i)) :> flow _ R.
  Proof.
    intro Hi. unfold L.key_quote, then_ at 1 2, label. rewrite at_quote_spec by exact Hi.
    destruct inq; [destruct (qscan json i) as [[|]|]|]; cbn [after_back]; unfold lst; lnorm; rewrite ?Z.add_0_r; reflexivity.
  Qed.

  Lemma add_value_spec {R} start ks ke inq level l v i :
    L.add_value fuel json (lst start ks ke inq level l v, Z.of_nat i) =
    match (do t <- slice json start i; cleanValueString t) with Ok x => Nrm (lst start ks ke inq level l (v ++ [x]), Z.of_nat i) | _ => Pan end :> flow _ R.
  Proof.
    unfold L.add_value, lst. lnorm. rewrite zslice_slice. unfold slice. destruct ((start <=? i)%nat && (i <=? length json)%nat) eqn:E; cbn [bind]; [|reflexivity].
    unfold call. rewrite cleanValueString_go_spec.
    - destruct (cleanValueString _); reflexivity.
    - rewrite firstn_length, skipn_length. lia.
  Qed.
  Lemma add_key_spec {R} start ks ke inq level l v i :
    L.add_key json (lst start ks ke inq level l v, Z.of_nat i) =
    match slice json (S ks) ke with Ok x => Nrm (lst start ks ke inq level (l ++ [x]) v, Z.of_nat i) | _ => Pan end :> flow _ R.
  Proof. unfold L.add_key, lst. lnorm. rewrite zsucc, zslice_slice. destruct (slice json (S ks) ke); reflexivity. Qed.
  Lemma open_spec {R} start ks ke inq level l v i c :
    L.open_ c (lst start ks ke inq level l v, Z.of_nat i) =
    (if is_open c then Cnt (lst start ks ke inq (S level) l v, Z.of_nat i) else Nrm (lst start ks ke inq level l v, Z.of_nat i)) :> flow _ R.
  Proof. unfold L.open_, lst, is_open. lnorm. destruct ((c =? 91) || (c =? 123))%N; [|reflexivity]. rewrite zsucc. reflexivity. Qed.

  Definition closed {A : Type} (r : flow L.ls (list bytes * option err)) : flow unit (list bytes * option err) := returns r.
  (** What the loop adds to the lists *)
  Definition grown {A R} (r : res A) (f : A -> flow L.ls R) : flow L.ls R := match r with Ok a => f a | _ => Pan end.
  Definition kept {R} (r : flow L.ls R) (done : L.ls -> R) : flow unit R := returns (match r with Nrm s => Ret (done s) | x => x end).

  Definition prefixed (l : list bytes) (r : res (list bytes)) : flow unit (list bytes * option err) := match r with Ok x => Ret (l ++ x, None) | _ => Pan end.

  Ltac classes c H34 H44 H58 H91 H123 H93 H125 :=
    destruct (N.eqb_spec c 34) as [->|H34]; [|destruct (N.eqb_spec c 44) as [->|H44]; [|destruct (N.eqb_spec c 58) as [->|H58]; [|destruct (N.eqb_spec c 91) as [->|H91]; [|destruct (N.eqb_spec c 123) as [->|H123]; [|destruct (N.eqb_spec c 93) as [->|H93]; [|destruct (N.eqb_spec c 125) as [->|H125]]]]]]].

  Definition prefixed2 (l v : list bytes) (r : res (list bytes * list bytes)) : flow unit (list bytes * list bytes * option err) := match r with Ok (x, y) => Ret (l ++ x, v ++ y, None) | _ => Pan end.
  Local Ltac enter_body := cbn [N.eqb Pos.eqb orb andb negb hd_error] in *; unfold pass at 1.
  Local Ltac ready Hlv := match type of Hlv with _ \/ _ => let H := fresh in assert (H : (1 <= _)%nat) by (destruct Hlv as [H|[H _]]; [exact H|discriminate H]); clear Hlv; rename H into Hlv end.
  (** behind the test for a quote *)
  Local Ltac unquoted inq IH' Hlv := unfold then_, if_, pass, continue_, break_; cbn [fst snd lst L.l_inQuote];
    destruct inq; [cbn [fst snd]; rewrite zsucc; apply IH'; destruct Hlv as [H|[_ H]]; [exact H|discriminate H]|];
    rewrite open_spec; unfold is_open; cbn [N.eqb Pos.eqb orb fst snd].
  Lemma level1 start ks ke inq level l v : (L.l_level (lst start ks ke inq level l v) =? 1) = (level =? 1)%nat.
  Proof. exact (zeqb level 1). Qed.
  Lemma keys_go : forall rest i fu start ks ke inq level l v, skipn i json = rest -> (length rest < fu)%nat -> (1 <= level)%nat \/ hd_error rest = Some 123%N /\ inq = false ->
    kept (leave (for_ fu (fun s => Ok (snd s <? zlen json)) (fun s => (fst s, snd s + 1)) (L.keys_body fuel json) (lst start ks ke inq level l v, Z.of_nat i))) (fun s => (L.l_keys s, None)) =
    prefixed l (keys_loop json rest i level ks ke inq).
  Proof.
    induction rest as [|c r IH]; intros i fu start ks ke inq level l v Hi Hfu Hlv; (destruct fu as [|fu]; [cbn in Hfu; lia|]); cbn [for_ snd fst].
    - destruct (there fuel json [] Hjson ltac:(cbn; lia) i Hi) as [-> _]. cbn [keys_loop prefixed]. rewrite app_nil_r. reflexivity.
    - destruct (here fuel json [] Hbytes Hjson ltac:(cbn; lia) i c r Hi) as (Hz & Hlt & Hs & Hl & Hc). rewrite Hlt.
      assert (IH' := fun start ks ke inq level l v H => IH (S i) fu start ks ke inq level l v Hs ltac:(cbn in Hfu; lia) (or_introl H)). clear IH.
      hide fu. unfold L.keys_body. unfold read at 1. cbn [snd]. rewrite Hz. unfold read at 1. rewrite (F7_get c Hc). unfold then_ at 1, if_ at 1. unfold among. cbn [existsb keys_loop]. unfold is_open, is_close.
      unfold then_ at 1, if_ at 1.
      assert (Hlv' : (1 <= level)%nat \/ c = 123%N /\ inq = false) by (destruct Hlv as [H|[H H']]; [left; exact H|right; injection H as H; split; assumption]). clear Hlv.
      classes c H34 H44 H58 H91 H123 H93 H125; enter_body.
      + rewrite key_quote_spec by lia. assert (Hv : (1 <= level)%nat) by (destruct Hlv' as [H|[H _]]; [exact H|discriminate H]).
        destruct inq; [destruct (qscan json i) as [[|]|]|]; cbn [fst snd]; rewrite zsucc; apply IH'; exact Hv.
      + unquoted inq IH' Hlv'. ready Hlv'. rewrite zsucc. apply IH'. exact Hlv'.
      + unquoted inq IH' Hlv'. ready Hlv'. rewrite level1. destruct (level =? 1)%nat; [|cbn [fst snd]; rewrite zsucc; apply IH'; exact Hlv'].
        rewrite add_key_spec. destruct (slice json (S ks) ke) as [x|e|]; cbn [bind]; try reflexivity. cbn [fst snd]. rewrite zsucc, IH' by exact Hlv'.
        destruct (keys_loop json r (S i) level ks ke false); cbn [bind prefixed]; [rewrite <- app_assoc|..]; reflexivity.
      + unquoted inq IH' Hlv'. rewrite zsucc. apply IH'. lia.
      + unquoted inq IH' Hlv'. rewrite zsucc. apply IH'. lia.
      + unquoted inq IH' Hlv'. ready Hlv'. rewrite level1. destruct (Nat.eqb_spec level 1) as [->|Hn]; [cbn [leave kept prefixed]; rewrite app_nil_r; reflexivity|].
        unfold lst. lnorm. rewrite zsucc. replace (Z.of_nat level - 1) with (Z.of_nat (pred level)) by lia. apply IH'. lia.
      + unquoted inq IH' Hlv'. ready Hlv'. rewrite level1. destruct (Nat.eqb_spec level 1) as [->|Hn]; [cbn [leave kept prefixed]; rewrite app_nil_r; reflexivity|].
        unfold lst. lnorm. rewrite zsucc. replace (Z.of_nat level - 1) with (Z.of_nat (pred level)) by lia. apply IH'. lia.
      + unfold continue_. cbn [fst snd]. rewrite zsucc. destruct Hlv' as [H|[H _]]; [|congruence]. rewrite IH' by exact H. destruct inq; reflexivity.
  Qed.
  Lemma values_go : forall rest i fu start ks ke inq level l v, skipn i json = rest -> (length rest < fu)%nat -> (1 <= level)%nat \/ hd_error rest = Some 123%N /\ inq = false ->
    kept (leave (for_ fu (fun s => Ok (snd s <? zlen json)) (fun s => (fst s, snd s + 1)) (L.values_body fuel json) (lst start ks ke inq level l v, Z.of_nat i))) (fun s => (L.l_values s, None)) =
    prefixed v (values_loop json rest i start level inq).
  Proof.
    induction rest as [|c r IH]; intros i fu start ks ke inq level l v Hi Hfu Hlv; (destruct fu as [|fu]; [cbn in Hfu; lia|]); cbn [for_ snd fst].
    - destruct (there fuel json [] Hjson ltac:(cbn; lia) i Hi) as [-> _]. cbn [values_loop prefixed]. rewrite app_nil_r. reflexivity.
    - destruct (here fuel json [] Hbytes Hjson ltac:(cbn; lia) i c r Hi) as (Hz & Hlt & Hs & Hl & Hc). rewrite Hlt.
      assert (IH' := fun start ks ke inq level l v H => IH (S i) fu start ks ke inq level l v Hs ltac:(cbn in Hfu; lia) (or_introl H)). clear IH.
      hide fu. unfold L.values_body. unfold read at 1. cbn [snd]. rewrite Hz. unfold read at 1. rewrite (F7_get c Hc). unfold then_ at 1, if_ at 1. unfold among. cbn [existsb values_loop]. unfold is_open, is_close.
      unfold then_ at 1, if_ at 1.
      assert (Hlv' : (1 <= level)%nat \/ c = 123%N /\ inq = false) by (destruct Hlv as [H|[H H']]; [left; exact H|right; injection H as H; split; assumption]). clear Hlv.
      classes c H34 H44 H58 H91 H123 H93 H125; enter_body.
      + unfold then_ at 1, label. rewrite at_quote_spec by lia. assert (Hv : (1 <= level)%nat) by (destruct Hlv' as [H|[H _]]; [exact H|discriminate H]).
        destruct inq; [destruct (qscan json i) as [[|]|]|]; cbn [after_back]; unfold continue_; cbn [fst snd]; rewrite zsucc; apply IH'; exact Hv.
      + unquoted inq IH' Hlv'. ready Hlv'. rewrite level1. destruct (level =? 1)%nat; [|cbn [fst snd]; rewrite zsucc; apply IH'; exact Hlv'].
        rewrite add_value_spec. destruct (slice json start i) as [x|e|]; cbn [bind]; try reflexivity. destruct (cleanValueString x) as [y|e|]; cbn [bind]; try reflexivity. unfold lst. lnorm. rewrite zsucc.
        match goal with |- context [loop ?x] => change x with (lst (S i) ks ke false level l (v ++ [y]), Z.of_nat (S i)) end. rewrite IH' by exact Hlv'.
        destruct (values_loop json r (S i) (S i) level false); cbn [bind prefixed]; [rewrite <- app_assoc|..]; reflexivity.
      + unquoted inq IH' Hlv'. ready Hlv'. rewrite level1. destruct (level =? 1)%nat; [|cbn [fst snd]; rewrite zsucc; apply IH'; exact Hlv'].
        unfold lst. lnorm. rewrite zsucc. apply (IH' (S i)). exact Hlv'.
      + unquoted inq IH' Hlv'. rewrite zsucc. apply IH'. lia.
      + unquoted inq IH' Hlv'. rewrite zsucc. apply IH'. lia.
      + unquoted inq IH' Hlv'. ready Hlv'. rewrite level1. destruct (Nat.eqb_spec level 1) as [->|Hn]; [rewrite add_value_spec; destruct (slice json start i) as [x|e|]; cbn [bind]; try reflexivity; destruct (cleanValueString x); reflexivity|].
        unfold lst. lnorm. rewrite zsucc. replace (Z.of_nat level - 1) with (Z.of_nat (pred level)) by lia. apply IH'. lia.
      + unquoted inq IH' Hlv'. ready Hlv'. rewrite level1. destruct (Nat.eqb_spec level 1) as [->|Hn]; [rewrite add_value_spec; destruct (slice json start i) as [x|e|]; cbn [bind]; try reflexivity; destruct (cleanValueString x); reflexivity|].
        unfold lst. lnorm. rewrite zsucc. replace (Z.of_nat level - 1) with (Z.of_nat (pred level)) by lia. apply IH'. lia.
      + unfold continue_. cbn [fst snd]. rewrite zsucc. destruct Hlv' as [H|[H _]]; [|congruence]. rewrite IH' by exact H. destruct inq; reflexivity.
  Qed.
  Lemma kvs_go : forall rest i fu start ks ke inq level l v, skipn i json = rest -> (length rest < fu)%nat -> (1 <= level)%nat \/ hd_error rest = Some 123%N /\ inq = false ->
    kept (leave (for_ fu (fun s => Ok (snd s <? zlen json)) (fun s => (fst s, snd s + 1)) (L.kvs_body fuel json) (lst start ks ke inq level l v, Z.of_nat i))) (fun s => (L.l_keys s, L.l_values s, None)) =
    prefixed2 l v (kvs_loop json rest i start level ks ke inq).
  Proof.
    induction rest as [|c r IH]; intros i fu start ks ke inq level l v Hi Hfu Hlv; (destruct fu as [|fu]; [cbn in Hfu; lia|]); cbn [for_ snd fst].
    - destruct (there fuel json [] Hjson ltac:(cbn; lia) i Hi) as [-> _]. cbn [kvs_loop prefixed2]. rewrite !app_nil_r. reflexivity.
    - destruct (here fuel json [] Hbytes Hjson ltac:(cbn; lia) i c r Hi) as (Hz & Hlt & Hs & Hl & Hc). rewrite Hlt.
      assert (IH' := fun start ks ke inq level l v H => IH (S i) fu start ks ke inq level l v Hs ltac:(cbn in Hfu; lia) (or_introl H)). clear IH.
      hide fu. unfold L.kvs_body. unfold read at 1. cbn [snd]. rewrite Hz. unfold read at 1. rewrite (F7_get c Hc). unfold then_ at 1, if_ at 1. unfold among. cbn [existsb kvs_loop]. unfold is_open, is_close.
      unfold then_ at 1, if_ at 1.
      assert (Hlv' : (1 <= level)%nat \/ c = 123%N /\ inq = false) by (destruct Hlv as [H|[H H']]; [left; exact H|right; injection H as H; split; assumption]). clear Hlv.
      classes c H34 H44 H58 H91 H123 H93 H125; enter_body.
      + rewrite key_quote_spec by lia. assert (Hv : (1 <= level)%nat) by (destruct Hlv' as [H|[H _]]; [exact H|discriminate H]).
        destruct inq; [destruct (qscan json i) as [[|]|]|]; cbn [fst snd]; rewrite zsucc; apply IH'; exact Hv.
      + unquoted inq IH' Hlv'. ready Hlv'. rewrite level1. destruct (level =? 1)%nat; [|cbn [fst snd]; rewrite zsucc; apply IH'; exact Hlv'].
        rewrite add_value_spec. destruct (slice json start i) as [x|e|]; cbn [bind]; try reflexivity. destruct (cleanValueString x) as [y|e|]; cbn [bind]; try reflexivity. unfold lst. lnorm. rewrite zsucc.
        match goal with |- context [loop ?x] => change x with (lst (S i) ks ke false level l (v ++ [y]), Z.of_nat (S i)) end. rewrite IH' by exact Hlv'.
        destruct (kvs_loop json r (S i) (S i) level ks ke false) as [[? ?]|?|]; cbn [bind prefixed2]; [rewrite <- ?app_assoc|..]; reflexivity.
      + unquoted inq IH' Hlv'. ready Hlv'. rewrite level1. destruct (level =? 1)%nat; [|cbn [fst snd]; rewrite zsucc; apply IH'; exact Hlv'].
        rewrite add_key_spec. destruct (slice json (S ks) ke) as [x0|e|]; cbn [bind]; try reflexivity. unfold lst. lnorm. rewrite zsucc.
        match goal with |- context [loop ?x] => change x with (lst (S i) ks ke false level (l ++ [x0]) v, Z.of_nat (S i)) end. rewrite IH' by exact Hlv'.
        destruct (kvs_loop json r (S i) (S i) level ks ke false) as [[? ?]|?|]; cbn [bind prefixed2]; [rewrite <- ?app_assoc|..]; reflexivity.
      + unquoted inq IH' Hlv'. rewrite zsucc. apply IH'. lia.
      + unquoted inq IH' Hlv'. rewrite zsucc. apply IH'. lia.
      + unquoted inq IH' Hlv'. ready Hlv'. rewrite level1. destruct (Nat.eqb_spec level 1) as [->|Hn]; [rewrite add_value_spec; destruct (slice json start i) as [x|e|]; cbn [bind]; try reflexivity; destruct (cleanValueString x); [cbn [bind prefixed2]; rewrite app_nil_r|..]; reflexivity|].
        unfold lst. lnorm. rewrite zsucc. replace (Z.of_nat level - 1) with (Z.of_nat (pred level)) by lia. apply IH'. lia.
      + unquoted inq IH' Hlv'. ready Hlv'. rewrite level1. destruct (Nat.eqb_spec level 1) as [->|Hn]; [rewrite add_value_spec; destruct (slice json start i) as [x|e|]; cbn [bind]; try reflexivity; destruct (cleanValueString x); [cbn [bind prefixed2]; rewrite app_nil_r|..]; reflexivity|].
        unfold lst. lnorm. rewrite zsucc. replace (Z.of_nat level - 1) with (Z.of_nat (pred level)) by lia. apply IH'. lia.
      + unfold continue_. cbn [fst snd]. rewrite zsucc. destruct Hlv' as [H|[H _]]; [|congruence]. rewrite IH' by exact H. destruct inq; reflexivity.
  Qed.

  Lemma cvs_not_err t e : cleanValueString t <> Err e.
  Proof. unfold cleanValueString, slice. destruct t; [discriminate|]. repeat match goal with |- context [if ?c then _ else _] => destruct c end; discriminate. Qed.
  Lemma keys_not_err : forall rest i level ks ke inq e, keys_loop json rest i level ks ke inq <> Err e.
  Proof.
    clear. induction rest as [|c r IH]; intros i level ks ke inq e; cbn [keys_loop]; [discriminate|]. unfold slice.
    repeat match goal with |- context [if ?c then _ else _] => destruct c | |- context [match qscan json i with _ => _ end] => destruct (qscan json i) as [[|]|] end; cbn [bind]; try discriminate; try apply IH.
    all: match goal with |- context [keys_loop ?a ?b ?c ?d ?e ?f ?g] => specialize (IH c d e f g); destruct (keys_loop a b c d e f g) end; cbn [bind]; congruence.
  Qed.
  Lemma values_not_err : forall rest i start level inq e, values_loop json rest i start level inq <> Err e.
  Proof.
    clear. induction rest as [|c r IH]; intros i start level inq e; cbn [values_loop]; [discriminate|]. unfold slice.
    repeat match goal with |- context [if ?c then _ else _] => destruct c end; cbn [bind]; try discriminate; try apply IH.
    all: match goal with |- context [cleanValueString ?t] => pose proof (cvs_not_err t); destruct (cleanValueString t) end; cbn [bind]; try discriminate; try (exfalso; eapply H; reflexivity).
    all: match goal with |- context [values_loop ?a ?b ?c ?d ?e ?f] => specialize (IH c d e f); destruct (values_loop a b c d e f) end; cbn [bind]; congruence.
  Qed.
  Lemma kvs_not_err : forall rest i start level ks ke inq e, kvs_loop json rest i start level ks ke inq <> Err e.
  Proof.
    clear. induction rest as [|c r IH]; intros i start level ks ke inq e; cbn [kvs_loop]; [discriminate|]. unfold slice.
    repeat match goal with |- context [if ?c then _ else _] => destruct c | |- context [match qscan json i with _ => _ end] => destruct (qscan json i) as [[|]|] end; cbn [bind]; try discriminate; try apply IH.
    all: try match goal with |- context [cleanValueString ?t] => pose proof (cvs_not_err t); destruct (cleanValueString t) end; cbn [bind]; try discriminate; try (exfalso; eapply H; reflexivity).
    all: match goal with |- context [kvs_loop ?a ?b ?c ?d ?e ?f ?g ?h] => specialize (IH c d e f g h); destruct (kvs_loop a b c d e f g h) as [[? ?]|?|] end; cbn [bind]; congruence.
  Qed.

  Lemma listing_spec {R A : Type} body fails (done : L.ls -> R) (lp : nat -> res A) (out : A -> R) :
    (forall start e, lp start <> Err e) ->
    (forall start, at_ json start = Ok 123%N ->
       kept (leave (for_ fuel (fun s => Ok (snd s <? zlen json)) (fun s => (fst s, snd s + 1)) body (lst start 0 0 false 0 [] [], Z.of_nat start))) done = match lp start with Ok a => Ret (out a) | _ => Pan end) ->
    L.listing fuel json path body fails done =
    match (if bytes_eqb json (b "{}") then Err EEmpty else do start <- start_of json path; do c <- at_ json start; if (c =? 123)%N then lp start else Err EObjectExpected) with
    | Ok a => Ret (out a) | Err e => Ret (fails e) | Panic => Pan
    end.
  Proof.
    intros He H. unfold L.listing, func. unfold then_ at 1, if_ at 1. destruct (bytes_eqb json (b "{}")); [reflexivity|]. unfold pass at 1. unfold then_ at 1. rewrite find_start_go by (reflexivity || (intros; reflexivity)).
    destruct (start_of json path) as [start|e|]; cbn [bind]; try reflexivity. unfold then_ at 1, read at 1. cbn [L.l_to_start L.l_start]. rewrite at_zat.
    specialize (H start). specialize (He start). destruct (at_ json start) as [c|e|] eqn:Ec; cbn [bind]; try reflexivity.
    2: { unfold at_ in Ec. destruct (nth_error json start); discriminate Ec. }
    unfold if_ at 1. destruct (N.eqb_spec c 123) as [->|Hc]; [|reflexivity]. specialize (H eq_refl). unfold then_ at 1. unfold var. cbn [L.l_to_start L.l_start L.l_keyStart L.l_keyEnd L.l_inQuote L.l_level L.l_keys L.l_values].
    change (L.Ls (Z.of_nat start) 0 0 false 0 [] []) with (lst start 0 0 false 0 [] []).
    destruct (leave _) as [s|s|s|s|r| |]; unfold kept in H; cbn [returns] in *; unfold return_; cbn [returns]; rewrite H; destruct (lp start) as [a|e|]; try reflexivity; exfalso; exact (He _ eq_refl).
  Qed.
  Lemma first_open start r : at_ json start = Ok 123%N -> r = skipn start json -> hd_error r = Some 123%N.
  Proof. intros H ->. unfold at_ in H. rewrite skipn_nth in H. destruct (hd_error (skipn start json)); [injection H as ->; reflexivity|discriminate H]. Qed.

  Definition told {A : Type} (none : A) (r : res A) : flow unit (A * option err) := match r with Ok a => Ret (a, None) | Err e => Ret (none, Some e) | Panic => Pan end.
  Theorem GetKeys_go_spec : L.GetKeys_go fuel json path = told [] (GetKeys json path).
  Proof.
    unfold L.GetKeys_go, GetKeys. rewrite (listing_spec _ _ _ (fun start => keys_loop json (skipn start json) start 0 0 0 false) (fun a => (a, None))); [reflexivity|intros; apply keys_not_err|].
    intros start H. rewrite (keys_go (skipn start json)); [reflexivity|reflexivity|rewrite skipn_length; lia|right; split; [exact (first_open _ _ H eq_refl)|reflexivity]].
  Qed.
  Theorem GetValues_go_spec : L.GetValues_go fuel json path = told [] (GetValues json path).
  Proof.
    unfold L.GetValues_go, GetValues. rewrite (listing_spec _ _ _ (fun start => values_loop json (skipn start json) start start 0 false) (fun a => (a, None))); [reflexivity|intros; apply values_not_err|].
    intros start H. rewrite (values_go (skipn start json)); [reflexivity|reflexivity|rewrite skipn_length; lia|right; split; [exact (first_open _ _ H eq_refl)|reflexivity]].
  Qed.
  Theorem GetKeysValues_go_spec : L.GetKeysValues_go fuel json path = told ([], []) (GetKeysValues json path).
  Proof.
    unfold L.GetKeysValues_go, GetKeysValues. rewrite (listing_spec _ _ _ (fun start => kvs_loop json (skipn start json) start start 0 0 0 false) (fun a => (a, None))); [reflexivity|intros; apply kvs_not_err|].
    intros start H. rewrite (kvs_go (skipn start json)); [|reflexivity|rewrite skipn_length; lia|right; split; [exact (first_open _ _ H eq_refl)|reflexivity]].
    destruct (kvs_loop json (skipn start json) start start 0 0 0 false) as [[? ?]|?|]; reflexivity.
  Qed.

  (** ** Types and positions *)
  Theorem typeControlCore_go_spec control equal : L.typeControlCore_go fuel json path control equal =
    match typeControlCore json control equal path with Ok (r, start) => Ret (r, Z.of_nat start, None) | Err e => Ret (false, -1, Some e) | Panic => Pan end.
  Proof.
    unfold L.typeControlCore_go, typeControlCore, func. unfold then_ at 1, if_ at 1. change 0 with (Z.of_nat 0) at 1. unfold zlen at 1. rewrite zeqb, nil_match. destruct (length json =? 0)%nat; [reflexivity|].
    unfold pass at 1. unfold then_ at 1. rewrite (find_start_go (fun s => s) (fun x _ => x)) by (reflexivity || (intros; reflexivity)).
    destruct (start_of json path) as [start|e|]; cbn [bind]; try reflexivity.
    set (d := then_ (if_ (fun _ : Z => equal) (return_ (fun s => (false, s, None))) pass) (return_ (fun s => (true, s, None)))). assert (Hd : forall x, returns (d x) = Ret (negb equal, x, None)) by (intro x; unfold d, then_, if_, pass, return_; destruct equal; reflexivity).
    destruct control as [|v control]; [cbn [L.each bind existsb]; unfold then_ at 1, pass at 1; apply Hd|].
    assert (Hz : zat json (Z.of_nat start) = at_ json start) by (rewrite zat_nth; reflexivity).
    destruct (at_ json start) as [c|e|] eqn:Ec; cbn [bind].
    2: { exfalso. unfold at_ in Ec. destruct (nth_error json start); discriminate Ec. }
    2: { cbn [L.each]. unfold then_ at 1 2, read at 1. rewrite Hz. reflexivity. }
    generalize (v :: control). intro l. induction l as [|w l IH]; cbn [L.each existsb].
    - unfold then_ at 1, pass at 1. apply Hd.
    - unfold then_ in IH |- *. unfold read at 1. rewrite Hz. unfold if_ at 1. rewrite (N.eqb_sym c w). destruct (N.eqb_spec w c) as [->|Hn]; cbn [orb].
      + unfold if_, pass, return_. destruct equal; reflexivity.
      + unfold pass at 1. exact IH.
  Qed.

  Lemma skip_found : forall rest i n, skip_space rest i = Ok n -> (i <= n)%nat /\ exists c, nth_error rest (n - i) = Some c /\ space c = false.
  Proof.
    clear. induction rest as [|c r IH]; intros i n H; cbn [skip_space] in H; [discriminate|]. destruct (space c) eqn:Ec.
    - apply IH in H. destruct H as (Hle & d & Hd & Hs). split; [lia|]. exists d. split; [|exact Hs]. replace (n - i)%nat with (S (n - S i)) by lia. exact Hd.
    - injection H as <-. split; [lia|]. exists c. rewrite Nat.sub_diag. split; [reflexivity|exact Ec].
  Qed.
  Lemma forth_spec {R} (fails : Z * Z -> R) e : forall rest i fu, skipn i json = rest -> (length rest < fu)%nat ->
    for_ fu (fun s => do c <- zat json (fst s); Ok (space c)) (fun s => s) (
      if_ (fun s => fst s >? zlen json - 1) (return_ fails) pass ;;
      set_ (fun s : Z * Z => (fst s + 1, snd s)) ;;
      continue_) (Z.of_nat i, e) = match skip_space rest i with Ok n => Nrm (Z.of_nat n, e) | _ => Pan end.
  Proof.
    induction rest as [|c r IH]; intros i fu Hi Hfu; (destruct fu as [|fu]; [cbn in Hfu; lia|]); cbn [for_ fst].
    - destruct (there fuel json path Hjson Hpath i Hi) as (_ & ->). reflexivity.
    - destruct (here fuel json path Hbytes Hjson Hpath i c r Hi) as (Hat & _ & Hr & Hlt & _). cbn [length] in Hfu. specialize (IH (S i) fu Hr ltac:(lia)). rewrite <- zsucc in IH.
      rewrite Hat. cbn [bind skip_space]. destruct (space c); [|reflexivity]. hide fu. unfold then_, if_, set_, pass, continue_, return_. cbn [fst snd].
      replace (Z.of_nat i >? zlen json - 1) with false by (symmetry; rewrite Z.gtb_ltb; apply Z.ltb_ge; unfold zlen; lia). exact IH.
  Qed.
  Lemma back_spec {R} test (fails : Z * Z -> R) start c : nth_error json start = Some c -> space c = false ->
    (forall m, (start < m)%nat -> test (Z.of_nat start, Z.of_nat m) = false) ->
    forall m fu, (start <= m < length json)%nat -> (m < fu)%nat ->
    for_ fu (fun s => do c <- zat json (snd s); Ok (space c)) (fun s => s) (
      if_ test (return_ fails) pass ;;
      set_ (fun s : Z * Z => (fst s, snd s - 1)) ;;
      continue_) (Z.of_nat start, Z.of_nat m) = Nrm (Z.of_nat start, Z.of_nat (pred (length (trim1 (rev (firstn (S m) json)))))).
  Proof.
    intros Hc Hs Ht. induction m as [|m IH]; intros fu Hm Hfu; (destruct fu as [|fu]; [lia|]); cbn [for_ snd]; rewrite zat_nth.
    - assert (start = 0)%nat by lia. subst start. rewrite Hc. cbn [bind]. rewrite Hs. rewrite (firstn_S json _ _ Hc). reflexivity.
    - destruct (nth_error json (S m)) as [d|] eqn:Ed; [|apply nth_error_None in Ed; lia]. rewrite (firstn_S json _ _ Ed). rewrite rev_app_distr. cbn [rev app bind].
      assert (Hne : exists x y, rev (firstn (S m) json) = x :: y).
      { destruct (rev (firstn (S m) json)) as [|x y] eqn:E; [|exists x, y; reflexivity]. apply (f_equal (@length N)) in E. rewrite rev_length, firstn_length, Nat.min_l in E by lia. discriminate E. }
      assert (Et : trim1 (d :: rev (firstn (S m) json)) = if space d then trim1 (rev (firstn (S m) json)) else d :: rev (firstn (S m) json)) by (destruct Hne as (x & y & ->); reflexivity).
      rewrite Et. destruct (space d) eqn:Es.
      + assert (start <> S m) by (intros ->; congruence). specialize (IH fu ltac:(lia) ltac:(lia)). hide fu. unfold then_, if_, set_, pass, continue_. rewrite Ht by lia. cbn [fst snd].
        replace (Z.of_nat (S m) - 1) with (Z.of_nat m) by lia. exact IH.
      + cbn [length pred]. rewrite rev_length, firstn_length, Nat.min_l by lia. reflexivity.
  Qed.
  Lemma last_spec_go : (0 < length json)%nat -> pred (length (trim1 (rev (firstn (S (length json - 1)) json)))) = last_nonspace json.
  Proof. intro H. unfold last_nonspace. rewrite rev_length, firstn_all2 by lia. reflexivity. Qed.

  Lemma core_end ks s e : core json false path = Ok (ks, s, e) -> (s <= e <= length json)%nat /\ (1 <= e)%nat.
  Proof.
    intro H. destruct (core_shape json path ks s e H) as (_ & (A & r & C & HJ & HA & He & Hv) & _).
    split; [rewrite HJ, !app_length; lia|].
    destruct Hv as [Hv|[((A' & ->) & _)|(Hv & _)]]; [|rewrite app_length in HA; cbn in HA; lia|]; (destruct r as [|x r]; [contradiction|cbn in He; lia]).
  Qed.
  Lemma skip_not_err : forall rest i e, skip_space rest i <> Err e.
  Proof. clear. induction rest as [|c r IH]; intros i e; cbn [skip_space]; [discriminate|]. destruct (space c); [apply IH|discriminate]. Qed.

  Lemma last_bound : (last_nonspace json <= length json)%nat.
  Proof.
    assert (K : forall x, (length (trim1 x) <= length x)%nat).
    { clear. induction x as [|c x IH]; [cbn; lia|]. cbn [trim1 length]. destruct x; [cbn; lia|]. destruct (space c); cbn [length] in *; lia. }
    pose proof (K (rev json)) as K'. rewrite rev_length in K'. unfold last_nonspace. rewrite ?rev_length. lia.
  Qed.
  Lemma located_spec {R} (fails : err -> R) s0 : L.located fuel json path fails s0 =
    match core json false path with Ok (_, s, e) => Nrm (Z.of_nat s, Z.of_nat e) | Err e => Ret (fails e) | Panic => Pan end.
  Proof.
    unfold L.located, call. rewrite core_go_as_core by assumption. destruct (core json false path) as [[[[ks|] st] en]|e|]; cbn [bind returns]; reflexivity.
  Qed.
  Lemma back_from {R} test (fails : Z * Z -> R) n : skip_space json 0 = Ok n -> (forall m, (n < m)%nat -> test (Z.of_nat n, Z.of_nat m) = false) ->
    L.back fuel json test fails (Z.of_nat n, zlen json - 1) = Nrm (Z.of_nat n, Z.of_nat (last_nonspace json)).
  Proof.
    intros E Ht. destruct (skip_found _ _ _ E) as (_ & c & Hc & Hs). rewrite Nat.sub_0_r in Hc.
    assert (Hn : (n < length json)%nat) by (apply nth_error_Some; rewrite Hc; discriminate).
    replace (zlen json - 1) with (Z.of_nat (length json - 1)) by (unfold zlen; lia).
    unfold L.back. rewrite (back_spec test fails n c Hc Hs Ht) by lia. rewrite last_spec_go by lia. reflexivity.
  Qed.
  Lemma forth_from {R} (fails : Z * Z -> R) e : L.forth fuel json fails (0, e) = match skip_space json 0 with Ok n => Nrm (Z.of_nat n, e) | _ => Pan end.
  Proof. exact (forth_spec fails e json 0 fuel eq_refl Hjson). Qed.
  Definition told2 (r : res (nat * nat)) : flow unit (Z * Z * option err) := match r with Ok (s, e) => Ret (Z.of_nat s, Z.of_nat e, None) | Err e => Ret (-1, -1, Some e) | Panic => Pan end.
  Theorem getStartEnd_go_spec : L.getStartEnd_go fuel json path = told2 (getStartEnd json path).
  Proof.
    unfold L.getStartEnd_go, getStartEnd, func. unfold then_ at 1, if_ at 1. change 2 with (Z.of_nat 2) at 1. unfold zlen at 1. rewrite zltb. destruct (Nat.ltb_spec (length json) 2) as [Hl|Hl]; [reflexivity|].
    unfold pass at 1. unfold then_ at 1. unfold if_ at 1. change 0 with (Z.of_nat 0) at 1. unfold zlen at 1. rewrite zeqb, nil_match. destruct (length path =? 0)%nat; cbn [negb].
    - unfold then_ at 1. rewrite forth_from. destruct (skip_space json 0) as [n|e|] eqn:E; [|exfalso; eapply skip_not_err; exact E|reflexivity].
      unfold then_ at 1, set_ at 1. cbn [fst]. rewrite back_from; [reflexivity|exact E|]. intros; cbn [fst snd]. apply Z.ltb_ge. lia.
    - rewrite located_spec. destruct (core json false path) as [[[ks st] en]|e|]; reflexivity.
  Qed.

  Lemma blank_loop {S R} (v : R) (bound : S -> Z) (s : S) e : bound s = Z.of_nat e - 1 -> (e <= length json)%nat -> forall n i fu, (n = pred e - i)%nat -> (n < fu)%nat ->
    leave (for_ fu (fun t => Ok (snd t <? bound (fst t))) (fun t => (fst t, snd t + 1)) (
      read (fun t => zat json (snd t)) (fun c => if_ (fun _ => negb (space c)) (return_ (fun _ => v)) pass)) (s, Z.of_nat i)) =
    if forallb space (firstn n (skipn i json)) then Nrm s else Ret v.
  Proof.
    intros Hb He. induction n as [|n IH]; intros i fu Hn Hfu; (destruct fu as [|fu]; [lia|]); cbn [for_ fst snd]; rewrite Hb.
    - replace (Z.of_nat i <? Z.of_nat e - 1) with false by (symmetry; apply Z.ltb_ge; lia). reflexivity.
    - replace (Z.of_nat i <? Z.of_nat e - 1) with true by (symmetry; apply Z.ltb_lt; lia).
      specialize (IH (Datatypes.S i) fu ltac:(lia) ltac:(lia)). hide fu. destruct (nth_error json i) as [c|] eqn:Ec; [|apply nth_error_None in Ec; lia].
      unfold read. cbn [snd]. rewrite zat_nth, Ec. destruct (split_nth _ _ _ Ec) as (a & r & HJ & Ha).
      assert (H1 : skipn i json = c :: r) by (rewrite HJ, skipn_app, <- Ha, skipn_all, Nat.sub_diag; reflexivity).
      assert (H2 : skipn (Datatypes.S i) json = r) by (replace json with ((a ++ [c]) ++ r) by (rewrite HJ, <- app_assoc; reflexivity); rewrite skipn_app, skipn_all2 by (rewrite app_length; cbn; lia); rewrite app_length; cbn [length]; replace (Datatypes.S i - (length a + 1))%nat with 0%nat by lia; reflexivity).
      rewrite H1. rewrite H2 in IH. cbn [firstn forallb]. unfold if_, return_, pass. destruct (space c); cbn [negb andb leave]; [|reflexivity]. cbn [fst snd]. rewrite zsucc. exact IH.
  Qed.

  Theorem IsEmpty_go_spec : L.IsEmpty_go fuel json path = told false (IsEmpty json path).
  Proof.
    unfold L.IsEmpty_go, IsEmpty, func. unfold then_ at 1, if_ at 1. change 0 with (Z.of_nat 0) at 1. unfold zlen at 1. rewrite zeqb.
    rewrite (nil_match json). destruct (Nat.eqb_spec (length json) 0) as [Hl|Hl]; [reflexivity|].
    unfold pass at 1. unfold then_ at 1. unfold if_ at 1. change 0 with (Z.of_nat 0) at 1. unfold zlen at 1. rewrite zeqb, nil_match.
    set (rest := then_ (read _ _) (return_ _)).
    assert (K : forall s e, (e <= length json)%nat -> returns (rest (Z.of_nat s, Z.of_nat e)) = told false (
      do c <- at_ json s; do d <- at_ json e; if is_open c then if (c + 2 =? d)%N then Ok (forallb space (firstn (pred e - S s) (skipn (S s) json))) else Err (EBadJSON e) else Err EObjectExpected)).
    { intros s e He. unfold rest. unfold then_ at 1, read at 1 2. cbn [fst snd]. rewrite !at_zat. unfold at_. destruct (nth_error json s) as [c|]; cbn [bind]; [|reflexivity].
      destruct (nth_error json e) as [d|] eqn:Ed; cbn [bind]; [|reflexivity]. unfold is_open. unfold if_ at 1. destruct ((c =? 91) || (c =? 123))%N; [|reflexivity].
      unfold then_ at 1. unfold if_ at 1. destruct (c + 2 =? d)%N; cbn [negb]; [|unfold return_, G.bad; cbn [snd returns told]; rewrite Nat2Z.id; reflexivity]. unfold pass at 1, var. cbn [fst]. rewrite zsucc.
      rewrite (blank_loop (false, None) (fun s => snd s - 1) (Z.of_nat s, Z.of_nat e) e eq_refl He (pred e - S s)) by lia.
      destruct (forallb space _); reflexivity. }
    destruct (length path =? 0)%nat.
    - unfold then_ at 1. rewrite forth_from. destruct (skip_space json 0) as [n|e|] eqn:E; cbn [bind]; [|exfalso; eapply skip_not_err; exact E|reflexivity].
      rewrite back_from; [|exact E|intros; cbn [fst snd]; apply Z.ltb_ge; lia]. apply K. exact last_bound.
    - unfold then_ at 1. rewrite located_spec. destruct (core json false path) as [[[ks st] en]|e|] eqn:E; cbn [bind]; try reflexivity.
      apply core_end in E. unfold set_ at 1. cbn [fst snd]. replace (Z.of_nat en - 1) with (Z.of_nat (pred en)) by lia. apply K. lia.
  Qed.

  (** ** Length *)
  Lemma start_end_bound s e : getStartEnd json path = Ok (s, e) -> (e <= length json)%nat.
  Proof.
    unfold getStartEnd. destruct (length json <? 2)%nat; [discriminate|]. rewrite nil_match. destruct (length path =? 0)%nat; intro H.
    - destruct (skip_space json 0); cbn [bind] in H; try discriminate H. injection H as <- <-. exact last_bound.
    - destruct (core json false path) as [[[ks s'] e']| |] eqn:E; cbn [bind] in H; try discriminate H. injection H as <- <-. apply core_end in E. lia.
  Qed.
  Lemma len_look {R} st en n level inq i : (i <= length json)%nat ->
    G.look_back fuel json snd G.rem_odd (set_ (fun t => (L.n_to_inQuote (negb (L.n_inQuote (fst (fst t)))) (fst (fst t)), snd (fst t), snd t)) ;; break_) break_ (L.Len st en n level inq, Z.of_nat i) =
    Nrm (L.Len st en n level (toggle json i inq), Z.of_nat i) :> flow _ R.
  Proof.
    intro Hi. unfold toggle. etransitivity; [|exact (toggled (qscan json i) inq (fun q => (L.Len st en n level q, Z.of_nat i)))].
    apply (look_back_loop fuel json [] Hjson ltac:(cbn; lia)); try reflexivity; [exact Hi|intros; apply rem_odd_spec; assumption|].
    intro. left. split; reflexivity.
  Qed.
  Lemma length_go {R} st en : (en <= length json)%nat -> forall m i fu n level inq, (m = en - i)%nat -> (m < fu)%nat ->
    exists lv q, leave (for_ fu (fun s => Ok (snd s <? L.n_end (fst s))) (fun s => (fst s, snd s + 1)) (L.length_body fuel json) (L.Len st (Z.of_nat en) (Z.of_nat n) level inq, Z.of_nat i)) =
    Nrm (L.Len st (Z.of_nat en) (Z.of_nat (n + length_loop json (firstn m (skipn i json)) i level inq)) lv q) :> flow _ R.
  Proof.
    intros He. induction m as [|m IH]; intros i fu n level inq Hm Hfu; (destruct fu as [|fu]; [lia|]); cbn [for_ fst snd L.n_end]; rewrite zltb.
    - destruct (Nat.ltb_spec i en); [lia|]. cbn [firstn length_loop leave fst]. rewrite Nat.add_0_r. eexists _, _. reflexivity.
    - destruct (Nat.ltb_spec i en); [|lia]. destruct (skipn i json) as [|c r] eqn:Hi; [apply (f_equal (@length N)) in Hi; rewrite skipn_length in Hi; cbn in Hi; lia|].
      destruct (here fuel json [] Hbytes Hjson ltac:(cbn; lia) i c r Hi) as (Hz & _ & Hs & Hl & Hc).
      assert (IH' := fun n level inq => IH (S i) fu n level inq ltac:(lia) ltac:(lia)). rewrite Hs in IH'. clear IH.
      hide fu. unfold L.length_body. unfold read at 1. cbn [snd]. rewrite Hz. unfold read at 1. rewrite (F6_get c Hc). unfold then_ at 1, if_ at 1. unfold among. cbn [existsb firstn length_loop]. unfold is_open, is_close.
      unfold then_ at 1, if_ at 1.
      classes c H34 H44 H58 H91 H123 H93 H125; cbn [N.eqb Pos.eqb orb andb negb] in *; unfold pass at 1.
      + unfold then_ at 1. rewrite len_look by lia. unfold continue_. cbn [fst snd]. rewrite zsucc. apply IH'.
      + unfold then_, if_, continue_, pass, set_. cbn [fst snd L.n_inQuote]. destruct inq; cbn [fst snd]; [rewrite zsucc; apply IH'|]. cbn [L.n_level]. destruct (level =? 1); cbn [fst snd]; rewrite zsucc; [|apply IH'].
        unfold L.n_to_length. cbn [L.n_start L.n_end L.n_length L.n_level L.n_inQuote]. rewrite zsucc. rewrite Nat.add_succ_r. apply (IH' (S n)).
      + unfold continue_. cbn [fst snd]. rewrite zsucc. destruct inq; apply IH'.
      + unfold then_, if_, continue_, pass, set_. cbn [fst snd L.n_inQuote]. destruct inq; cbn [fst snd]; rewrite zsucc; apply IH'.
      + unfold then_, if_, continue_, pass, set_. cbn [fst snd L.n_inQuote]. destruct inq; cbn [fst snd]; rewrite zsucc; apply IH'.
      + unfold then_, if_, continue_, pass, set_. cbn [fst snd L.n_inQuote]. destruct inq; cbn [fst snd]; rewrite zsucc; apply IH'.
      + unfold then_, if_, continue_, pass, set_. cbn [fst snd L.n_inQuote]. destruct inq; cbn [fst snd]; rewrite zsucc; apply IH'.
      + unfold continue_. cbn [fst snd]. rewrite zsucc. destruct inq; apply IH'.
  Qed.
  Theorem Length_go_spec : L.Length_go fuel json path = match Length json path with Ok n => Ret (Z.of_nat n, None) | Err e => Ret (-1, Some e) | Panic => Pan end.
  Proof.
    unfold L.Length_go, Length, func. unfold then_ at 1, if_ at 1. destruct (bytes_eqb json _ || bytes_eqb json _)%bool; [reflexivity|].
    unfold pass at 1. unfold then_ at 1, call. rewrite getStartEnd_go_spec. destruct (getStartEnd json path) as [[s e]|e|] eqn:E; cbn [told2 bind]; try reflexivity.
    apply start_end_bound in E. unfold then_ at 1, set_ at 1. unfold pass at 1. unfold then_ at 1. unfold var at 1. cbn [L.n_start].
    destruct (length_go (R := Z * option err) (Z.of_nat s) e E (e - s) s fuel 0 0 false eq_refl ltac:(lia)) as (lv & q & K). change (Z.of_nat 0) with 0 in K. rewrite K. clear K.
    rewrite Nat.add_0_l. set (n := length_loop _ _ _ _ _). unfold then_ at 1. unfold if_ at 1. cbn [L.n_length]. change 0 with (Z.of_nat 0) at 1. rewrite zeqb.
    destruct n as [|n]; cbn [Nat.eqb].
    - unfold then_ at 1. unfold var. cbn [L.n_start]. rewrite zsucc.
      rewrite (blank_loop (1, None) (fun s => L.n_end s - 1) (L.Len (Z.of_nat s) (Z.of_nat e) (Z.of_nat 0) lv q) e eq_refl E (pred e - S s)) by lia.
      destruct (forallb space _); reflexivity.
    - unfold pass, return_. cbn [L.n_length returns]. rewrite zsucc. reflexivity.
  Qed.
End List.
