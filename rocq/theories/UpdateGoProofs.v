(** The updates statement by statement (UpdateGo.v) compute what the models in Api.v compute. *)
From Coq Require Import String.
From Verif Require Import GoStd Errors GoLang Core Api Splice.
From Verif Require CoreGo IterGo UpdateGo.
From Verif Require Import CoreGoProofs IterGoProofs ListGoProofs FormatGoProofs.

Local Open Scope Z_scope.
Module U := UpdateGo.

(** What a call returns, of what the model answers *)
Definition outcome (r : upd) : flow unit U.out :=
  match r with Done o => Ret (o, None) | Fail o e => Ret (match o with Some j => j | None => [] end, Some e) | UPanic => Pan end.

Section Update.
  Variables (fuel : nat) (json : bytes).
  Hypothesis Hbytes : Forall (fun c => (c < 256)%N) json.
  Hypothesis Hjson : (length json < fuel)%nat.

  Theorem replace_go_spec new s e : U.replace_go json new (Z.of_nat s) (Z.of_nat e) = match replace json new s e with Ok o => Ret o | _ => Pan end.
  Proof.
    clear. unfold U.replace_go, replace, func. change 0 with (Z.of_nat 0). unfold zlen. rewrite !zslice_slice. unfold slice. rewrite Nat.leb_refl, andb_true_r. cbn [Nat.leb andb].
    unfold then_, read, set_, return_. destruct (Nat.leb_spec s (length json)) as [Hs|Hs]; destruct (Nat.leb_spec e (length json)) as [He|He]; cbn [andb];
      (destruct (Z.ltb_spec (Z.of_nat (length json) - Z.of_nat e + Z.of_nat s + Z.of_nat (length new)) (Z.of_nat 0)) as [H|H]; [try reflexivity; lia|]); try reflexivity.
    cbn [returns app skipn]. rewrite Nat.sub_0_r, <- app_assoc. replace (length json - e)%nat with (length (skipn e json)) by apply skipn_length. rewrite firstn_all. reflexivity.
  Qed.
  Lemma replaced_spec {S} new (st en : S -> Z) s x y : st s = Z.of_nat x -> en s = Z.of_nat y ->
    U.replaced json new st en s = match replace json new x y with Ok o => Ret (o, None) | _ => Pan end.
  Proof. intros Hx Hy. unfold U.replaced, call. rewrite Hx, Hy, replace_go_spec. destruct (replace json new x y); reflexivity. Qed.
  Lemma replaced_then {S} new (st en : S -> Z) s x y (d : cmd S U.out) : st s = Z.of_nat x -> en s = Z.of_nat y ->
    returns ((U.replaced json new st en ;; d) s) = outcome (done_replace json new x y).
  Proof. intros Hx Hy. unfold then_. rewrite (replaced_spec new st en s x y Hx Hy). unfold done_replace, pbind. destruct (replace json new x y); reflexivity. Qed.
  Lemma replaced_end {S} new (st en : S -> Z) s x y : st s = Z.of_nat x -> en s = Z.of_nat y -> returns (U.replaced json new st en s) = outcome (done_replace json new x y).
  Proof. intros Hx Hy. rewrite (replaced_spec new st en s x y Hx Hy). unfold done_replace, pbind. destruct (replace json new x y); reflexivity. Qed.

  Lemma zat_pred s : zat json (Z.of_nat s - 1) = at_pred json s.
  Proof.
    destruct s as [|s]; [reflexivity|]. replace (Z.of_nat (S s) - 1) with (Z.of_nat s) by lia. rewrite zat_nth. reflexivity.
  Qed.
  Lemma zat_at i : zat json (Z.of_nat i) = at_ json i.
  Proof. rewrite zat_nth. reflexivity. Qed.
  Lemma at_res i : (exists c, at_ json i = Ok c) \/ at_ json i = Panic.
  Proof. unfold at_. destruct (nth_error json i); [left; eexists; reflexivity|right; reflexivity]. Qed.
  Lemma at_pred_res i : (exists c, at_pred json i = Ok c) \/ at_pred json i = Panic.
  Proof. destruct i; [right; reflexivity|apply at_res]. Qed.

  Section Path.
    Variable path : list bytes.
    Hypothesis Hpath : (length path < fuel)%nat.
    Lemma located_go s0 : U.located fuel json path s0 =
      match core json false path with Ok (_, s, e) => Nrm (U.Ed (Z.of_nat s) (Z.of_nat e) (U.d_startEdge s0) (U.d_endEdge s0)) | Err e => Ret (json, Some e) | Panic => Pan end.
    Proof.
      unfold U.located, call. rewrite core_go_as_core by assumption. destruct (core json false path) as [[[[ks|] st] en]|e|]; cbn [bind returns]; reflexivity.
    Qed.
  End Path.

  Lemma set_value_spec new s e x y : returns (U.set_value json new (U.Ed (Z.of_nat s) (Z.of_nat e) x y)) = outcome (set_span json new s e).
  Proof.
    unfold U.set_value, set_span. unfold then_ at 1, read at 1. unfold I.and_also, I.is_quote. cbn [U.d_start U.d_end]. rewrite zat_pred, zat_at. destruct s as [|s]; [reflexivity|].
    destruct (at_pred_res (S s)) as [[c ->]| ->]; cbn [bind pbind]; [|reflexivity]. destruct (c =? 34)%N eqn:Ec; [|unfold if_, pass; apply replaced_end; reflexivity].
    destruct (at_res e) as [[d ->]| ->]; cbn [bind pbind]; [|reflexivity]. destruct (d =? 34)%N; unfold if_, pass; [|apply replaced_end; reflexivity].
    apply (replaced_then new (fun s => U.d_start s - 1) (fun s => U.d_end s + 1) (U.Ed (Z.of_nat (S s)) (Z.of_nat e) x y) s (S e)); cbn [U.d_start U.d_end]; lia.
  Qed.
  Theorem Set_go_spec new path : (length path < fuel)%nat -> U.Set_go fuel json new path = outcome (Set_ json new path).
  Proof.
    intro Hp. unfold U.Set_go, Set_, func. unfold then_ at 1, if_ at 1. change 0 with (Z.of_nat 0) at 1. unfold zlen at 1. rewrite zeqb, nil_match. destruct (length path =? 0)%nat; [reflexivity|].
    unfold pass at 1. unfold then_ at 1. rewrite located_go by exact Hp. destruct (core json false path) as [[[ks s] e]|e|]; cbn [ubind]; try reflexivity. apply set_value_spec.
  Qed.

  (** ** Delete *)
  Lemma back_loop {R} s e y : forall i fu, (i < fu)%nat ->
    leave (for_ fu (fun s => Ok (snd s >? 0)) (fun s => (fst s, snd s - 1)) (
        read (fun s => zat json (snd s)) (fun c =>
        if_ (fun _ => negb (space c)) (set_ (fun s => (U.d_to_startEdge (snd s) (fst s), snd s)) ;; break_) pass)) (U.Ed s e 0 y, Z.of_nat i)) =
    match back_edge json i with Ok n => Nrm (U.Ed s e (Z.of_nat n) y) | _ => Pan end :> flow _ R.
  Proof.
    induction i as [|i IH]; intros fu Hfu; (destruct fu as [|fu]; [lia|]); cbn [for_ snd]; [reflexivity|].
    replace (Z.of_nat (S i) >? 0) with true by (symmetry; apply Z.gtb_lt; lia). specialize (IH fu ltac:(lia)). hide fu. cbn [back_edge]. unfold read. cbn [snd]. rewrite zat_at.
    destruct (at_res (S i)) as [[c ->]| ->]; cbn [bind]; [|reflexivity]. unfold if_, then_, set_, break_, pass. destruct (space c); cbn [negb fst snd].
    - replace (Z.of_nat (S i) - 1) with (Z.of_nat i) by lia. exact IH.
    - reflexivity.
  Qed.
  Lemma fwd_loop {R} s e x : forall rest i fu, skipn i json = rest -> (length rest < fu)%nat ->
    leave (for_ fu (fun s => Ok (snd s <? zlen json)) (fun s => (fst s, snd s + 1)) (
        read (fun s => zat json (snd s)) (fun c =>
        if_ (fun _ => negb (space c)) (set_ (fun s => (U.d_to_endEdge (snd s) (fst s), snd s)) ;; break_) pass)) (U.Ed s e x 0, Z.of_nat i)) =
    Nrm (U.Ed s e x (Z.of_nat (fwd_edge rest i))) :> flow _ R.
  Proof.
    induction rest as [|c r IH]; intros i fu Hi Hfu; (destruct fu as [|fu]; [lia|]); cbn [for_ snd]; unfold zlen at 1; rewrite zltb.
    - apply byte_end in Hi. destruct (Nat.ltb_spec i (length json)); [lia|]. reflexivity.
    - destruct (byte_at _ _ _ _ Hi) as (Hz & Hs & Hlt). rewrite (proj2 (Nat.ltb_lt _ _) Hlt). cbn [length] in Hfu. specialize (IH (S i) fu Hs ltac:(lia)). hide fu.
      unfold read. cbn [snd fwd_edge]. rewrite zat_nth, Hz. unfold if_, then_, set_, break_, pass. destruct (space c); cbn [negb fst snd]; [rewrite zsucc; exact IH|reflexivity].
  Qed.
  (** the model's next steps *)
  Definition wide (s e : nat) (k : nat -> nat -> nat -> nat -> upd) : upd :=
    pbind (at_pred json s) (fun c => let s := if (c =? 34)%N then pred s else s in
    pbind (at_ json e) (fun d => let e := if (d =? 34)%N then S e else e in
    pbind (back_edge json (pred s)) (fun sedge => let eedge := fwd_edge (skipn e json) e in k s e sedge eedge))).
  Lemma back_res i : (exists c, back_edge json i = Ok c) \/ back_edge json i = Panic.
  Proof.
    induction i as [|i IH]; cbn [back_edge]; [left; eexists; reflexivity|]. destruct (at_res (S i)) as [[c ->]| ->]; cbn [bind]; [|right; reflexivity].
    destruct (space c); [exact IH|left; eexists; reflexivity].
  Qed.
  Lemma widened_spec s e (d : cmd U.ed U.out) k :
    (forall s e se ee, returns (d (U.Ed (Z.of_nat s) (Z.of_nat e) (Z.of_nat se) (Z.of_nat ee))) = outcome (k s e se ee)) ->
    returns ((U.widened fuel json ;; d) (U.Ed (Z.of_nat s) (Z.of_nat e) 0 0)) = outcome (wide s e k).
  Proof.
    intro Hd. unfold U.widened, wide. unfold then_ at 1. unfold then_ at 1, read at 1. unfold I.is_quote at 1. cbn [U.d_start]. rewrite zat_pred. destruct s as [|s]; [reflexivity|].
    cbn [at_pred]. destruct (at_res s) as [[c Hc]| ->]; cbn [bind pbind]; [|reflexivity]. rewrite Hc. cbn [bind pbind].
    assert (Hs : (s < length json)%nat) by (unfold at_ in Hc; destruct (nth_error json s) eqn:En; [apply nth_error_Some; congruence|discriminate]).
    set (s' := if (c =? 34)%N then pred (S s) else S s). cbv zeta.
    assert (E1 : (if_ (fun _ : U.ed => (c =? 34)%N) (set_ (fun s => U.d_to_start (U.d_start s - 1) s)) pass (U.Ed (Z.of_nat (S s)) (Z.of_nat e) 0 0)) = Nrm (U.Ed (Z.of_nat s') (Z.of_nat e) 0 0) :> flow _ U.out).
    { unfold if_, set_, pass, s', U.d_to_start. destruct (c =? 34)%N; [|reflexivity]. cbn [U.d_start U.d_end U.d_startEdge U.d_endEdge pred]. repeat f_equal. lia. }
    rewrite E1. clear E1. assert (Hs' : (pred s' < fuel)%nat) by (unfold s'; destruct (c =? 34)%N; cbn [pred]; lia). clearbody s'.
    unfold then_ at 1, read at 1. unfold I.is_quote at 1. cbn [U.d_end]. rewrite zat_at. destruct (at_res e) as [[x ->]| ->]; cbn [bind pbind]; [|reflexivity].
    set (e' := if (x =? 34)%N then S e else e).
    assert (E1 : (if_ (fun _ : U.ed => (x =? 34)%N) (set_ (fun s => U.d_to_end (U.d_end s + 1) s)) pass (U.Ed (Z.of_nat s') (Z.of_nat e) 0 0)) = Nrm (U.Ed (Z.of_nat s') (Z.of_nat e') 0 0) :> flow _ U.out).
    { unfold if_, set_, pass, e', U.d_to_end. destruct (x =? 34)%N; [|reflexivity]. cbn [U.d_start U.d_end U.d_startEdge U.d_endEdge]. repeat f_equal. lia. }
    rewrite E1. clear E1. clearbody e'.
    unfold then_ at 1. unfold var at 1. cbn [U.d_start].
    assert (E1 : leave (for_ fuel (fun s => Ok (snd s >? 0)) (fun s => (fst s, snd s - 1)) (
        read (fun s => zat json (snd s)) (fun c =>
        if_ (fun _ => negb (space c)) (set_ (fun s => (U.d_to_startEdge (snd s) (fst s), snd s)) ;; break_) pass)) (U.Ed (Z.of_nat s') (Z.of_nat e') 0 0, Z.of_nat s' - 1)) =
      match back_edge json (pred s') with Ok n => Nrm (U.Ed (Z.of_nat s') (Z.of_nat e') (Z.of_nat n) 0) | _ => Pan end :> flow _ U.out).
    { destruct s' as [|s']; [destruct fuel; [lia|reflexivity]|]. replace (Z.of_nat (S s') - 1) with (Z.of_nat s') by lia. cbn [pred]. apply back_loop. exact Hs'. }
    rewrite E1. clear E1. destruct (back_res (pred s')) as [[n ->]| ->]; cbn [pbind]; [|reflexivity].
    unfold var. cbn [U.d_end]. rewrite (fwd_loop _ _ _ (skipn e' json) e' fuel eq_refl) by (rewrite skipn_length; lia). apply Hd.
  Qed.
  Lemma alone_spec s e se ee : U.alone json (U.Ed s e (Z.of_nat se) (Z.of_nat ee)) = do sc <- at_ json se; if is_open sc then do ec <- at_ json ee; Ok ((sc + 2 =? ec)%N) else Ok false.
  Proof.
    unfold U.alone, I.and_also, is_open. cbn [U.d_startEdge U.d_endEdge]. rewrite !zat_at. destruct (at_res se) as [[c ->]| ->]; cbn [bind]; [|reflexivity].
    destruct (N.eqb_spec c 91) as [->|H91]; cbn [bind orb]; [reflexivity|]. destruct (N.eqb_spec c 123) as [->|H123]; reflexivity.
  Qed.
  Lemma choose s e se ee new1 new2 new3 (st1 en1 st2 en2 st3 en3 : U.ed -> Z) a1 z1 a2 z2 (k3 : upd) :
    let t := U.Ed (Z.of_nat s) (Z.of_nat e) (Z.of_nat se) (Z.of_nat ee) in
    st1 t = Z.of_nat a1 -> en1 t = Z.of_nat z1 -> st2 t = Z.of_nat a2 -> en2 t = Z.of_nat z2 -> returns (U.replaced json new3 st3 en3 t) = outcome k3 ->
    returns ((read (U.alone json) (fun x => if_ (fun _ => x) (U.replaced json new1 st1 en1) pass) ;;
        read (fun s => zat json (U.d_endEdge s)) (fun c => if_ (fun _ => (c =? 44)%N) (U.replaced json new2 st2 en2) pass) ;;
        read (fun s => zat json (U.d_startEdge s)) (fun c => if_ (fun _ => (c =? 44)%N) (U.replaced json new3 st3 en3) pass) ;;
        U.wrong json (fun s => G.bad (U.d_start s))) t) =
    outcome (pbind (at_ json se) (fun sc => pbind (at_ json ee) (fun ec =>
      if is_open sc && (sc + 2 =? ec)%N then done_replace json new1 a1 z1
      else if (ec =? 44)%N then done_replace json new2 a2 z2
      else if (sc =? 44)%N then k3
      else Fail (Some json) (EBadJSON s)))).
  Proof.
    intros t H1 H2 H3 H4 H5. unfold then_ at 1, read at 1. unfold t at 1. rewrite alone_spec. destruct (at_res se) as [[sc Hsc]| ->]; cbn [bind pbind]; [|reflexivity]. rewrite Hsc. cbn [bind pbind].
    destruct (at_res ee) as [[ec Hec]|Hec]; rewrite Hec; cbn [bind pbind].
    2: { destruct (is_open sc); [reflexivity|]. unfold if_ at 1, pass at 1. unfold then_ at 1, read at 1. unfold t. cbn [U.d_endEdge]. rewrite zat_at, Hec. reflexivity. }
    set (x := (is_open sc && (sc + 2 =? ec)%N)%bool). replace (if is_open sc then Ok (sc + 2 =? ec)%N else Ok false) with (Ok x) by (unfold x; destruct (is_open sc); reflexivity).
    unfold if_ at 1. destruct x; [apply (replaced_then new1 st1 en1 t a1 z1 _ H1 H2)|].
    unfold pass at 1. unfold then_ at 1, read at 1. replace (U.d_endEdge t) with (Z.of_nat ee) by reflexivity. rewrite zat_at, Hec. unfold if_ at 1. destruct (ec =? 44)%N; [apply (replaced_then new2 st2 en2 t a2 z2 _ H3 H4)|].
    unfold pass at 1. unfold then_ at 1, read at 1. replace (U.d_startEdge t) with (Z.of_nat se) by reflexivity. rewrite zat_at, Hsc. unfold if_ at 1. destruct (sc =? 44)%N.
    - rewrite <- H5. unfold U.replaced, call. destruct (U.replace_go _ _ _ _); reflexivity.
    - unfold pass, U.wrong, return_, G.bad. cbn [returns outcome]. unfold t. cbn [U.d_start]. rewrite Nat2Z.id. reflexivity.
  Qed.

  Theorem Delete_go_spec path : (length path < fuel)%nat -> U.Delete_go fuel json path = outcome (Delete json path).
  Proof.
    intro Hp. unfold U.Delete_go, Delete, func. unfold then_ at 1, if_ at 1. change 0 with (Z.of_nat 0) at 1. unfold zlen at 1. rewrite zeqb, nil_match. destruct (length path =? 0)%nat; [reflexivity|].
    unfold pass at 1. unfold then_ at 1. unfold call at 1. rewrite core_go_as_core by assumption. destruct (core json false path) as [[[ks s] e]|e|]; cbn [bind returns ubind]; try reflexivity.
    assert (K : forall st, returns ((U.widened fuel json ;;
        read (U.alone json) (fun x => if_ (fun _ => x) (U.replaced json [] U.d_start U.d_end) pass) ;;
        read (fun s => zat json (U.d_endEdge s)) (fun c => if_ (fun _ => (c =? 44)%N) (U.replaced json [] U.d_start (fun s => U.d_endEdge s + 1)) pass) ;;
        read (fun s => zat json (U.d_startEdge s)) (fun c => if_ (fun _ => (c =? 44)%N) (U.replaced json [] U.d_startEdge U.d_end) pass) ;;
        U.wrong json (fun s => G.bad (U.d_start s))) (U.Ed (Z.of_nat st) (Z.of_nat e) 0 0)) =
      outcome (wide st e (fun s e se ee => pbind (at_ json se) (fun sc => pbind (at_ json ee) (fun ec =>
      if is_open sc && (sc + 2 =? ec)%N then done_replace json [] s e
      else if (ec =? 44)%N then done_replace json [] s (S ee)
      else if (sc =? 44)%N then done_replace json [] se e
      else Fail (Some json) (EBadJSON s)))))).
    { intro st. apply widened_spec. intros s' e' se ee. apply choose; try reflexivity; [apply zsucc|apply replaced_end; reflexivity]. }
    destruct ks as [[|ks]|]; cbn [returns]; cbv beta iota.
    - reflexivity.
    - unfold then_ at 1, pass at 1, if_ at 1. replace (Z.of_nat (S ks) =? -1) with false by (symmetry; apply Z.eqb_neq; lia). unfold set_ at 1, U.d_to_start, U.d_to_end. cbn [U.d_startEdge U.d_endEdge U.d_start U.d_end U.none].
      replace (Z.of_nat (S ks) - 1) with (Z.of_nat ks) by lia. apply (K ks).
    - apply (K s).
  Qed.

  (** ** Where to add *)
  Lemma first_loop open_ exp y z w : forall rest i fu, skipn i json = rest -> (length rest < fu)%nat ->
    leave (for_ fu (fun s => Ok (snd s <? zlen json)) (fun s => (fst s, snd s + 1)) (
           read (fun s => zat json (snd s)) (fun c =>
           if_ (fun _ => negb (space c))
             (if_ (fun _ => (c =? open_)%N)
                (set_ (fun s => (U.d_to_start (snd s) (fst s), snd s)) ;;
                 if_ (fun s => snd s =? zlen json - 1) (U.wrong json (fun s => G.bad (snd s))) pass ;;
                 break_)
                (U.wrong json (fun _ => exp))) pass)) (U.Ed 0 y z w, Z.of_nat i)) =
    match root_first (length json) open_ exp rest i with Ok n => Nrm (U.Ed (Z.of_nat n) y z w) | Err e => Ret (json, Some e) | Panic => Pan end.
  Proof.
    induction rest as [|c r IH]; intros i fu Hi Hfu; (destruct fu as [|fu]; [lia|]); cbn [for_ snd]; unfold zlen at 1; rewrite zltb.
    - apply byte_end in Hi. destruct (Nat.ltb_spec i (length json)); [lia|]. reflexivity.
    - destruct (byte_at _ _ _ _ Hi) as (Hz & Hs & Hlt). rewrite (proj2 (Nat.ltb_lt _ _) Hlt). cbn [length] in Hfu. specialize (IH (S i) fu Hs ltac:(lia)). hide fu.
      unfold read. cbn [snd root_first]. rewrite zat_nth, Hz. unfold if_, then_, set_, break_, pass, U.wrong, return_. destruct (space c); cbn [negb fst snd]; [rewrite zsucc; exact IH|].
      destruct (c =? open_)%N; cbn [fst snd]; [|reflexivity].
      replace (Z.of_nat i =? zlen json - 1) with (S i =? length json)%nat by (destruct (Nat.eqb_spec (S i) (length json)); symmetry; [apply Z.eqb_eq|apply Z.eqb_neq]; unfold zlen; lia).
      destruct (S i =? length json)%nat; cbn [leave]; [unfold G.bad; rewrite Nat2Z.id; reflexivity|reflexivity].
  Qed.
  Lemma last_loop close_ exp x z w : forall n fu, (n < fu)%nat -> (n <= length json)%nat ->
    leave (for_ fu (fun s => Ok (snd s >? -1)) (fun s => (fst s, snd s - 1)) (
           read (fun s => zat json (snd s)) (fun c =>
           if_ (fun _ => negb (space c))
             (if_ (fun _ => (c =? close_)%N)
                (set_ (fun s => (U.d_to_end (snd s + 1) (fst s), snd s)) ;;
                 if_ (fun s => snd s =? 0) (U.wrong json (fun s => G.bad (snd s))) pass ;;
                 break_)
                (U.wrong json (fun _ => exp))) pass)) (U.Ed x 0 z w, Z.of_nat n - 1)) =
    match root_last close_ exp (rev (firstn n json)) n with Ok n => Nrm (U.Ed x (Z.of_nat n) z w) | Err e => Ret (json, Some e) | Panic => Pan end.
  Proof.
    induction n as [|n IH]; intros fu Hfu Hn; (destruct fu as [|fu]; [lia|]); cbn [for_ snd]; [reflexivity|].
    replace (Z.of_nat (S n) - 1) with (Z.of_nat n) by lia. replace (Z.of_nat n >? -1) with true by (symmetry; apply Z.gtb_lt; lia).
    specialize (IH fu ltac:(lia) ltac:(lia)). hide fu. destruct (nth_error json n) as [c|] eqn:Ec; [|apply nth_error_None in Ec; lia].
    rewrite (firstn_S json _ _ Ec), rev_app_distr. unfold read. cbn [snd rev app root_last]. rewrite zat_nth, Ec. unfold if_, then_, set_, break_, pass, U.wrong, return_. destruct (space c); cbn [negb fst snd]; [exact IH|].
    destruct (c =? close_)%N; cbn [fst snd]; [|reflexivity]. change 0 with (Z.of_nat 0) at 1. rewrite zeqb. destruct (n =? 0)%nat; cbn [leave fst]; [unfold G.bad; rewrite Nat2Z.id; reflexivity|].
    unfold U.d_to_end. cbn [U.d_start U.d_startEdge U.d_endEdge]. rewrite zsucc. reflexivity.
  Qed.
  Lemma target_go path open_ close_ exp : (length path < fuel)%nat -> U.target fuel json path open_ close_ exp U.none =
    match target_span json open_ close_ exp path with Ok (s, e) => Nrm (U.Ed (Z.of_nat s) (Z.of_nat e) 0 0) | Err e => Ret (json, Some e) | Panic => Pan end.
  Proof.
    intro Hp. unfold U.target, target_span, root_span. unfold if_ at 1. change 0 with (Z.of_nat 0) at 1. unfold zlen at 1. rewrite zeqb, nil_match. destruct (length path =? 0)%nat.
    - unfold then_ at 1. unfold var at 1. pose proof (first_loop open_ exp 0 0 0 json 0 fuel eq_refl Hjson) as K. change (Z.of_nat 0) with 0 in K. change U.none with (U.Ed 0 0 0 0). rewrite K. clear K.
      destruct (root_first _ _ _ _ _) as [s|e|]; cbn [bind]; try reflexivity. unfold var, zlen. pose proof (last_loop close_ exp (Z.of_nat s) 0 0 (length json) fuel Hjson (le_n _)) as K. rewrite firstn_all in K. etransitivity; [exact K|].
      destruct (root_last _ _ _ _); reflexivity.
    - rewrite located_go by exact Hp. destruct (core json false path) as [[[ks s] e]|e|]; reflexivity.
  Qed.
  Lemma root_last_bound close_ exp : forall r n e, root_last close_ exp r n = Ok e -> (e <= n)%nat.
  Proof.
    clear. induction r as [|c r IH]; intros n e H; cbn [root_last] in H; [injection H as <-; lia|]. destruct n as [|n]; [injection H as <-; lia|].
    destruct (space c); [apply IH in H; lia|]. destruct (c =? close_)%N; [|discriminate]. destruct (n =? 0)%nat; [discriminate|]. injection H as <-. lia.
  Qed.
  Lemma target_bound path open_ close_ exp s e : target_span json open_ close_ exp path = Ok (s, e) -> (e <= length json)%nat.
  Proof.
    unfold target_span, root_span. rewrite nil_match. destruct (length path =? 0)%nat; intro H.
    - destruct (root_first _ _ _ _ _); cbn [bind] in H; try discriminate H. destruct (root_last _ _ _ _) eqn:E; cbn [bind] in H; try discriminate H. injection H as <- <-. eapply root_last_bound. exact E.
    - destruct (core json false path) as [[[ks s'] e']| |] eqn:E; cbn [bind] in H; try discriminate H. injection H as <- <-.
      destruct (core_shape _ _ _ _ _ E) as (_ & (A & r & C & HJ & HA & He & _) & _). rewrite HJ, !app_length. lia.
  Qed.
  Lemma braces_spec open_ close_ s e x y : U.braces json open_ close_ (U.Ed (Z.of_nat s) (Z.of_nat e) x y) = braces_at json s e open_ close_.
  Proof.
    unfold U.braces, braces_at, I.and_also. cbn [U.d_start U.d_end]. rewrite zat_at, zat_pred. destruct (at_res s) as [[c ->]| ->]; cbn [bind]; [|reflexivity].
    destruct (c =? open_)%N; [|reflexivity]. destruct (at_pred_res e) as [[d ->]| ->]; reflexivity.
  Qed.
  Lemma braces_res open_ close_ s e : (exists v, braces_at json s e open_ close_ = Ok v) \/ braces_at json s e open_ close_ = Panic.
  Proof.
    unfold braces_at. destruct (at_res s) as [[c ->]| ->]; cbn [bind]; [|right; reflexivity]. destruct (c =? open_)%N; [|left; eexists; reflexivity].
    destruct (at_pred_res e) as [[d ->]| ->]; cbn [bind]; [left; eexists; reflexivity|right; reflexivity].
  Qed.
  Lemma empty_loop {R} s e x y : (e <= length json)%nat -> forall n i fu emp, (n = pred e - i)%nat -> (n < fu)%nat ->
    leave (for_ fu (fun s => Ok (snd s <? U.d_end (fst (fst s)) - 1)) (fun s => (fst s, snd s + 1)) (
          read (fun s => zat json (snd s)) (fun c =>
          if_ (fun _ => negb (space c)) (set_ (fun s => ((fst (fst s), false), snd s))) pass)) (U.Ed s (Z.of_nat e) x y, emp, Z.of_nat i)) =
    Nrm (U.Ed s (Z.of_nat e) x y, emp && forallb space (firstn n (skipn i json)))%bool :> flow _ R.
  Proof.
    intro He. induction n as [|n IH]; intros i fu emp Hn Hfu; (destruct fu as [|fu]; [lia|]); cbn [for_ fst snd U.d_end].
    - replace (Z.of_nat i <? Z.of_nat e - 1) with false by (symmetry; apply Z.ltb_ge; lia). cbn [leave fst firstn forallb]. rewrite andb_true_r. reflexivity.
    - replace (Z.of_nat i <? Z.of_nat e - 1) with true by (symmetry; apply Z.ltb_lt; lia). destruct (skipn i json) as [|c r] eqn:Hi; [apply byte_end in Hi; lia|].
      destruct (byte_at _ _ _ _ Hi) as (Hz & Hs & Hlt). assert (IH' := fun emp => IH (S i) fu emp ltac:(lia) ltac:(lia)). clear IH. rewrite Hs in IH'. hide fu.
      unfold read. cbn [snd]. rewrite zat_nth, Hz. cbn [firstn forallb]. unfold if_, set_, pass. destruct (space c); cbn [negb fst snd]; rewrite zsucc, IH'; [reflexivity|]. cbn [andb]. rewrite andb_false_r. reflexivity.
  Qed.
  Lemma if_empty_spec c s e x y : (e <= length json)%nat -> U.if_empty fuel json c (U.Ed (Z.of_nat s) (Z.of_nat e) x y) =
    if blank_between json s e then c (U.Ed (Z.of_nat s) (Z.of_nat e) x y) else Nrm (U.Ed (Z.of_nat s) (Z.of_nat e) x y).
  Proof.
    intro He. unfold U.if_empty, blank_between. unfold var at 1. unfold then_ at 1. unfold var. cbn [fst U.d_start]. rewrite zsucc. rewrite (empty_loop _ e x y He (pred e - S s)) by lia.
    cbn [andb]. unfold if_, U.inside, pass. cbn [fst snd]. destruct (forallb space _); [|reflexivity]. destruct (c _); reflexivity.
  Qed.
  Lemma replaced_chain {S} new (st en : S -> Z) s x y (d d' : cmd S U.out) : st s = Z.of_nat x -> en s = Z.of_nat y ->
    returns (((U.replaced json new st en ;; d) ;; d') s) = outcome (done_replace json new x y).
  Proof. intros Hx Hy. unfold then_. rewrite (replaced_spec new st en s x y Hx Hy). unfold done_replace, pbind. destruct (replace json new x y); reflexivity. Qed.
  Lemma braces_e s e open_ close_ v : braces_at json s e open_ close_ = Ok v -> v = true -> (1 <= e)%nat.
  Proof.
    unfold braces_at. destruct (at_res s) as [[c ->]| ->]; cbn [bind]; [|discriminate]. destruct (c =? open_)%N; [|intros H ->; discriminate H]. destruct e; [discriminate|lia].
  Qed.

  Theorem Add_go_spec value path : (length path < fuel)%nat -> U.Add_go fuel json value path = outcome (Add_ json value path).
  Proof.
    intro Hp. unfold U.Add_go, Add_, func. unfold then_ at 1, if_ at 1. change 2 with (Z.of_nat 2) at 1. unfold zlen at 1. rewrite zltb. destruct (length json <? 2)%nat; [reflexivity|].
    unfold pass at 1. unfold then_ at 1. rewrite target_go by exact Hp. destruct (target_span json 91 93 EArrayExpected path) as [[s e]|e|] eqn:Et; cbn [ubind]; try reflexivity.
    apply target_bound in Et. unfold then_ at 1, read at 1. rewrite braces_spec. destruct (braces_res 91 93 s e) as [[v Hv]| ->]; [|reflexivity]. rewrite Hv. cbn [pbind].
    unfold if_ at 1. destruct v; [|reflexivity]. pose proof (braces_e _ _ _ _ _ Hv eq_refl) as He. unfold then_ at 1. rewrite if_empty_spec by exact Et.
    destruct (blank_between json s e).
    - apply (replaced_chain value (fun s => U.d_end s - 1) (fun s => U.d_end s - 1) _ (pred e) (pred e) (U.replaced json (firstn 1 (zput (repeat 0%N (length value + 1)) 0 44%N) ++ U.copy (skipn 1 (zput (repeat 0%N (length value + 1)) 0 44%N)) value) (fun s => U.d_end s - 1) (fun s => U.d_end s - 1))); cbn [U.d_end]; lia.
    - cbv zeta. replace (firstn 1 (zput (repeat 0%N (length value + 1)) 0 44%N) ++ U.copy (skipn 1 (zput (repeat 0%N (length value + 1)) 0 44%N)) value) with (44%N :: value).
      + apply (replaced_then (44%N :: value) (fun s => U.d_end s - 1) (fun s => U.d_end s - 1) _ (pred e) (pred e)); cbn [U.d_end]; lia.
      + rewrite Nat.add_1_r. cbn [repeat]. unfold zput, U.copy. cbn [N.to_nat firstn skipn app]. rewrite repeat_length, firstn_all. rewrite skipn_all2 by (rewrite repeat_length; lia). rewrite app_nil_r. reflexivity.
  Qed.
  Theorem AddKeyValue_go_spec key value path : (S (length path) < fuel)%nat -> U.AddKeyValue_go fuel json key value path = outcome (AddKeyValue json key value path).
  Proof.
    intro Hp. set (v := match value with None => b "null" | Some v => v end).
    replace (U.AddKeyValue_go fuel json key value path) with (U.AddKeyValue_value fuel json key v path) by (destruct value; reflexivity).
    unfold AddKeyValue. fold v. clearbody v. cbv zeta. unfold U.AddKeyValue_value, func. unfold then_ at 1, if_ at 1. change 2 with (Z.of_nat 2) at 1. unfold zlen at 1. rewrite zltb. destruct (length json <? 2)%nat; [reflexivity|].
    unfold pass at 1. unfold then_ at 1. rewrite target_go by lia. destruct (target_span json 123 125 EObjectExpected path) as [[s e]|e|] eqn:Et; cbn [ubind]; try reflexivity.
    apply target_bound in Et. unfold then_ at 1, read at 1. rewrite braces_spec. destruct (braces_res 123 125 s e) as [[w Hv]| ->]; [|reflexivity]. rewrite Hv. cbn [pbind].
    unfold if_ at 1. destruct w; [|reflexivity]. pose proof (braces_e _ _ _ _ _ Hv eq_refl) as He. unfold then_ at 1. rewrite if_empty_spec by exact Et.
    destruct (blank_between json s e).
    - rewrite (replaced_spec _ _ _ _ (pred e) (pred e)) by (cbn [U.d_end]; lia). unfold done_replace, pbind. destruct (replace _ _ _ _); reflexivity.
    - unfold then_ at 1. unfold call at 1. rewrite core_go_as_core by (rewrite ?app_length; cbn [length]; assumption || lia). destruct (core json false (path ++ [key])) as [[[[ks|] s'] e']|er|]; cbn [bind returns]; try reflexivity.
      unfold failed, G.fail, return_, then_, if_, pass. destruct (err_equal (Some er) 8); [|reflexivity].
      rewrite (replaced_spec _ _ _ _ (pred e) (pred e)) by (cbn [U.d_end]; lia). unfold done_replace, pbind. destruct (replace _ _ _ _); reflexivity.
  Qed.
  Theorem Store_go_spec key value path : (S (length path) < fuel)%nat -> U.Store_go fuel json key value path = outcome (Store json key value path).
  Proof.
    intro Hp. unfold U.Store_go, Store, func. unfold then_ at 1. unfold call at 1. rewrite core_go_as_core by (rewrite ?app_length; cbn [length]; assumption || lia).
    destruct (core json false (path ++ [key])) as [[[[ks|] s] e]|er|]; cbn [bind returns]; try reflexivity; [apply set_value_spec|apply set_value_spec|].
    unfold then_, set_, if_, pass. destruct (err_equal (Some er) 8); [|reflexivity]. unfold call. rewrite AddKeyValue_go_spec by exact Hp. destruct (AddKeyValue json key value path); reflexivity.
  Qed.
  Theorem Insert_go_spec index value path : (S (length path) < fuel)%nat -> U.Insert_go fuel json index value path = outcome (Insert json index value path).
  Proof.
    intro Hp. unfold U.Insert_go, Insert, func. unfold then_ at 1. rewrite target_go by lia. destruct (target_span json 91 93 EArrayExpected path) as [[s e]|e|] eqn:Et; cbn [ubind]; try reflexivity.
    unfold then_ at 1, read at 1. rewrite braces_spec. destruct (braces_res 91 93 s e) as [[w Hv]| ->]; [|reflexivity]. rewrite Hv. cbn [pbind].
    unfold if_ at 1. destruct w; cbn [negb]; [|reflexivity]. unfold pass at 1. unfold then_ at 1. rewrite located_go by (rewrite app_length; cbn [length]; lia).
    destruct (core json false (path ++ [itoa index])) as [[[ks s'] e']|er|]; cbn [ubind]; try reflexivity.
    etransitivity; [apply (widened_spec s' e') with (k := fun s e se ee => pbind (at_ json se) (fun sc => pbind (at_ json ee) (fun ec =>
      if is_open sc && (sc + 2 =? ec)%N then done_replace json (value ++ [44%N]) s s
      else if (ec =? 44)%N then done_replace json (value ++ [44%N]) s s
      else if (sc =? 44)%N then match s with O => UPanic | S p => done_replace json (44%N :: value) p p end
      else Fail (Some json) (EBadJSON s))))|reflexivity].
    intros s1 e1 se ee. apply choose; try reflexivity. destruct s1 as [|s1].
    - unfold U.replaced, call, U.replace_go, func. cbn [U.d_start]. unfold then_, read, set_. destruct (_ <? 0); reflexivity.
    - apply replaced_end; cbn [U.d_start]; lia.
  Qed.

  (** ** SetKey *)
  Lemma key_loop new ks st en ee : forall fu rest i, skipn i json = rest -> (length rest < fu)%nat ->
    leave (for_ fu (fun s => Ok (snd s <? U.d_start (fst s))) (fun s => (fst s, snd s + 1)) (
                   read (fun s => zat json (snd s)) (fun curr =>
                   if_ (fun _ => (curr =? 92)%N) (set_ (fun s => (fst s, snd s + 1))) pass ;;
                   if_ (fun _ => (curr =? 34)%N) (U.replaced json new (fun s => U.d_startEdge (fst s)) snd) pass)) (U.Ed (Z.of_nat st) en (Z.of_nat ks) ee, Z.of_nat i)) =
    match setkey_loop rest i st with
    | Ok (Some j) => match replace json new ks j with Ok o => Ret (o, None) | _ => Pan end
    | Ok None => Nrm (U.Ed (Z.of_nat st) en (Z.of_nat ks) ee)
    | _ => Pan
    end.
  Proof.
    induction fu as [|fu IH]; intros rest i Hi Hfu; [lia|]. cbn [for_ fst snd U.d_start]. rewrite zltb. destruct rest as [|c r].
    - cbn [setkey_loop]. destruct (i <? st)%nat; [|reflexivity]. apply byte_end in Hi. unfold read. cbn [snd]. rewrite zat_nth, (proj2 (nth_error_None _ _)) by lia. reflexivity.
    - destruct (byte_at _ _ _ _ Hi) as (Hz & Hs & Hlt). cbn [setkey_loop length] in *. destruct (i <? st)%nat; [|reflexivity].
      assert (IH1 := IH r (S i) Hs ltac:(lia)). assert (IH2 := IH (tl r) (S (S i))). clear IH. hide fu. unfold read. cbn [snd]. rewrite zat_nth, Hz. unfold then_, if_, set_, pass.
      destruct (N.eqb_spec c 92) as [->|_]; cbn [N.eqb Pos.eqb fst snd].
      + rewrite !zsucc. destruct r as [|d r].
        * assert (K : skipn (S (S i)) json = tl []) by (apply byte_end in Hs; apply skipn_all2; lia). specialize (IH2 K ltac:(cbn [tl length]; lia)). rewrite IH2. reflexivity.
        * destruct (byte_at _ _ _ _ Hs) as (_ & Hs2 & _). exact (IH2 Hs2 ltac:(cbn [tl length] in *; lia)).
      + destruct (c =? 34)%N; [|cbn [fst snd]; rewrite zsucc; exact IH1].
        rewrite (replaced_spec _ _ _ _ ks i) by reflexivity. destruct (replace json new ks i); reflexivity.
  Qed.
  Lemma new_path {A} (d v : A) path : path <> [] ->
    let front := firstn (length path - 1) path in let np := U.copy (repeat d (length path)) front in
    zput np (Z.to_N (zlen np - 1)) v = removelast path ++ [v].
  Proof.
    clear. intro Hp. destruct (exists_last Hp) as (q & l & ->). cbv zeta. rewrite app_length, removelast_last. cbn [length]. replace (length q + 1 - 1)%nat with (length q) by lia.
    rewrite firstn_app, Nat.sub_diag, firstn_all, app_nil_r. unfold U.copy. rewrite repeat_length, firstn_all2 by lia.
    replace (repeat d (length q + 1)) with (repeat d (length q) ++ [d]) by (rewrite repeat_app; reflexivity).
    rewrite skipn_app, repeat_length, Nat.sub_diag, skipn_all2 by (rewrite repeat_length; lia). cbn [skipn app].
    unfold zput, zlen. rewrite app_length. cbn [length]. replace (N.to_nat (Z.to_N (Z.of_nat (length q + 1) - 1))) with (length q) by lia.
    rewrite firstn_app, Nat.sub_diag, firstn_all, app_nil_r. rewrite skipn_all2 by (rewrite app_length; cbn [length]; lia). reflexivity.
  Qed.
  Theorem SetKey_go_spec newKey path : (length path < fuel)%nat -> U.SetKey_go fuel json newKey path = outcome (SetKey json newKey path).
  Proof.
    intro Hp. unfold U.SetKey_go, SetKey, func. unfold then_ at 1, if_ at 1. change 0 with (Z.of_nat 0) at 1. unfold zlen at 1. rewrite zeqb. destruct newKey as [|nc nr]; [reflexivity|]. cbn [length Nat.eqb]. remember (nc :: nr) as newKey. clear nc nr HeqnewKey.
    unfold pass at 1. unfold then_ at 1, if_ at 1. change 0 with (Z.of_nat 0) at 1. unfold zlen at 1. rewrite zeqb. rewrite nil_match. destruct (Nat.eqb_spec (length path) 0) as [H0|H0]; [reflexivity|].
    unfold pass at 1. unfold then_ at 1, read at 1.
    assert (E : zslice path 0 (zlen path - 1) = Ok (firstn (length path - 1) path)).
    { unfold zslice, zlen. destruct (Z.ltb_spec (Z.of_nat (length path) - 1) 0); [lia|]. destruct (Z.ltb_spec (Z.of_nat (length path)) (Z.of_nat (length path) - 1)); [lia|]. cbn [Z.ltb Z.compare orb skipn Z.to_nat].
      replace (Z.to_nat (Z.of_nat (length path) - 1 - 0)) with (length path - 1)%nat by lia. reflexivity. }
    rewrite E. clear E. pose proof (new_path ([] : bytes) newKey path ltac:(intros ->; apply H0; reflexivity)) as E. cbv zeta in E. cbv zeta. rewrite E. clear E.
    assert (Hl : (length (removelast path ++ [newKey]) < fuel)%nat).
    { destruct (@exists_last _ path ltac:(intros ->; apply H0; reflexivity)) as (q & l & ->). rewrite removelast_last. rewrite app_length in *. exact Hp. }
    unfold call at 1. rewrite core_go_as_core by assumption. destruct (core json false (removelast path ++ [newKey])) as [[[[k|] s] e]|er|]; cbn [returns]; try reflexivity.
    unfold then_ at 1. unfold if_ at 1. destruct (err_equal (Some er) 8); [|reflexivity].
    unfold then_ at 1. unfold then_ at 1. unfold call at 1. rewrite core_go_as_core by assumption. destruct (core json false path) as [[[[k|] s] e]|e|] eqn:Ec; cbn [returns ubind]; try reflexivity.
    - unfold then_ at 1, set_ at 1. unfold pass at 1. unfold var at 1. unfold U.d_to_startEdge, U.d_to_start. cbn [U.d_startEdge U.d_start U.d_end U.d_endEdge U.none].
      rewrite key_loop with (rest := skipn k json); [|reflexivity|rewrite skipn_length; lia].
      destruct (setkey_loop (skipn k json) k s) as [[j|]| |]; cbn [pbind]; try reflexivity.
      + unfold done_replace, pbind. destruct (replace json newKey k j); reflexivity.
      + unfold U.wrong, return_, G.bad. cbn [U.d_startEdge returns outcome]. rewrite Nat2Z.id. reflexivity.
    - unfold then_ at 1, set_ at 1. unfold pass at 1. unfold var at 1. unfold U.d_to_startEdge, U.d_to_start. cbn [U.d_startEdge U.d_start U.d_end U.d_endEdge U.none].
      assert (X : exists f, fuel = S f) by (destruct fuel; [lia|eexists; reflexivity]). destruct X as [f ->]. cbn [for_ fst snd U.d_start]. replace (-1 <? Z.of_nat s) with true by (symmetry; apply Z.ltb_lt; lia). reflexivity.
  Qed.
End Update.
