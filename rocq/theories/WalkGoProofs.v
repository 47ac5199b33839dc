(** The type tests, GetMap, GetAll, GetAllMap and walk statement by statement (WalkGo.v) compute what the models in Iter.v
    and Walk.v compute. *)
From Coq Require Import String.
From Verif Require Import GoStd Errors GoLang Core Api Iter Walk.
From Verif Require CoreGo IterGo ListGo SplitGo MakeGo WalkGo.
From Verif Require Import CoreGoProofs IterGoProofs SplitGoProofs FormatGoProofs UpdateGoProofs MakeGoProofs ListGoProofs.

Local Open Scope Z_scope.
Module W := WalkGo.

(** ** Two iterations with states that stay related *)
Section Sim.
  Context {S1 S2 : Type}.
  Variable rel : S1 -> S2 -> Prop.
  Definition itrel (r1 : itres S1) (r2 : itres S2) : Prop :=
    match r1, r2 with IDone s e, IDone s' e' => rel s s' /\ e = e' | IPanic, IPanic => True | _, _ => False end.
  Lemma ibind_sim {A} s1 s2 (r : res A) k1 k2 : rel s1 s2 -> (forall a, r = Ok a -> itrel (k1 a) (k2 a)) -> itrel (ibind s1 r k1) (ibind s2 r k2).
  Proof. intros H K. destruct r; cbn [ibind itrel]; auto. Qed.

  Variables (cb1 : S1 -> bytes -> S1 * (bool * option err)) (cb2 : S2 -> bytes -> S2 * (bool * option err)).
  Hypothesis Hcb : forall s1 s2 v, rel s1 s2 -> rel (fst (cb1 s1 v)) (fst (cb2 s2 v)) /\ snd (cb1 s1 v) = snd (cb2 s2 v).
  Lemma iter_arr_sim json closes : forall rest i start lv inq s1 s2, rel s1 s2 -> itrel (iter_arr json closes cb1 rest i start lv inq s1) (iter_arr json closes cb2 rest i start lv inq s2).
  Proof.
    induction rest as [|c r IH]; intros i start lv inq s1 s2 H; [split; [exact H|reflexivity]|]. cbn [iter_arr].
    destruct (c =? 34)%N; [apply IH, H|]. destruct inq; [apply IH, H|]. destruct (is_open c); [apply IH, H|]. destruct (is_close c).
    - destruct (lv =? 0)%nat; [split; [exact H|reflexivity]|]. destruct ((c =? 93)%N && (lv =? 1)%nat); [|apply IH, H].
      apply ibind_sim; [exact H|]. intros v _. apply ibind_sim; [exact H|]. intros w _. destruct (Hcb _ _ w H) as [H1 H2]. destruct (cb1 s1 w) as [s1' [g1 e1]], (cb2 s2 w) as [s2' [g2 e2]]. cbn in H1, H2. injection H2 as -> ->. split; [exact H1|reflexivity].
    - destruct ((lv =? 1)%nat && (c =? 44)%N); [|apply IH, H].
      apply ibind_sim; [exact H|]. intros v _. apply ibind_sim; [exact H|]. intros w _. destruct (Hcb _ _ w H) as [H1 H2]. destruct (cb1 s1 w) as [s1' [g1 e1]], (cb2 s2 w) as [s2' [g2 e2]]. cbn in H1, H2. injection H2 as -> ->.
      destruct e2; [split; [exact H1|reflexivity]|]. destruct g2; [apply IH, H1|split; [exact H1|reflexivity]].
  Qed.
  Lemma IterateArray_sim json path s1 s2 : rel s1 s2 -> itrel (IterateArray json cb1 path s1) (IterateArray json cb2 path s2).
  Proof.
    intro H. unfold IterateArray. destruct (_ <? 2)%nat; [split; [exact H|reflexivity]|]. destruct (_ =? 2)%nat; [destruct (bytes_eqb _ _); (split; [exact H|reflexivity])|].
    apply ibind_sim; [exact H|]. intros st _. apply ibind_sim; [exact H|]. intros c _. destruct (c =? 91)%N; [apply iter_arr_sim, H|split; [exact H|reflexivity]].
  Qed.
End Sim.
Section SimKV.
  Context {S1 S2 : Type}.
  Variables (rel : S1 -> S2 -> Prop) (cb1 : S1 -> bytes -> bytes -> S1 * (bool * option err)) (cb2 : S2 -> bytes -> bytes -> S2 * (bool * option err)).
  Hypothesis Hcb : forall s1 s2 k v, rel s1 s2 -> rel (fst (cb1 s1 k v)) (fst (cb2 s2 k v)) /\ snd (cb1 s1 k v) = snd (cb2 s2 k v).
  Lemma iter_kv_sim json : forall rest i start end_ level ks ke inq key s1 s2, rel s1 s2 ->
    itrel rel (iter_kv json cb1 rest i start end_ level ks ke inq key s1) (iter_kv json cb2 rest i start end_ level ks ke inq key s2).
  Proof.
    induction rest as [|c r IH]; intros i start end_ level ks ke inq key s1 s2 H; [split; [exact H|reflexivity]|]. cbn [iter_kv]. cbv zeta.
    destruct (c =? 34)%N; [destruct inq; [destruct (qscan json i) as [[|]|]|]; apply IH, H|]. destruct inq; [apply IH, H|]. destruct (is_open c); [apply IH, H|]. destruct (is_close c).
    - destruct ((c =? 125)%N && (level =? 1)%nat); [|destruct (level =? 1)%nat; [split; [exact H|reflexivity]|apply IH, H]].
      apply ibind_sim; [exact H|]. intros v _. destruct (Hcb _ _ key v H) as [H1 _]. split; [exact H1|reflexivity].
    - destruct ((level =? 1)%nat && (c =? 44)%N).
      + apply ibind_sim; [exact H|]. intros w _. destruct (Hcb _ _ key w H) as [H1 H2]. destruct (cb1 s1 key w) as [s1' [g1 e1]], (cb2 s2 key w) as [s2' [g2 e2]]. cbn in H1, H2. injection H2 as -> ->.
        destruct e2; [split; [exact H1|reflexivity]|]. destruct g2; [apply IH, H1|split; [exact H1|reflexivity]].
      + destruct ((level =? 1)%nat && (c =? 58)%N); [|apply IH, H]. apply ibind_sim; [exact H|]. intros k _. apply IH, H.
  Qed.
  Lemma IterateKeyValue_sim json path s1 s2 : rel s1 s2 -> itrel rel (IterateKeyValue json cb1 path s1) (IterateKeyValue json cb2 path s2).
  Proof.
    intro H. unfold IterateKeyValue. destruct (bytes_eqb _ _); [split; [exact H|reflexivity]|].
    apply ibind_sim; [exact H|]. intros st _. apply ibind_sim; [exact H|]. intros c _. destruct (c =? 123)%N; [apply iter_kv_sim, H|split; [exact H|reflexivity]].
  Qed.
End SimKV.

(** ** Types and maps *)
Definition type_name (t : jtype) : bytes :=
  match t with TArray => b "array" | TObject => b "object" | TString => b "string" | TBoolean => b "boolean" | TNull => b "null" | TNumber => b "number" end.

Section Types.
  Variables (fuel : nat) (json : bytes) (path : list bytes).
  Hypothesis Hbytes : Forall (fun c => (c < 256)%N) json.
  Hypothesis Hjson : (length json < fuel)%nat.
  Hypothesis Hpath : (length path < fuel)%nat.

  Lemma is_spec control equal : W.is_ fuel json path control equal = told false (do '(st, _) <- typeControlCore json control equal path; Ok st).
  Proof. unfold W.is_, func, call. rewrite typeControlCore_go_spec by assumption. destruct (typeControlCore json control equal path) as [[st n]|e|]; reflexivity. Qed.
  Theorem IsObject_go_spec : W.IsObject_go fuel json path = told false (IsObject json path).
  Proof. apply is_spec. Qed.
  Theorem IsArray_go_spec : W.IsArray_go fuel json path = told false (IsArray json path).
  Proof. apply is_spec. Qed.
  Theorem IsValue_go_spec : W.IsValue_go fuel json path = told false (IsValue json path).
  Proof. apply is_spec. Qed.
  Theorem GetType_go_spec pf : W.GetType_go fuel json path pf = match GetType pf json path with Ok t => Ret (type_name t, None) | Err e => Ret ([], Some e) | Panic => Pan end.
  Proof.
    unfold W.GetType_go, GetType, func. unfold then_ at 1. unfold call at 1. rewrite typeControlCore_go_spec by assumption. destruct (typeControlCore json [] false path) as [[st n]|e|]; cbn [bind]; cbv beta iota; try reflexivity.
    unfold then_ at 1, pass at 1. unfold read at 1. rewrite zat_nth. unfold at_. destruct (nth_error json n) as [c|]; cbn [bind]; [|reflexivity].
    unfold if_ at 1 2 3. destruct (c =? 91)%N; [reflexivity|]. destruct (c =? 123)%N; [reflexivity|]. destruct (c =? 34)%N; [reflexivity|]. unfold pass at 1.
    unfold call at 1. rewrite GetString_go_spec by assumption. destruct (GetString json path) as [val|e|]; cbn [told bind]; cbv beta iota; try reflexivity.
    unfold then_, if_, pass, return_. destruct (bytes_eqb val (b "true") || bytes_eqb val (b "false")); [reflexivity|]. destruct (bytes_eqb val (b "null")); [reflexivity|].
    destruct (parse_int 64 val); [reflexivity|]. destruct (pf val); reflexivity.
  Qed.
  Lemma at_nat n : zat json (Z.of_nat n) = at_ json n.
  Proof. rewrite zat_nth. reflexivity. Qed.
  Lemma at_or n : (exists c, at_ json n = Ok c) \/ at_ json n = Panic.
  Proof. unfold at_. destruct (nth_error json n); [left; eexists; reflexivity|right; reflexivity]. Qed.
  Theorem GetMap_go_spec : W.GetMap_go fuel json path = told None (GetMap json path).
  Proof.
    unfold W.GetMap_go, GetMap, func. unfold then_ at 1, if_ at 1. destruct (bytes_eqb json (b "[]") || bytes_eqb json (b "{}")); [reflexivity|]. unfold pass at 1.
    unfold call at 1. rewrite getStartEnd_go_spec by assumption. destruct (getStartEnd json path) as [[s e]|er|]; cbn [told2 bind]; cbv beta iota; try reflexivity.
    cbv zeta. unfold then_ at 1, pass at 1. unfold then_ at 1. unfold read at 1. unfold IterGo.and_also. rewrite !at_nat. destruct (at_or s) as [[c Ec]|Ec]; rewrite Ec; cbn [bind]; [|reflexivity].
    assert (Arr : forall d, returns ((read (fun _ : unit => if (c =? 91)%N then do c0 <- at_ json e; Ok (c0 =? 93)%N else Ok false) (fun x =>
        if_ (fun _ => x)
          (call (fun _ => IterGo.IterateArray_go fuel json (fun s val => ((map_put (itoa (snd s)) val (fst s), snd s + 1), (true, None))) path ([], 0)) (fun r =>
             let '(mainMap, _, e) := r in
             match e with Some e => return_ (fun _ => (None, Some e)) | None => pass end ;;
             return_ (fun _ => (Some mainMap, None)))) pass) ;;
        return_ (fun _ => (None, Some (CoreGo.bad (Z.of_nat s))))) d) = told None (if (c =? 91)%N then do d <- at_ json e; (if (d =? 93)%N then
            match IterateArray json (fun '(m, n) v => ((map_put (itoa (Z.of_nat n)) v m, S n), (true, None))) path ([], O) with IDone s None => Ok (Some (fst s)) | IDone _ (Some e) => Err e | IPanic => Panic end
          else Err (EBadJSON s)) else Err (EBadJSON s))).
    { intro d. unfold then_ at 1. unfold read at 1. assert (Hbad : CoreGo.bad (Z.of_nat s) = EBadJSON s) by (unfold CoreGo.bad; rewrite Nat2Z.id; reflexivity). rewrite Hbad.
      destruct (c =? 91)%N; [|reflexivity]. destruct (at_or e) as [[x Ex]|Ex]; rewrite Ex; cbn [bind]; [|reflexivity]. unfold if_. destruct (x =? 93)%N; [|reflexivity].
      unfold call. rewrite IterateArray_go_spec by assumption.
      pose proof (IterateArray_sim (fun (s1 : gomap * Z) (s2 : gomap * nat) => s1 = (fst s2, Z.of_nat (snd s2)))
        (fun s val => ((map_put (itoa (snd s)) val (fst s), snd s + 1), (true, None))) (fun '(m, n) v => ((map_put (itoa (Z.of_nat n)) v m, S n), (true, None)))) as K.
      specialize (K ltac:(intros s1 [m n] v ->; cbn [fst snd]; split; [f_equal; lia|reflexivity]) json path ([], 0) ([], 0%nat) eq_refl). unfold itrel in K.
      unfold gomap in *. match type of K with match ?x with IDone _ _ => match ?y with _ => _ end | _ => _ end => destruct x as [[m1 z1] e1|], y as [[m2 n2] e2|] end; try contradiction; [|reflexivity].
      destruct K as [K ->]. cbn [fst snd] in K. injection K as -> _. destruct e2; reflexivity. }
    destruct (c =? 123)%N; cbn [bind]; [|apply Arr].
    destruct (at_or e) as [[x Ex]|Ex]; rewrite Ex; cbn [bind]; [|reflexivity]. unfold if_ at 1. destruct (x =? 125)%N.
    - unfold call at 1. rewrite IterateKeyValue_go_spec by assumption. match goal with |- context [IterateKeyValue json ?f path ?m] => destruct (IterateKeyValue json f path m) as [m' [e'|]|] end; reflexivity.
    - unfold pass at 1. etransitivity; [|etransitivity; [apply (Arr tt)|]]; rewrite ?Ex; reflexivity.
  Qed.
  Lemma get_all keys : (S (length path) < fuel)%nat -> forall i acc, returns ((MakeGo.range_from keys i (fun _ k =>
        call (fun _ => SplitGo.GetString_go fuel json (path ++ [k])) (fun r =>
        let '(val, e) := r in
        match e with Some e => return_ (fun _ => ([], Some e)) | None => pass end ;;
        set_ (fun results => results ++ [val]))) ;;
      return_ (fun results => (results, None))) acc) = told [] (do l <- GetAll json keys path; Ok (acc ++ l)).
  Proof.
    intro Hl. unfold then_ at 1. induction keys as [|k r IH]; intros i acc; [cbn; rewrite app_nil_r; reflexivity|]. cbn [MakeGo.range_from GetAll]. unfold call at 1. rewrite GetString_go_spec by (assumption || rewrite app_length; cbn [length]; lia).
    destruct (GetString json (path ++ [k])) as [v|e|]; cbn [told bind]; cbv beta iota; try reflexivity. unfold then_ at 1, pass at 1, set_ at 1. etransitivity; [apply IH|]. destruct (GetAll json r path); cbn [bind told]; try reflexivity. rewrite <- app_assoc. reflexivity.
  Qed.
  Theorem GetAll_go_spec keys : (S (length path) < fuel)%nat -> W.GetAll_go fuel json path keys = told [] (GetAll json keys path).
  Proof. intro Hl. etransitivity; [apply (get_all keys Hl 0 [])|]. destruct (GetAll json keys path); reflexivity. Qed.
  Theorem GetAllMap_go_spec keys : (S (length path) < fuel)%nat -> W.GetAllMap_go fuel json path keys = told None (do m <- GetAllMap json keys path; Ok (Some m)).
  Proof.
    intro Hl. unfold W.GetAllMap_go, GetAllMap, func, MakeGo.range_. unfold then_ at 1. generalize 0 as i. generalize (@nil (bytes * bytes)) as acc. induction keys as [|k r IH]; intros acc i; [reflexivity|]. cbn [MakeGo.range_from get_all_map]. unfold call at 1. rewrite GetString_go_spec by (assumption || rewrite app_length; cbn [length]; lia).
    destruct (GetString json (path ++ [k])) as [v|e|]; cbn [told bind]; cbv beta iota; try reflexivity. unfold then_ at 1, pass at 1, set_ at 1. apply IH.
  Qed.
  Theorem all_map keys : (S (length path) < fuel)%nat -> W.GetAllMap_go fuel json path keys = match GetAllMap json keys path with Ok m => Ret (Some m, None) | Err e => Ret (None, Some e) | Panic => Pan end.
  Proof. intro Hl. rewrite GetAllMap_go_spec by exact Hl. destruct (GetAllMap json keys path); reflexivity. Qed.
End Types.

(** ** walk *)
Definition walked {St} (r : wres St) : flow unit (St * option err) := match r with WDone s e => Ret (s, e) | WPanic => Pan | WFuel => Out end.

Section WalkGo.
  Context {St : Type}.
  Variables (pf : bytes -> bool) (fuel : nat) (json : bytes).
  Variable cb : St -> bytes -> bytes -> list bytes -> St * (bool * option err).
  Hypothesis Hbytes : Forall (fun c => (c < 256)%N) json.
  Hypothesis Hjson : (length json < fuel)%nat.

  Definition at_same (w1 : W.at_work) (w2 : wst) : Prop :=
    match w1, w2 with W.Going s i, Live s' n => s = s' /\ i = Z.of_nat n | W.Stop r, Dead r' => r = @walked St r' | _, _ => False end.
  Lemma one_same w1 w2 (f1 : St -> Z -> flow unit (St * option err)) f2 : (forall s n, f1 s (Z.of_nat n) = walked (f2 s n)) -> at_same w1 w2 ->
    at_same (fst (W.one w1 f1)) (fst (below w2 f2)) /\ snd (W.one w1 f1) = snd (below w2 f2).
  Proof.
    intros Hf H. destruct w1 as [s i|r], w2 as [s' n|r']; try contradiction; cbn [W.one below].
    - destruct H as [-> ->]. rewrite Hf. destruct (f2 s' n) as [s1 [e|]| |]; cbn [walked fst snd at_same]; (split; [|reflexivity]); try reflexivity; (split; [reflexivity|lia]).
    - split; [exact H|reflexivity].
  Qed.
  Lemma iterated_same r1 r2 : itrel at_same r1 r2 -> W.iterated (ended r1) = walked (after r2).
  Proof.
    destruct r1 as [w1 e1|], r2 as [w2 e2|]; cbn [itrel]; try contradiction; [|reflexivity]. intros [H ->]. destruct w1, w2; try contradiction; cbn in *; [destruct H as [-> _]; reflexivity|exact H].
  Qed.
  Lemma last_zat (path : list bytes) : path <> [] -> zat path (zlen path - 1) = Ok (last path []).
  Proof. intro H. destruct path as [|k r] eqn:E; [congruence|]. rewrite <- E. exact (zat_last path k r [] E). Qed.

  Theorem walk_go_spec : forall depth path s, (length path + depth < fuel)%nat -> W.walk_go pf fuel json cb depth path s = walked (walk pf depth json path cb s).
  Proof.
    induction depth as [|depth IH]; intros path s Hp; [reflexivity|]. cbn [W.walk_go walk]. unfold func. unfold call at 1. rewrite GetType_go_spec by (assumption || lia).
    destruct (GetType pf json path) as [t|e|]; cbv beta iota; try reflexivity. unfold then_ at 1, pass at 1. unfold then_ at 1. unfold if_ at 1.
    assert (Leaf : forall d : cmd St (St * option err), (forall s', d s' = Ret (s', None)) -> returns (match (var (fun _ : St => @nil N) (
                 if_ (fun _ => negb (zlen path =? 0)) (read (fun _ => zat path (zlen path - 1)) (fun k => set_ (fun s => (fst s, k)))) pass ;;
                 call (fun _ => SplitGo.Get_go fuel json path) (fun r =>
                   let '(val, e) := r in
                   match e with Some e => return_ (fun s => (fst s, Some e)) | None => pass end ;;
                   (fun s => let '(s', (keepGoing, e)) := cb (fst s) (snd s) val path in
                             match e with
                             | Some e => Ret (s', Some e)
                             | None => (if_ (fun _ => negb keepGoing) (return_ (fun s => (fst s, None))) pass) (s', snd s)
                             end)))) s with Nrm s' => d s' | x => x end) =
        walked (match Get json path with Err e => WDone s (Some e) | Panic => WPanic | Ok val => let '(s', (_, e)) := cb s (last path []) val path in WDone s' e end)).
    { intros d Hd. unfold var at 1. unfold then_ at 1. replace (if_ (fun _ : St * bytes => negb (zlen path =? 0)) (read (fun _ => zat path (zlen path - 1)) (fun k => set_ (fun s => (fst s, k)))) pass (s, [])) with (Nrm (s, last path []) : flow (St * bytes) (St * option err)).
      2: { unfold if_, zlen. change 0 with (Z.of_nat 0). rewrite zeqb. destruct path as [|k r] eqn:E; [reflexivity|]. rewrite <- E. replace (length path =? 0)%nat with false by (rewrite E; reflexivity). cbn [negb]. unfold read. change (Z.of_nat (length path)) with (zlen path). rewrite last_zat by (rewrite E; discriminate). reflexivity. }
      unfold call. rewrite Get_go_spec by (assumption || lia). destruct (Get json path) as [val|e|]; cbn [told]; cbv beta iota; try reflexivity. unfold then_ at 1, pass at 1. cbn [fst snd].
      destruct (cb s (last path []) val path) as [s' [g [e|]]]; [reflexivity|]. unfold if_. destruct g; cbn [negb]; [unfold pass; cbn [leave fst]; rewrite Hd; reflexivity|reflexivity]. }
    assert (Fin : forall (r : wres St) (d : cmd St (St * option err)), (forall s', d s' = Ret (s', None)) -> returns (match call (fun _ : St => walked r) W.returned s with Nrm s' => d s' | x => x end) = walked r).
    { intros r d Hd. unfold call, W.returned, then_, set_. destruct r as [s' [e|]| |]; cbn [walked fst snd]; try reflexivity. unfold pass. rewrite Hd. reflexivity. }
    destruct t; cbn [type_name].
    all: match goal with |- context [bytes_eqb ?x (b "object")] => let v := eval vm_compute in (bytes_eqb x (b "object")) in change (bytes_eqb x (b "object")) with v end; cbv iota.
    all: try (unfold if_ at 1; match goal with |- context [bytes_eqb ?x (b "array")] => let v := eval vm_compute in (bytes_eqb x (b "array")) in change (bytes_eqb x (b "array")) with v end; cbv iota).
    all: try (apply Leaf; reflexivity).
    - etransitivity; [|apply (Fin _ (return_ (fun s => (s, None)))); reflexivity]. unfold call at 1. rewrite IterateArray_go_spec by (assumption || lia).
      rewrite (iterated_same _ (IterateArray json (fun w _ => below w (fun s i => walk pf depth json (path ++ [itoa (Z.of_nat i)]) cb s)) path (Live s 0))); [reflexivity|].
      apply IterateArray_sim; [|split; reflexivity]. intros s1 s2 v H. apply one_same; [|exact H]. intros s' n. apply IH. rewrite app_length. cbn [length]. lia.
    - etransitivity; [|apply (Fin _ (return_ (fun s => (s, None)))); reflexivity]. unfold call at 1. rewrite IterateKeyValue_go_spec by (assumption || lia).
      rewrite (iterated_same _ (IterateKeyValue json (fun w key _ => below w (fun s _ => walk pf depth json (path ++ [key]) cb s)) path (Live s 0))); [reflexivity|].
      apply IterateKeyValue_sim; [|split; reflexivity]. intros s1 s2 k v H. apply one_same; [|exact H]. intros s' n. apply IH. rewrite app_length. cbn [length]. lia.
  Qed.
  Theorem Walk_go_spec s : (S (S (length json)) < fuel)%nat -> W.Walk_go pf fuel json cb (S (S (length json))) s = walked (Walk pf json cb s).
  Proof. intro H. apply walk_go_spec. exact H. Qed.
End WalkGo.
