(** formatType, the Make functions and the Scheme methods statement by statement (MakeGo.v) compute what the models in
    Typed.v and Make.v compute. *)
From Coq Require Import String.
From Verif Require Import GoStd Errors GoLang Core Api Iter Typed Make.
From Verif Require CoreGo IterGo ListGo SplitGo UpdateGo MakeGo.
From Verif Require Import CoreGoProofs IterGoProofs ListGoProofs SplitGoProofs FormatGoProofs UpdateGoProofs.

Local Open Scope Z_scope.
Module M := MakeGo.

Lemma zat_last {A} (l : list A) (c : A) (r : list A) d : l = c :: r -> zat l (zlen l - 1) = Ok (last l d).
Proof.
  intro E. destruct (@exists_last _ l ltac:(rewrite E; discriminate)) as (q & x & ->). rewrite last_last. unfold zat, zlen. rewrite app_length. cbn [length].
  destruct (Z.ltb_spec (Z.of_nat (length q + 1) - 1) 0); [lia|]. replace (Z.to_nat (Z.of_nat (length q + 1) - 1)) with (length q) by lia. rewrite nth_error_app2, Nat.sub_diag by lia. reflexivity.
Qed.
Lemma slice_removelast {A} (l : list A) : l <> [] -> zslice l 0 (zlen l - 1) = Ok (removelast l).
Proof.
  intro E. destruct (exists_last E) as (q & x & ->). rewrite removelast_last. unfold zslice, zlen. rewrite app_length. cbn [length].
  destruct (Z.ltb_spec (Z.of_nat (length q + 1) - 1) 0); [lia|]. destruct (Z.ltb_spec (Z.of_nat (length q + 1)) (Z.of_nat (length q + 1) - 1)); [lia|]. cbn [Z.ltb Z.compare orb Z.to_nat skipn].
  replace (Z.to_nat (Z.of_nat (length q + 1) - 1 - 0)) with (length q) by lia. rewrite firstn_app, Nat.sub_diag, firstn_all, app_nil_r. reflexivity.
Qed.

Lemma elem_at {A} (l : list A) : forall i x r, skipn i l = x :: r -> nth_error l i = Some x /\ skipn (S i) l = r /\ (i < length l)%nat.
Proof.
  induction l as [|y l IH]; intros [|i] x r H; cbn in *; try discriminate H; [injection H as -> ->; repeat split; lia|]. destruct (IH _ _ _ H) as (E1 & E2 & E3). repeat split; [exact E1|exact E2|lia].
Qed.
Lemma zat_elem {A} (l : list A) i x : nth_error l i = Some x -> zat l (Z.of_nat i) = Ok x.
Proof. intro H. unfold zat. destruct (Z.ltb_spec (Z.of_nat i) 0); [lia|]. rewrite Nat2Z.id, H. reflexivity. Qed.

Theorem formatType_go_spec pf val : M.formatType_go pf val = Ret (formatType pf val).
Proof.
  unfold M.formatType_go, formatType, func. destruct val as [|c r] eqn:E; [reflexivity|]. rewrite <- E. unfold then_, if_, pass, return_, read.
  replace (zlen val =? 0) with false by (rewrite E; reflexivity). cbv iota beta. change (M.isBool_go val) with (isBool val). destruct (isBool val); [reflexivity|].
  unfold isInt. replace (zat val 0) with (Ok c) by (rewrite E; reflexivity). destruct (parse_int 32 val).
  - replace (zlen val >? 1) with (1 <? length val)%nat; [destruct ((c =? 48)%N && (1 <? length val)%nat); reflexivity|].
    unfold zlen. rewrite Z.gtb_ltb. change 1 with (Z.of_nat 1). rewrite zltb. reflexivity.
  - destruct (pf val); [reflexivity|]. destruct (bytes_eqb val (b "null")); [reflexivity|]. rewrite (zat_last val c r 0%N E). cbv zeta.
    destruct ((c =? 34) && (last val 0 =? 34))%N; [reflexivity|]. destruct ((c =? 91) && (last val 0 =? 93))%N; [reflexivity|]. destruct ((c =? 123) && (last val 0 =? 125))%N; reflexivity.
Qed.

(** ** Make *)
Section Made.
  Context {A : Type}.
  Variables (g : nat -> A -> res bytes) (item : Z -> A -> cmd bytes bytes).

  Fixpoint collect (i : nat) (xs : list A) : res (list bytes) :=
    match xs with [] => Ok [] | x :: r => do y <- g i x; do l <- collect (S i) r; Ok (y :: l) end.

  Lemma range_spec : forall xs i js, (forall n x js, nth_error xs n = Some x -> item (Z.of_nat (i + n)) x js = match g (i + n) x with Ok y => Nrm (js ++ y) | _ => Pan end) ->
    M.range_from xs (Z.of_nat i) (fun i x => item i x ;; M.appended [44%N]) js =
    match collect i xs with Ok l => Nrm (js ++ concat (map (fun y => y ++ [44%N]) l)) | _ => Pan end.
  Proof.
    induction xs as [|x r IH]; intros i js H; [cbn; rewrite app_nil_r; reflexivity|]. cbn [M.range_from collect]. pose proof (H 0%nat x js eq_refl) as H0. rewrite Nat.add_0_r in H0. unfold then_ at 1. rewrite H0.
    destruct (g i x) as [y|e|]; cbn [bind]; try reflexivity. unfold M.appended, set_ at 1. rewrite zsucc. fold (@M.appended bytes [44%N]).
    change (set_ (fun js0 : bytes => js0 ++ [44%N])) with (@M.appended bytes [44%N]). rewrite IH.
    - destruct (collect (S i) r); cbn [bind]; try reflexivity. cbn [map concat]. rewrite <- !app_assoc. reflexivity.
    - intros n x' js' Hn. specialize (H (S n) x' js' Hn). rewrite Nat.add_succ_r in H. exact H.
  Qed.
  Lemma made_spec o c xs : (forall n x js, nth_error xs n = Some x -> item (Z.of_nat n) x js = match g n x with Ok y => Nrm (js ++ y) | _ => Pan end) ->
    M.made o c (Some xs) item = match collect 0 xs with Ok l => Ret (build o c l) | _ => Pan end.
  Proof.
    intro H. unfold M.made, func, M.range_. unfold then_ at 1. unfold M.appended at 1, set_ at 1. unfold then_ at 1. change 0 with (Z.of_nat 0) at 1. rewrite range_spec by exact H.
    destruct (collect 0 xs) as [l|e|]; try reflexivity. cbn [app]. unfold then_, read, M.appended, set_, return_. rewrite slice_removelast by discriminate. reflexivity.
  Qed.
End Made.
Lemma collect_map {A} (f : A -> bytes) xs i : collect (fun _ x => Ok (f x)) i xs = Ok (map f xs).
Proof. revert i. induction xs as [|x r IH]; intro i; [reflexivity|]. cbn [collect bind map]. rewrite IH. reflexivity. Qed.
Lemma made_map {A} (f : A -> bytes) (item : A -> cmd bytes bytes) o c xs : (forall x js, item x js = Nrm (js ++ f x)) ->
  M.made o c xs (fun _ => item) = Ret match xs with None => [o; c] | Some xs => build o c (map f xs) end.
Proof.
  intro H. destruct xs as [xs|]; [|reflexivity]. rewrite (made_spec (fun _ x => Ok (f x))) by (intros; apply H). rewrite collect_map. reflexivity.
Qed.
Lemma formatted_spec pf v js : M.formatted pf v js = Nrm (js ++ formatType pf v).
Proof. unfold M.formatted, call. rewrite formatType_go_spec. reflexivity. Qed.
Lemma pair_spec pf k v js : M.pair_go pf k v js = Nrm (js ++ pair_item pf (k, v)).
Proof. unfold M.pair_go, then_, M.appended, set_. rewrite formatted_spec. unfold pair_item. cbn [fst snd]. f_equal. rewrite <- !app_assoc. cbn [app]. rewrite <- ?app_assoc. reflexivity. Qed.

Theorem MakeArray_go_spec pf es : M.MakeArray_go pf es = Ret (MakeArray pf es).
Proof. apply (made_map (formatType pf)). apply formatted_spec. Qed.
Theorem MakeArrayString_go_spec pf vs : M.MakeArrayString_go pf vs = Ret (MakeArrayString pf vs).
Proof. apply (made_map (formatType pf)). apply formatted_spec. Qed.
Theorem MakeArrayInt_go_spec vs : M.MakeArrayInt_go vs = Ret (MakeArrayInt vs).
Proof. apply (made_map itoa). reflexivity. Qed.
Theorem MakeArrayBool_go_spec vs : M.MakeArrayBool_go vs = Ret (MakeArrayBool vs).
Proof. apply (made_map bool_text). intros [|] js; reflexivity. Qed.
Theorem MakeArrayBytes_go_spec vs : M.MakeArrayBytes_go vs = Ret (MakeArrayBytes vs).
Proof. unfold M.MakeArrayBytes_go, MakeArrayBytes. rewrite (made_map (fun x => x)) by reflexivity. destruct vs; [rewrite map_id|]; reflexivity. Qed.
Theorem MakeJsonWithMap_go_spec pf m : M.MakeJsonWithMap_go pf m = Ret (MakeJsonWithMap pf m).
Proof. apply (made_map (pair_item pf)). intros [k v] js. apply pair_spec. Qed.
Theorem MakeJsonString_go_spec pf ks vs : M.MakeJsonString_go pf ks vs = Ret (MakeJsonString pf ks vs).
Proof.
  unfold M.MakeJsonString_go, MakeJsonString. replace (M.len_of ks =? M.len_of vs) with (olen ks =? olen vs)%nat.
  2: { destruct ks, vs; unfold M.len_of, olen, zlen; change 0 with (Z.of_nat 0); rewrite zeqb; reflexivity. }
  destruct (Nat.eqb_spec (olen ks) (olen vs)) as [Hl|Hl]; cbn [negb]; [|reflexivity]. destruct ks as [ks|]; [|reflexivity]. unfold call.
  change (match vs with Some l => l | None => [] end) with (olist vs). cbn [olen] in Hl. replace (olen vs) with (length (olist vs)) in Hl by (destruct vs; reflexivity). set (l := olist vs) in *. clearbody l. clear vs.
  rewrite (made_spec (fun i k => match nth_error l i with Some v => Ok (pair_item pf (k, v)) | None => Panic end)).
  2: { intros n k js _. unfold read. rewrite zat_nth. destruct (nth_error l n) as [v|]; [apply pair_spec|reflexivity]. }
  replace (collect _ 0 ks) with (Ok (map (pair_item pf) (combine ks l))); [reflexivity|]. symmetry. change l with (skipn 0 l) at 2.
  assert (Hl' : length ks = length (skipn 0 l)) by exact Hl. clear Hl. revert Hl'. generalize 0%nat as i. induction ks as [|k ks IH]; intros i Hl; [reflexivity|].
  cbn [length collect] in *. destruct (skipn i l) as [|v r] eqn:Hi; [discriminate Hl|]. assert (Hn : nth_error l i = Some v /\ skipn (S i) l = r).
  { clear - Hi. revert i Hi. induction l as [|x l IH]; intros [|i] Hi; cbn in *; try discriminate Hi; [injection Hi as -> ->; split; reflexivity|]. destruct (IH _ Hi) as [E1 E2]. split; [exact E1|exact E2]. }
  destruct Hn as [Hn Hs]. rewrite Hn. cbn [bind combine map]. rewrite <- Hs in Hl. injection Hl as Hl. rewrite (IH (S i) Hl), Hs. reflexivity.
Qed.

Lemma e_loop {R} (num js : bytes) : forall rest i fu start, skipn i num = rest -> (length rest < fu)%nat ->
  leave (for_ fu (fun s => Ok (snd s <? zlen num)) (fun s => (fst s, snd s + 1)) (
        read (fun s => zat num (snd s)) (fun c =>
        if_ (fun _ => (c =? 101)%N) (set_ (fun s => ((fst (fst s), snd s), snd s))) pass)) (js, Z.of_nat start, Z.of_nat i)) =
  Nrm (js, Z.of_nat (last_e rest i start)) :> flow _ R.
Proof.
  induction rest as [|c r IH]; intros i fu start Hi Hfu; (destruct fu as [|fu]; [lia|]); cbn [for_ snd]; unfold zlen at 1; rewrite zltb.
  - apply byte_end in Hi. destruct (Nat.ltb_spec i (length num)); [lia|]. reflexivity.
  - destruct (byte_at _ _ _ _ Hi) as (Hz & Hs & Hlt). rewrite (proj2 (Nat.ltb_lt _ _) Hlt). cbn [length last_e] in *. assert (IH' := fun st => IH (S i) fu st Hs ltac:(lia)). clear IH. hide fu.
    unfold read. cbn [snd]. rewrite zat_nth, Hz. unfold if_, set_, pass. destruct (c =? 101)%N; cbn [fst snd]; rewrite zsucc; apply IH'.
Qed.
Lemma atoi_zero t : (M.atoi_value t =? 0) = match parse_signed t with Some z => z =? 0 | None => true end.
Proof.
  unfold M.atoi_value. destruct (parse_signed t) as [z|]; [|reflexivity]. unfold int64_min, int64_max.
  destruct (Z.eqb_spec z 0) as [->|Hz]; [reflexivity|]. apply Z.eqb_neq. lia.
Qed.
Theorem MakeArrayFloat_go_spec fuel nums : Forall (fun num => (length num < fuel)%nat) (olist nums) ->
  M.MakeArrayFloat_go fuel nums = match MakeArrayFloat nums with Ok js => Ret js | _ => Pan end.
Proof.
  intro H. destruct nums as [nums|]; [|reflexivity]. cbn [olist] in H. unfold M.MakeArrayFloat_go, MakeArrayFloat. rewrite (made_spec (fun _ num => float_item num)).
  - replace (collect _ 0 nums) with (float_items nums).
    + destruct (float_items nums); reflexivity.
    + generalize 0%nat as i. clear H. induction nums as [|x r IH]; intro i; [reflexivity|]. cbn [float_items collect]. rewrite (IH (S i)). reflexivity.
  - intros n num js Hn. assert (Hnum : (length num < fuel)%nat) by (rewrite Forall_forall in H; apply H; eapply nth_error_In; exact Hn).
    unfold var at 1. unfold then_ at 1. unfold var at 1. pose proof (@e_loop bytes num js num 0 fuel 0 eq_refl Hnum) as K. change (Z.of_nat 0) with 0 in K. rewrite K. clear K.
    unfold float_item. set (start := last_e num 0 0). cbv zeta. unfold read at 1. cbn [snd]. replace (Z.of_nat start + 2) with (Z.of_nat (start + 2)) by lia. unfold zlen. rewrite zslice_slice.
    unfold slice at 1 2. destruct ((start + 2 <=? length num)%nat && (length num <=? length num)%nat) eqn:El; cbn [bind]; [|reflexivity].
    unfold if_. rewrite atoi_zero. destruct (match parse_signed _ with Some z => z =? 0 | None => true end); [|reflexivity].
    unfold read. cbn [snd]. change 0 with (Z.of_nat 0). rewrite zslice_slice. unfold slice. apply andb_prop in El. destruct El as [El _]. apply Nat.leb_le in El. cbn [Nat.leb andb].
    destruct (Nat.leb_spec start (length num)); [|lia]. cbn [skipn]. rewrite Nat.sub_0_r. reflexivity.
Qed.

(** ** Scheme *)
Section Scheme.
  Variables (pf : bytes -> bool) (json : bytes).
  Hypothesis Hbytes : Forall (fun c => (c < 256)%N) json.

  Theorem Check_go_spec fuel keys : (length json < fuel)%nat -> (1 < fuel)%nat -> M.Check_go fuel keys json = match Check keys json with Ok r => Ret r | _ => Pan end.
  Proof.
    intros Hj H1. unfold M.Check_go, func. assert (K : forall ks i, returns ((M.range_from ks i (fun (_ : Z) k => call (fun _ => SplitGo.Get_go fuel json [k]) (fun r => if_ (fun _ => match snd r with Some _ => true | None => false end) (return_ (fun _ => false)) pass)) ;; return_ (fun _ => true)) tt) = match Check ks json with Ok r => Ret r | _ => Pan end).
    { induction ks as [|k ks IH]; intro i; [reflexivity|]. cbn [Check]. unfold then_. cbn [M.range_from]. unfold call at 1. rewrite Get_go_spec by (assumption || cbn [length]; lia).
      destruct (Get json [k]) as [v|e|]; cbn [told snd]; unfold if_, return_, pass; try reflexivity. specialize (IH (i + 1)). unfold then_ in IH. exact IH. }
    apply K.
  Qed.

  Lemma inner_loop {S R} (s : S) key keys : forall rest i fu, skipn i keys = rest -> (length rest < fu)%nat ->
    leave (for_ fu (fun s => Ok (snd s <? zlen keys)) (fun s => (fst s, snd s + 1)) (
            read (fun s => zat keys (snd s)) (fun k =>
            if_ (fun _ => bytes_eqb key k) (set_ (fun s => ((fst (fst s), true), snd s)) ;; break_) pass)) (s, false, Z.of_nat i)) =
    Nrm (s, in_scheme key rest) :> flow (S * bool) R.
  Proof.
    clear. induction rest as [|k r IH]; intros i fu Hi Hfu; (destruct fu as [|fu]; [lia|]); cbn [for_ snd]; unfold zlen at 1; rewrite zltb.
    - assert (length keys <= i)%nat by (rewrite <- (firstn_skipn i keys), Hi, app_nil_r, firstn_length; lia). destruct (Nat.ltb_spec i (length keys)); [lia|]. reflexivity.
    - destruct (elem_at _ _ _ _ Hi) as (Hz & Hs & Hlt). rewrite (proj2 (Nat.ltb_lt _ _) Hlt). cbn [length in_scheme] in *. specialize (IH (Datatypes.S i) fu Hs ltac:(lia)). hide fu.
      unfold read. cbn [snd]. rewrite (zat_elem _ _ _ Hz). unfold if_, then_, set_, break_, pass. destruct (bytes_eqb key k); cbn [fst snd]; [reflexivity|]. rewrite zsucc. exact IH.
  Qed.
  Lemma outer_loop keys ks fuel : (length keys < fuel)%nat -> forall rest i fu, skipn i ks = rest -> (length rest < fu)%nat ->
    returns (match leave (for_ fu (fun s => Ok (snd s <? zlen ks)) (fun s => (fst s, snd s + 1)) (
        var (fun _ => false) (
          read (fun s => zat ks (snd (fst s))) (fun key =>
          var (fun _ => 0) (for_ fuel (fun s => Ok (snd s <? zlen keys)) (fun s => (fst s, snd s + 1)) (
            read (fun s => zat keys (snd s)) (fun k =>
            if_ (fun _ => bytes_eqb key k) (set_ (fun s => ((fst (fst s), true), snd s)) ;; break_) pass)))) ;;
          if_ (fun s => negb (snd s)) (return_ (fun _ => false)) pass)) (tt, Z.of_nat i)) with Nrm s' => return_ (fun _ => true) s' | x => x end) = Ret (all_in rest keys).
  Proof.
    clear. intro Hk. induction rest as [|k r IH]; intros i fu Hi Hfu; (destruct fu as [|fu]; [lia|]); cbn [for_ snd]; unfold zlen at 1; rewrite zltb.
    - assert (length ks <= i)%nat by (rewrite <- (firstn_skipn i ks), Hi, app_nil_r, firstn_length; lia). destruct (Nat.ltb_spec i (length ks)); [lia|]. reflexivity.
    - destruct (elem_at _ _ _ _ Hi) as (Hz & Hs & Hlt). rewrite (proj2 (Nat.ltb_lt _ _) Hlt). cbn [length all_in] in *. specialize (IH (Datatypes.S i) fu Hs ltac:(lia)). hide fu.
      unfold var at 1. unfold then_ at 1. unfold read at 1. cbn [snd fst]. rewrite (zat_elem _ _ _ Hz). unfold var at 1.
      pose proof (@inner_loop _ bool (tt, Z.of_nat i) k keys keys 0 fuel eq_refl Hk) as K. change (Z.of_nat 0) with 0 in K. rewrite K. clear K.
      unfold if_, return_, pass. cbn [snd]. destruct (in_scheme k keys); cbn [negb leave fst snd]; [rewrite zsucc; exact IH|reflexivity].
  Qed.
  Theorem CheckAbs_go_spec fuel keys : (length json < fuel)%nat -> (length keys < fuel)%nat -> (1 < fuel)%nat -> M.CheckAbs_go fuel keys json = match CheckAbs keys json with Ok r => Ret r | _ => Pan end.
  Proof.
    intros Hj Hk H1. unfold M.CheckAbs_go, CheckAbs, func. unfold call at 1. rewrite GetKeys_go_spec by (assumption || cbn [length]; lia). destruct (GetKeys json []) as [ks|e|]; cbn [ListGoProofs.told]; cbv beta iota; try reflexivity.
    unfold then_ at 1, pass at 1. unfold then_ at 1, if_ at 1.
    change (zlen ks =? zlen keys) with (Z.of_nat (length ks) =? Z.of_nat (length keys)). rewrite zeqb. destruct (Nat.eqb_spec (length ks) (length keys)) as [E|E]; cbn [negb]; [|reflexivity].
    unfold pass at 1. unfold then_ at 1, var at 1. apply (outer_loop keys ks fuel Hk ks 0 fuel eq_refl). lia.
  Qed.

  (** *** Mutation: the texts grow, so the fuel that is enough depends on them *)
  Let small (x : bytes) : Prop := Forall (fun c => (c < 256)%N) x.
  Lemma small_first x i : small x -> small (firstn i x).
  Proof. clear. intro H. rewrite <- (firstn_skipn i x) in H. apply Forall_app in H. apply H. Qed.
  Lemma small_skip x i : small x -> small (skipn i x).
  Proof. clear. intro H. rewrite <- (firstn_skipn i x) in H. apply Forall_app in H. apply H. Qed.
  Lemma small_get k v : GetString json [k] = Ok v -> small v.
  Proof.
    unfold GetString, Get. destruct (core json false [k]) as [[[ks s] e]| |]; cbn [bind]; try discriminate. unfold slice. destruct (_ && _); [|discriminate]. intro E. injection E as <-.
    apply small_first, small_skip. exact Hbytes.
  Qed.
  Lemma small_quote x : small x -> small (quote x).
  Proof. clear. intro H. unfold quote. constructor; [reflexivity|]. apply Forall_app. split; [exact H|repeat constructor]. Qed.
  Lemma small_format x : small x -> small (formatType pf x).
  Proof.
    clear. intro H. unfold formatType. destruct x as [|c r]; [repeat constructor|]. cbv zeta. repeat match goal with |- context [if ?e then _ else _] => destruct e end; try exact H; apply small_quote; exact H.
  Qed.
  Lemma small_replace x y i j o : small x -> small y -> done_replace x y i j = Done o -> small o.
  Proof.
    clear. intros Hx Hy. unfold done_replace, pbind, replace. destruct (_ && _); [|discriminate]. intro K. injection K as <-. apply Forall_app. split; [apply small_first, Hx|]. apply Forall_app. split; [exact Hy|apply small_skip, Hx].
  Qed.
  Lemma small_add x k v path o : small x -> small k -> small v -> AddKeyValue x k (Some v) path = Done o -> small o.
  Proof.
    clear. intros Hx Hk Hv. assert (Hi : small ((34 :: k ++ [34; 58]) ++ v)%N).
    { apply Forall_app. split; [|exact Hv]. constructor; [reflexivity|]. apply Forall_app. split; [exact Hk|repeat constructor]. }
    unfold AddKeyValue. cbv zeta. destruct (_ <? 2)%nat; [discriminate|]. destruct (target_span _ _ _ _ _) as [[s e]| |]; cbn [ubind]; try discriminate.
    destruct (braces_at _ _ _ _ _) as [[|]| |]; cbn [pbind]; try discriminate. destruct (blank_between _ _ _); [apply small_replace; [exact Hx|exact Hi]|].
    destruct (core _ _ _) as [?|er|]; try discriminate. destruct (err_equal _ _); [|discriminate]. apply small_replace; [exact Hx|]. constructor; [reflexivity|exact Hi].
  Qed.
  Lemma add_fails x k v path o e : AddKeyValue x k v path = Fail o e -> o = Some x.
  Proof.
    clear. unfold AddKeyValue, done_replace. cbv zeta. unfold ubind, pbind. repeat match goal with |- context [match ?e with _ => _ end] => destruct e end; intro K; try discriminate K; injection K as <- _; reflexivity.
  Qed.
  Theorem AddKeyValueString_go_spec fuel j key value path : small j -> (length j < fuel)%nat -> (S (length path) < fuel)%nat ->
    M.AddKeyValueString_go pf fuel j key value path =
    match AddKeyValueString pf j key value path with Done o => Ret (Some o, None) | Fail o e => Ret (o, Some e) | UPanic => Pan end.
  Proof.
    intros Hj Hl Hp. unfold M.AddKeyValueString_go, AddKeyValueString, func. unfold then_ at 1, if_ at 1. destruct key as [|c r]; [reflexivity|]. replace (zlen (c :: r) =? 0) with false by reflexivity. unfold pass at 1.
    unfold call at 1. rewrite formatType_go_spec. unfold call at 1. rewrite (AddKeyValue_go_spec fuel j Hj Hl _ _ _ Hp). destruct (AddKeyValue j (c :: r) (Some (formatType pf value)) path) as [o|[o|] e|] eqn:E; try reflexivity. apply add_fails in E. discriminate E.
  Qed.
  Lemma small_addS x k v o : small x -> small k -> small v -> AddKeyValueString pf x k v [] = Done o -> small o.
  Proof. intros Hx Hk Hv. unfold AddKeyValueString. destruct k as [|c r]; [discriminate|]. apply small_add; [exact Hx|exact Hk|apply small_format, Hv]. Qed.
  Lemma failsS x k v o e : small x -> AddKeyValueString pf x k v [] = Fail o e -> o = None \/ o = Some x.
  Proof. intro Hx. unfold AddKeyValueString. destruct k as [|c r]; intro K; [injection K as <- _; left; reflexivity|]. right. eapply add_fails. exact K. Qed.

  Theorem MutateJsonAbs_go_spec keys : Forall small keys ->
    exists n, forall fuel, (n <= fuel)%nat -> M.MutateJsonAbs_go pf fuel keys json =
      match MutateJsonAbs pf keys json with Ok j => Ret (Some j, None) | Err e => Ret (None, Some e) | Panic => Pan end.
  Proof.
    intro Hk. unfold MutateJsonAbs, M.MutateJsonAbs_go, func, M.range_.
    enough (K : forall ks, Forall small ks -> forall new, small new -> exists n, forall fuel i, (n <= fuel)%nat ->
      M.range_from ks i (fun _ => M.mutate_abs_body pf fuel json) (Some new) = match mutate_abs pf json ks new with Ok j => Nrm (Some j) | Err e => Ret (None, Some e) | Panic => Pan end).
    { destruct (K keys Hk (b "{}") ltac:(repeat constructor)) as [n Hn]. exists n. intros fuel Hf. unfold then_ at 1. rewrite Hn by exact Hf. destruct (mutate_abs _ _ _ _); reflexivity. }
    clear keys Hk. induction ks as [|k ks IH]; intros Hks new Hnew; [exists 0%nat; reflexivity|]. apply Forall_cons_iff in Hks. destruct Hks as [Hk Hks].
    set (n0 := (length json + length new + 3)%nat).
    assert (B : forall fuel, (n0 <= fuel)%nat -> M.mutate_abs_body pf fuel json k (Some new) =
      match GetString json [k] with Ok val => match AddKeyValueString pf new k (formatType pf val) [] with Done new' => Nrm (Some new') | Fail _ e => Ret (None, Some e) | UPanic => Pan end | Err e => Ret (None, Some e) | Panic => Pan end).
    { intros fuel Hf. unfold M.mutate_abs_body. unfold call at 1. rewrite GetString_go_spec by (assumption || cbn [length]; lia). destruct (GetString json [k]) as [val|e|]; cbn [ListGoProofs.told]; cbv beta iota; try reflexivity.
      unfold then_ at 1, pass at 1. unfold call at 1. rewrite formatType_go_spec. unfold call at 1. rewrite AddKeyValueString_go_spec by (assumption || cbn [length]; lia). destruct (AddKeyValueString _ _ _ _ _) as [o|o e|]; reflexivity. }
    destruct (GetString json [k]) as [val|e|] eqn:Eg.
    2, 3: exists n0; intros fuel i Hf; cbn [M.range_from mutate_abs]; rewrite B, Eg by exact Hf; reflexivity.
    destruct (AddKeyValueString pf new k (formatType pf val) []) as [new'|o e|] eqn:Ea.
    2, 3: exists n0; intros fuel i Hf; cbn [M.range_from mutate_abs]; rewrite B, Eg by exact Hf; cbn [bind]; rewrite Ea; reflexivity.
    assert (Hn' : small new') by (eapply small_addS; [exact Hnew|exact Hk|apply small_format, (small_get _ _ Eg)|exact Ea]). destruct (IH Hks new' Hn') as [n Hn].
    exists (n0 + n)%nat. intros fuel i Hf. cbn [M.range_from mutate_abs]. rewrite B, Eg by lia. cbn [bind]. rewrite Ea. apply Hn. lia.
  Qed.
  Theorem MutateJson_go_spec keys : Forall small keys ->
    exists n, forall fuel, (n <= fuel)%nat -> M.MutateJson_go pf fuel keys json =
      match MutateJson pf keys json with Ok j => Ret (j, None) | Err e => Ret (None, Some e) | Panic => Pan end.
  Proof.
    intro Hk. unfold MutateJson, M.MutateJson_go, func, M.range_.
    enough (K : forall ks, Forall small ks -> forall new, small (match new with Some j => j | None => [] end) -> exists n, forall fuel i, (n <= fuel)%nat ->
      returns ((M.range_from ks i (fun _ => M.mutate_body pf fuel json) ;; return_ (fun new => (new, None))) new) = match mutate pf json ks new with Ok j => Ret (j, None) | Err e => Ret (None, Some e) | Panic => Pan end).
    { destruct (K keys Hk (Some (b "{}")) ltac:(repeat constructor)) as [n Hn]. exists n. intros fuel Hf. apply Hn. exact Hf. }
    clear keys Hk. unfold then_. induction ks as [|k ks IH]; intros Hks new Hnew; [exists 0%nat; reflexivity|]. apply Forall_cons_iff in Hks. destruct Hks as [Hk Hks].
    set (txt := match new with Some j => j | None => [] end) in *. set (n0 := (length json + length txt + 3)%nat).
    assert (B : forall fuel, (n0 <= fuel)%nat -> M.mutate_body pf fuel json k new =
      match GetString json [k] with
      | Ok val => match AddKeyValueString pf txt k (formatType pf val) [] with Done new' => Nrm (Some new') | Fail _ e => Ret (None, None) | UPanic => Pan end
      | Err _ => match AddKeyValueString pf txt k (formatType pf []) [] with Done new' => Nrm (Some new') | Fail o e => Nrm (match new with None => None | Some _ => o end) | UPanic => Pan end
      | Panic => Pan
      end).
    { assert (S1 : forall v o, AddKeyValueString pf txt k v [] = Done o -> M.same new (Some o) = Some o).
      { intros v o Eo. destruct new as [t|]; [reflexivity|]. exfalso. revert Eo. unfold AddKeyValueString, txt. destruct k; discriminate. }
      intros fuel Hf. unfold M.mutate_body. unfold call at 1. rewrite GetString_go_spec by (assumption || cbn [length]; lia). destruct (GetString json [k]) as [val|e|]; cbn [ListGoProofs.told]; cbv beta iota; try reflexivity;
        unfold call at 1; rewrite formatType_go_spec; unfold call at 1; fold txt; rewrite AddKeyValueString_go_spec by (assumption || cbn [length]; lia);
        destruct (AddKeyValueString _ _ _ _ _) as [o|o e'|] eqn:Ea; try reflexivity; unfold then_, set_; cbn [fst snd]; unfold pass; try rewrite (S1 _ _ Ea); try reflexivity.
      f_equal. unfold M.same. destruct new as [t|]; [destruct o; reflexivity|]. destruct (failsS _ _ _ _ _ Hnew Ea) as [-> | ->]; reflexivity. }
    assert (N : forall new', small (match new' with Some j => j | None => [] end) -> mutate pf json (k :: ks) new = mutate pf json ks new' -> (forall fuel, (n0 <= fuel)%nat -> M.mutate_body pf fuel json k new = Nrm new') ->
      exists n, forall fuel i, (n <= fuel)%nat -> returns (match M.range_from (k :: ks) i (fun _ => M.mutate_body pf fuel json) new with Nrm s' => return_ (fun new0 => (new0, None)) s' | x => x end) =
        match mutate pf json (k :: ks) new with Ok j => Ret (j, None) | Err e => Ret (None, Some e) | Panic => Pan end).
    { intros new' Hn' Em Hb. destruct (IH Hks new' Hn') as [n Hn]. exists (n0 + n)%nat. intros fuel i Hf. cbn [M.range_from]. rewrite Hb, Em by lia. apply Hn. lia. }
    destruct (GetString json [k]) as [val|e|] eqn:Eg.
    - destruct (AddKeyValueString pf txt k (formatType pf val) []) as [new'|o e|] eqn:Ea.
      + apply (N (Some new')); [eapply small_addS; [exact Hnew|exact Hk|apply small_format, (small_get _ _ Eg)|exact Ea]|cbn [mutate]; cbv zeta; fold txt; rewrite Eg, Ea; reflexivity|exact B].
      + exists n0; intros fuel i Hf; cbn [M.range_from mutate]; cbv zeta; fold txt; rewrite B, Eg, Ea by exact Hf; reflexivity.
      + exists n0; intros fuel i Hf; cbn [M.range_from mutate]; cbv zeta; fold txt; rewrite B, Eg, Ea by exact Hf; reflexivity.
    - destruct (AddKeyValueString pf txt k (formatType pf []) []) as [new'|o e'|] eqn:Ea.
      + apply (N (Some new')); [eapply small_addS; [exact Hnew|exact Hk|apply small_format; constructor|exact Ea]|cbn [mutate]; cbv zeta; fold txt; rewrite Eg, Ea; reflexivity|exact B].
      + apply (N (match new with None => None | Some _ => o end)); [|cbn [mutate]; cbv zeta; fold txt; rewrite Eg, Ea; reflexivity|exact B].
        destruct new as [t|]; [|constructor]. destruct (failsS _ _ _ _ _ Hnew Ea) as [-> | ->]; [constructor|exact Hnew].
      + exists n0; intros fuel i Hf; cbn [M.range_from mutate]; cbv zeta; fold txt; rewrite B, Eg, Ea by exact Hf; reflexivity.
    - exists n0; intros fuel i Hf; cbn [M.range_from mutate]; cbv zeta; fold txt; rewrite B, Eg by exact Hf; reflexivity.
  Qed.
End Scheme.
