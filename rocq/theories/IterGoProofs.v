(** The iterators and cleanValue statement by statement (IterGo.v) compute what the models in Iter.v compute. *)
From Coq Require Import String.
From Verif Require Import GoStd GoLang Core Iter.
From Verif Require CoreGo IterGo.
From Verif Require Import CoreGoProofs.

Local Open Scope Z_scope.
Module I := IterGo.

(** What a function returns, from the result of the model; an error is not expected *)
Definition value {A : Type} (r : res A) : flow unit A := match r with Ok a => Ret a | _ => Pan end.

Lemma zat_app {A} (u : list A) c w : zat (u ++ c :: w) (Z.of_nat (length u)) = Ok c.
Proof. rewrite zat_nth, nth_error_app2, Nat.sub_diag by lia. reflexivity. Qed.
Lemma zslice_app {A} (u t w : list A) : zslice (u ++ t ++ w) (Z.of_nat (length u)) (Z.of_nat (length u + length t)) = Ok t.
Proof.
  unfold zslice, zlen. rewrite !app_length.
  replace (Z.of_nat (length u) <? 0) with false by (symmetry; apply Z.ltb_ge; lia).
  replace (Z.of_nat (length u + length t) <? Z.of_nat (length u)) with false by (symmetry; apply Z.ltb_ge; lia).
  replace (Z.of_nat (length u + (length t + length w)) <? Z.of_nat (length u + length t)) with false by (symmetry; apply Z.ltb_ge; lia). cbn [orb].
  rewrite Nat2Z.id. replace (Z.to_nat (Z.of_nat (length u + length t) - Z.of_nat (length u))) with (length t) by lia.
  rewrite skipn_app, skipn_all, Nat.sub_diag. cbn [skipn app]. rewrite firstn_app, firstn_all, Nat.sub_diag. cbn [firstn]. rewrite app_nil_r. reflexivity.
Qed.
Lemma zslice_slice (x : bytes) i j : zslice x (Z.of_nat i) (Z.of_nat j) = slice x i j.
Proof.
  unfold zslice, slice, zlen. destruct (Z.ltb_spec (Z.of_nat i) 0); [lia|]. cbn [orb].
  destruct (Z.ltb_spec (Z.of_nat j) (Z.of_nat i)), (Nat.leb_spec i j); try lia; [reflexivity|]. cbn [orb andb].
  destruct (Z.ltb_spec (Z.of_nat (length x)) (Z.of_nat j)), (Nat.leb_spec j (length x)); try lia; [reflexivity|].
  rewrite Nat2Z.id. replace (Z.to_nat (Z.of_nat j - Z.of_nat i)) with (j - i)%nat by lia. reflexivity.
Qed.

Lemma window_spec (u t w : bytes) : t <> [] -> let x := u ++ t ++ w in
  I.is_quote x (Z.of_nat (length u)) = Ok (hd 0%N t =? 34)%N /\ I.is_quote x (Z.of_nat (length u + length t) - 1) = Ok (last t 0%N =? 34)%N /\
  zslice x (Z.of_nat (length u)) (Z.of_nat (length u + length t) - 1 + 1) = Ok t /\
  zslice x (Z.of_nat (length u) + 1) (Z.of_nat (length u + length t) - 1 - 1 + 1) = match t with _ :: (_ :: _) as r => Ok (removelast r) | _ => Panic end.
Proof.
  intros Hn x. unfold x. unfold I.is_quote. split; [|split; [|split]].
  - destruct t as [|c t]; [congruence|]. cbn [app]. rewrite zat_app. reflexivity.
  - destruct (exists_last Hn) as (t' & c & ->). rewrite <- app_assoc. cbn [app]. rewrite last_last, app_assoc.
    replace (Z.of_nat (length u + length (t' ++ [c])) - 1) with (Z.of_nat (length (u ++ t'))) by (rewrite !app_length; cbn [length]; lia). rewrite zat_app. reflexivity.
  - rewrite Z.sub_add. apply zslice_app.
  - rewrite Z.sub_add. destruct t as [|c [|d t]]; [congruence| |].
    + unfold zslice. cbn [length]. replace (Z.of_nat (length u + 1) - 1 <? Z.of_nat (length u) + 1) with true by (symmetry; apply Z.ltb_lt; lia). rewrite orb_true_r. reflexivity.
    + assert (Hd : d :: t <> []) by discriminate. destruct (exists_last Hd) as (r & l & Er). rewrite Er. rewrite removelast_last. cbn [app]. rewrite <- (app_assoc r).
      replace (u ++ c :: r ++ [l] ++ w) with ((u ++ [c]) ++ r ++ l :: w) by (rewrite <- app_assoc; reflexivity).
      replace (Z.of_nat (length u) + 1) with (Z.of_nat (length (u ++ [c]))) by (rewrite app_length; cbn [length]; lia).
      replace (Z.of_nat (length u + length (c :: r ++ [l])) - 1) with (Z.of_nat (length (u ++ [c]) + length r)) by (rewrite app_length; cbn [length]; rewrite app_length; cbn [length]; lia).
      apply zslice_app.
Qed.

(** ** cleanValue *)
Section Clean.
  Variables (fuel : nat) (str : bytes).
  Hypothesis Hstr : (length str < fuel)%nat.

  Lemma clean_front e : forall rest i fu, skipn i str = rest -> rest <> [] -> (length rest < fu)%nat ->
    leave (for_ fu (fun t => Ok (snd t <? zlen str - 1)) (fun t => (fst t, snd t + 1)) (
        read (fun t => zat str (snd t)) (fun c =>
        if_ (fun _ => negb (space c)) break_ pass ;;
        set_ (fun t : Z * Z * Z => let '(start, end_, i) := t in (start + 1, end_, i)))) (Z.of_nat i, e, Z.of_nat i)) =
    Nrm (Z.of_nat (length str - length (trim1 rest)), e) :> flow _ bytes.
  Proof.
    induction rest as [|c r IH]; intros i fu Hi Hn Hfu; [congruence|]. (destruct fu as [|fu]; [cbn in Hfu; lia|]); cbn [for_ snd fst].
    assert (Hl : (length str - i = S (length r))%nat) by (rewrite <- skipn_length, Hi; reflexivity).
    destruct r as [|d r].
    - replace (Z.of_nat i <? zlen str - 1) with false by (symmetry; unfold zlen; apply Z.ltb_ge; cbn [length] in Hl; lia).
      cbn [leave fst trim1 length]. cbn [length] in Hl. do 3 f_equal. lia.
    - replace (Z.of_nat i <? zlen str - 1) with true by (symmetry; unfold zlen; apply Z.ltb_lt; cbn [length] in Hl; lia).
      specialize (IH (S i) fu (skipn_more _ _ _ _ Hi) ltac:(discriminate) ltac:(cbn [length] in *; lia)). rewrite <- zsucc in IH.
      hide fu. unfold read, then_, if_, set_, pass, break_. cbn [snd fst]. rewrite zat_nth, skipn_nth, Hi. cbn [hd_error].
      change (trim1 (c :: d :: r)) with (if space c then trim1 (d :: r) else c :: d :: r). destruct (space c); cbn [negb]; [exact IH|].
      cbn [leave fst length] in *. do 3 f_equal. lia.
  Qed.
  Lemma clean_back : forall p u w fu, str = u ++ rev p ++ w -> p <> [] -> (length p < fu)%nat ->
    leave (for_ fu (fun t => Ok (snd t >? fst (fst t))) (fun t => (fst t, snd t - 1)) (
        read (fun t => zat str (snd t)) (fun c =>
        if_ (fun _ => negb (space c)) break_ pass ;;
        set_ (fun t : Z * Z * Z => let '(start, end_, i) := t in (start, end_ - 1, i)))) (Z.of_nat (length u), Z.of_nat (length u + length p) - 1, Z.of_nat (length u + length p) - 1)) =
    Nrm (Z.of_nat (length u), Z.of_nat (length u + length (trim1 p)) - 1) :> flow _ bytes.
  Proof.
    induction p as [|c p IH]; intros u w fu Hs Hn Hfu; [congruence|]. (destruct fu as [|fu]; [cbn in Hfu; lia|]); cbn [for_ snd fst].
    destruct p as [|d p].
    - cbn [length trim1]. replace (Z.of_nat (length u + 1) - 1 >? Z.of_nat (length u)) with false by (symmetry; rewrite Z.gtb_ltb; apply Z.ltb_ge; lia). reflexivity.
    - replace (Z.of_nat (length u + length (c :: d :: p)) - 1 >? Z.of_nat (length u)) with true by (symmetry; rewrite Z.gtb_ltb; apply Z.ltb_lt; cbn [length]; lia).
      specialize (IH u (c :: w) fu). cbn [length] in *. replace (Z.of_nat (length u + S (length p)) - 1) with (Z.of_nat (length u + S (S (length p))) - 1 - 1) in IH by lia.
      assert (Hs' : str = u ++ rev (d :: p) ++ c :: w) by (rewrite Hs; cbn [rev]; rewrite <- !app_assoc; reflexivity).
      specialize (IH Hs' ltac:(discriminate) ltac:(lia)).
      assert (Hat : zat str (Z.of_nat (length u + S (S (length p))) - 1) = Ok c).
      { rewrite Hs', app_assoc. replace (Z.of_nat (length u + S (S (length p))) - 1) with (Z.of_nat (length (u ++ rev (d :: p)))); [apply zat_app|].
        rewrite app_length, rev_length. cbn [length]. lia. }
      hide fu. unfold read, then_, if_, set_, pass, break_. cbn [snd fst]. rewrite Hat.
      change (trim1 (c :: d :: p)) with (if space c then trim1 (d :: p) else c :: d :: p). destruct (space c); cbn [negb]; [exact IH|].
      reflexivity.
  Qed.
  Lemma trimmed t : t <> [] -> exists u, t = u ++ trim1 t /\ trim1 t <> [].
  Proof.
    induction t as [|c r IH]; intro H; [congruence|]. destruct r as [|d r]; [exists []; split; [reflexivity|discriminate]|].
    destruct (IH ltac:(discriminate)) as (u & E & Hn). change (trim1 (c :: d :: r)) with (if space c then trim1 (d :: r) else c :: d :: r).
    destruct (space c); [|exists []; split; [reflexivity|discriminate]]. exists (c :: u). split; [cbn [app]; rewrite <- E; reflexivity|exact Hn].
  Qed.

  Theorem cleanValue_go_spec : I.cleanValue_go fuel str = value (cleanValue str).
  Proof.
    unfold I.cleanValue_go, func. assert (Hc : str = [] \/ str <> []) by (clear; destruct str; [left; reflexivity|right; discriminate]). destruct Hc as [->|Hn]; [reflexivity|].
    assert (Em : cleanValue str = let t := rev (trim1 (rev (trim1 str))) in
      if (hd 0%N t =? 34)%N && (last t 0%N =? 34)%N then match t with _ :: (_ :: _) as r => Ok (removelast r) | _ => Panic end else Ok t) by (clear - Hn; destruct str; [congruence|reflexivity]).
    rewrite Em. clear Em.
    destruct (trimmed str Hn) as (u & Eu & Hn1). destruct (trimmed (rev (trim1 str))) as (w & Ew & Hn2).
    { intro E. apply (f_equal (@rev N)) in E. rewrite rev_involutive in E. exact (Hn1 E). }
    set (p := trim1 (rev (trim1 str))) in *.
    assert (Es : str = u ++ rev p ++ rev w) by (rewrite Eu at 1; f_equal; rewrite <- rev_app_distr, <- Ew, rev_involutive; reflexivity).
    assert (Eul : length str = (length u + length (trim1 str))%nat) by (rewrite Eu at 1; apply app_length).
    assert (Eus : length u = (length str - length (trim1 str))%nat) by lia.
    unfold then_ at 1, if_ at 1. replace (zlen str =? 0) with false by (symmetry; unfold zlen; apply Z.eqb_neq; clear - Hn; destruct str; [congruence|cbn [length]; lia]).
    unfold pass at 1. unfold then_ at 1, var at 1. cbn [fst]. change 0 with (Z.of_nat 0) at 1 2.
    rewrite (clean_front (zlen str - 1) str 0 fuel eq_refl Hn Hstr). rewrite <- Eus.
    unfold then_ at 1, var at 1. cbn [snd].
    replace (zlen str - 1) with (Z.of_nat (length u + length (rev (trim1 str))) - 1) by (unfold zlen; rewrite rev_length, Eul; reflexivity).
    rewrite (clean_back (rev (trim1 str)) u [] fuel); [|rewrite app_nil_r, rev_involutive; exact Eu|intro E; apply (f_equal (@rev N)) in E; rewrite rev_involutive in E; exact (Hn1 E)|rewrite rev_length; lia].
    fold p. cbv zeta. remember (rev p) as t eqn:Et. rewrite <- (rev_length p), <- Et.
    assert (Hnt : t <> []) by (rewrite Et; intro E; apply (f_equal (@rev N)) in E; rewrite rev_involutive in E; exact (Hn2 E)).
    unfold then_, read, if_, set_, pass, return_. cbn [fst snd].
    destruct (window_spec u t (rev w) Hnt) as (W1 & W2 & W3 & W4). rewrite <- Es in *. unfold I.and_also. rewrite W1. cbn [bind].
    destruct (hd 0 t =? 34)%N; cbn [andb bind].
    - rewrite W2. destruct (last t 0 =? 34)%N; cbn [fst snd].
      + rewrite W4. destruct t as [|c [|d t]]; reflexivity.
      + rewrite W3. reflexivity.
    - cbn [fst snd]. rewrite W3. reflexivity.
  Qed.

  Lemma string_front e : forall rest i fu, skipn i str = rest -> rest <> [] -> (length rest < fu)%nat ->
    for_ fu (fun s => do c <- zat str (fst s); Ok (space c && (fst s <? zlen str - 1))) (fun s => s) (set_ (fun s : Z * Z => (fst s + 1, snd s))) (Z.of_nat i, e) =
    Nrm (Z.of_nat (length str - length (trim1 rest)), e) :> flow _ bytes.
  Proof.
    induction rest as [|c r IH]; intros i fu Hi Hn Hfu; [congruence|]. (destruct fu as [|fu]; [cbn in Hfu; lia|]); cbn [for_ snd fst].
    assert (Hl : (length str - i = S (length r))%nat) by (rewrite <- skipn_length, Hi; reflexivity).
    rewrite zat_nth, skipn_nth, Hi. cbn [hd_error bind]. destruct r as [|d r].
    - replace (Z.of_nat i <? zlen str - 1) with false by (symmetry; unfold zlen; apply Z.ltb_ge; cbn [length] in Hl; lia). rewrite andb_false_r.
      cbn [leave fst trim1 length]. cbn [length] in Hl. do 3 f_equal. lia.
    - replace (Z.of_nat i <? zlen str - 1) with true by (symmetry; unfold zlen; apply Z.ltb_lt; cbn [length] in Hl; lia). rewrite andb_true_r.
      specialize (IH (S i) fu (skipn_more _ _ _ _ Hi) ltac:(discriminate) ltac:(cbn [length] in *; lia)). rewrite <- zsucc in IH.
      hide fu. unfold set_. cbn [fst snd].
      change (trim1 (c :: d :: r)) with (if space c then trim1 (d :: r) else c :: d :: r). destruct (space c); [exact IH|].
      cbn [leave fst length] in *. do 3 f_equal. lia.
  Qed.
  Lemma string_back st : forall e fu, (e < length str)%nat -> (e < fu)%nat ->
    for_ fu (fun s => do c <- zat str (snd s); Ok (space c && (snd s >? 1))) (fun s => s) (set_ (fun s : Z * Z => (fst s, snd s - 1))) (st, Z.of_nat e) =
    Nrm (st, Z.of_nat (cvs_end str e)) :> flow _ bytes.
  Proof.
    induction e as [|e IH]; intros fu He Hfu; (destruct fu as [|fu]; [lia|]); cbn [for_ snd fst]; rewrite zat_nth, (nth_error_nth' str 0%N) by lia; cbn [bind].
    - rewrite andb_false_r. reflexivity.
    - destruct e as [|e].
      + rewrite andb_false_r. reflexivity.
      + replace (Z.of_nat (S (S e)) >? 1) with true by (symmetry; rewrite Z.gtb_ltb; apply Z.ltb_lt; lia). rewrite andb_true_r.
        specialize (IH fu ltac:(lia) ltac:(lia)). replace (Z.of_nat (S e)) with (Z.of_nat (S (S e)) - 1) in IH by lia. hide fu. unfold set_. cbn [fst snd].
        change (cvs_end str (S (S e))) with (if space (nth (S (S e)) str 0%N) then cvs_end str (S e) else S (S e)). destruct (space (nth (S (S e)) str 0%N)); [exact IH|reflexivity].
  Qed.
  Lemma cvs_le e : (cvs_end str e <= e)%nat.
  Proof. induction e as [|[|e] IH]; cbn [cvs_end]; try lia. destruct (space (nth (S (S e)) str 0%N)); [|lia]. etransitivity; [exact IH|lia]. Qed.

  Theorem cleanValueString_go_spec : I.cleanValueString_go fuel str = value (cleanValueString str).
  Proof.
    unfold I.cleanValueString_go, func. assert (Hc : str = [] \/ str <> []) by (clear; destruct str; [left; reflexivity|right; discriminate]).
    destruct Hc as [E0|Hn].
    { assert (Hf : (0 < fuel)%nat) by lia. rewrite E0. clear - Hf. destruct fuel; [lia|]. reflexivity. }
    assert (Em : cleanValueString str = let start := (length str - length (trim1 str))%nat in let e := cvs_end str (pred (length str)) in
      if (nth start str 0 =? 34)%N && (nth e str 0 =? 34)%N then slice str (S start) e else slice str start (S e)) by (clear - Hn; destruct str; [congruence|reflexivity]).
    rewrite Em. clear Em. cbv zeta.
    assert (Hpos : (1 <= length str)%nat) by (clear - Hn; destruct str; [congruence|cbn [length]; lia]).
    destruct (trimmed str Hn) as (u & Eu & Hn1).
    assert (Hpos1 : (1 <= length (trim1 str))%nat) by (clear - Hn1; destruct (trim1 str); [congruence|cbn [length]; lia]).
    unfold then_ at 1. change (0, 0) with (Z.of_nat 0, 0). rewrite (string_front 0 str 0 fuel eq_refl Hn Hstr).
    unfold then_ at 1. unfold set_ at 1. unfold then_ at 1. cbn [fst].
    replace (zlen str - 1) with (Z.of_nat (pred (length str))) by (unfold zlen; lia). rewrite string_back by lia.
    pose proof (cvs_le (pred (length str))) as Hle. set (e := cvs_end str (pred (length str))) in *. set (st := (length str - length (trim1 str))%nat) in *.
    unfold then_, read, if_, set_, pass, return_, I.and_also, I.is_quote. cbn [fst snd].
    rewrite !zat_nth, !(nth_error_nth' str 0%N) by lia. cbn [bind].
    replace (Z.of_nat e - 1 + 1) with (Z.of_nat e) by lia. rewrite !zsucc.
    destruct (nth st str 0 =? 34)%N; cbn [andb]; [destruct (nth e str 0 =? 34)%N|]; cbn [fst snd]; rewrite ?zsucc, ?zslice_slice.
    - replace (Z.of_nat e - 1 + 1) with (Z.of_nat e) by lia. rewrite zslice_slice. unfold slice. destruct ((S st <=? e)%nat && (e <=? length str)%nat); reflexivity.
    - unfold slice. destruct ((st <=? S e)%nat && (S e <=? length str)%nat); reflexivity.
    - unfold slice. destruct ((st <=? S e)%nat && (S e <=? length str)%nat); reflexivity.
  Qed.
End Clean.

(** ** IterateArray *)
Section Iterate.
  Context {St : Type}.
  Variables (fuel : nat) (json : bytes) (path : list bytes).
  Hypothesis Hbytes : Forall (fun c => (c < 256)%N) json.
  Hypothesis Hjson : (length json < fuel)%nat.
  Hypothesis Hpath : (length path < fuel)%nat.
  Definition ended (r : itres St) : flow unit (@I.out St) := match r with IDone s e => Ret (s, e) | IPanic => Pan end.

  Lemma F6_get c : (c < 256)%N -> zat (I.flags [34; 44; 91; 93; 123; 125]%N) (Z.of_N c) = Ok (among [34; 44; 91; 93; 123; 125]%N c).
  Proof. apply table_get; vm_compute; reflexivity. Qed.
  Lemma F7_get c : (c < 256)%N -> zat (I.flags [34; 44; 58; 91; 93; 123; 125]%N) (Z.of_N c) = Ok (among [34; 44; 58; 91; 93; 123; 125]%N c).
  Proof. apply table_get; vm_compute; reflexivity. Qed.

  Lemma rem2 p m : (m < p)%nat -> negb (Z.rem (Z.of_nat p - Z.of_nat m) 2 =? 0) = Nat.odd (p - m).
  Proof. exact (rem_odd_spec p m). Qed.
  Lemma firstn_S m c : nth_error json m = Some c -> firstn (S m) json = firstn m json ++ [c].
  Proof. clear. revert m. induction json as [|d x IHx]; intros [|m] Ec; try discriminate Ec; cbn in *; [congruence|]. rewrite IHx by exact Ec. reflexivity. Qed.

  Lemma look1 (s y : @I.ia St * Z) p : snd s = Z.of_nat p -> (p <= length json)%nat -> y = I.i_to_inQuote (negb (I.i_inQuote (fst s))) s ->
    leave (for_ fuel (fun t => Ok (snd t >? 0)) (fun t => (fst t, snd t - 1)) (
      read (fun t => zat json (snd t)) (fun c =>
      if_ (fun _ => (c =? 92)%N) continue_ pass ;;
      if_ (fun t => negb (Z.rem (snd (fst t) - snd t) 2 =? 0)) (set_ (fun t => (I.i_to_inQuote (negb (I.i_inQuote (fst (fst t)))) (fst t), snd t)) ;; goto_) pass ;;
      break_)) (s, Z.of_nat p - 1)) = (if closes1 json p then Gto y else Nrm s) :> flow _ (@I.out St).
  Proof.
    intros Hs Hp Hy. unfold closes1.
    enough (K : forall m fu, (m <= p)%nat -> (m < fu)%nat ->
      leave (for_ fu (fun t => Ok (snd t >? 0)) (fun t => (fst t, snd t - 1)) (
        read (fun t => zat json (snd t)) (fun c =>
        if_ (fun _ => (c =? 92)%N) continue_ pass ;;
        if_ (fun t => negb (Z.rem (snd (fst t) - snd t) 2 =? 0)) (set_ (fun t => (I.i_to_inQuote (negb (I.i_inQuote (fst (fst t)))) (fst t), snd t)) ;; goto_) pass ;;
        break_)) (s, Z.of_nat m - 1)) =
      (if match qback (rev (skipn 1 (firstn m json))) (Nat.odd (p - m)) with Some true => true | _ => false end then Gto y else Nrm s) :> flow _ (@I.out St)).
    { specialize (K p fuel (Nat.le_refl p)). rewrite Nat.sub_diag in K. apply K. lia. }
    induction m as [|m IH]; intros fu Hm Hfu; (destruct fu as [|fu]; [lia|]); cbn [for_ snd fst].
    - reflexivity.
    - replace (Z.of_nat (Datatypes.S m) - 1) with (Z.of_nat m) by lia. destruct m as [|m].
      { assert (E : skipn 1 (firstn 1 json) = []) by (clear; destruct json; reflexivity). rewrite E. reflexivity. }
      replace (Z.of_nat (S m) >? 0) with true by (symmetry; apply Z.gtb_lt; lia).
      destruct (nth_error json (S m)) as [c|] eqn:Ec; [|apply nth_error_None in Ec; lia].
      rewrite (firstn_S _ _ Ec). rewrite skipn_app. replace (1 - length (firstn (S m) json))%nat with 0%nat by (rewrite firstn_length; lia).
      cbn [skipn]. change (match firstn (S m) json with [] => [] | _ :: l => l end) with (skipn 1 (firstn (S m) json)). rewrite rev_app_distr. cbn [rev app qback].
      specialize (IH fu). hide fu. unfold read. cbn [snd]. rewrite zat_nth, Ec. unfold then_, if_. destruct (c =? 92)%N.
      + unfold continue_. rewrite <- odd_step by lia. cbn [fst snd]. apply IH; lia.
      + unfold pass, set_, goto_, break_. cbn [fst snd]. rewrite Hs, rem2 by lia. rewrite (odd_step p (S m)) by lia.
        destruct (Nat.odd (p - S (S m))); cbn [negb leave fst]; [reflexivity|]. rewrite Hy. reflexivity.
  Qed.

  Definition arr_fin (r : flow (@I.ia St) (@I.out St)) : flow unit (@I.out St) :=
    match r with Nrm s => Ret (I.i_st s, Some (G.bad (I.i_start s))) | Ret r => Ret r | Out => Out | _ => Pan end.
  Lemma slice_len (x : bytes) i j v : slice x i j = Ok v -> (length v <= length x)%nat.
  Proof. unfold slice. destruct ((i <=? j)%nat && (j <=? length x)%nat); [|discriminate]. intro H. injection H as <-. rewrite firstn_length, skipn_length. lia. Qed.
  Lemma slice_res (x : bytes) i j : (exists v, slice x i j = Ok v) \/ slice x i j = Panic.
  Proof. unfold slice. destruct ((i <=? j)%nat && (j <=? length x)%nat); [left; eexists; reflexivity|right; reflexivity]. Qed.
  Lemma clean_res v : (exists w, cleanValue v = Ok w) \/ cleanValue v = Panic.
  Proof.
    unfold cleanValue. destruct v as [|c v]; [left; eexists; reflexivity|].
    destruct ((hd 0 (rev (trim1 (rev (trim1 (c :: v))))) =? 34)%N && (last (rev (trim1 (rev (trim1 (c :: v))))) 0 =? 34)%N); [|left; eexists; reflexivity].
    destruct (rev (trim1 (rev (trim1 (c :: v))))) as [|x [|y r]]; [right; reflexivity|right; reflexivity|left; eexists; reflexivity].
  Qed.

  Lemma array_loop cb : forall rest i fu start lv inq (s : St), skipn i json = rest -> (length rest < fu)%nat ->
    arr_fin (leave (for_ fu (fun s => Ok (snd s <? zlen json)) (fun s => (fst s, snd s + 1)) (I.array_body fuel json cb)
      (I.Ia s (Z.of_nat start) inq (Z.of_nat lv - 1), Z.of_nat i))) =
    ended (iter_arr json (closes1 json) cb rest i start lv inq s).
  Proof.
    induction rest as [|c r IH]; intros i fu start lv inq s Hi Hfu; (destruct fu as [|fu]; [cbn in Hfu; lia|]); cbn [for_ snd fst].
    - destruct (there fuel json path Hjson Hpath i Hi) as (-> & _). cbn [leave fst arr_fin I.i_st I.i_start iter_arr ended]. unfold G.bad. rewrite Nat2Z.id. reflexivity.
    - destruct (here fuel json path Hbytes Hjson Hpath i c r Hi) as (Hat & -> & Hr & Hlt & Hc). cbn [length] in Hfu.
      assert (IH' : forall start lv inq s, arr_fin (leave (for_ fu (fun s => Ok (snd s <? zlen json)) (fun s => (fst s, snd s + 1)) (I.array_body fuel json cb)
        (I.Ia s (Z.of_nat start) inq (Z.of_nat lv - 1), Z.of_nat i + 1))) = ended (iter_arr json (closes1 json) cb r (S i) start lv inq s)).
      { intros. rewrite zsucc. apply IH; [exact Hr|lia]. }
      clear IH. hide fu. unfold I.array_body. unfold read at 1. cbn [snd fst]. rewrite Hat. unfold read at 1. rewrite (F6_get c Hc). cbn [iter_arr].
      assert (CB : forall k ki, (forall st go e, arr_fin (leave match k go e (I.Ia st (Z.of_nat start) inq (Z.of_nat lv - 1), Z.of_nat i) with
            | Nrm s' | Cnt s' => loop (fst s', snd s' + 1) | Brk s' => Nrm s' | Gto s' => Gto s' | Ret r0 => Ret r0 | Pan => Pan | Out => Out end) = ended (ki st go e)) ->
          arr_fin (leave match read (fun s => zslice json (I.i_start (fst s)) (snd s)) (fun v => call (fun _ => I.cleanValue_go fuel v) (fun v => fun s =>
            let '(st, (keepGoing, innerError)) := cb (I.i_st (fst s)) v in k keepGoing innerError (I.i_to_st st s))) (I.Ia s (Z.of_nat start) inq (Z.of_nat lv - 1), Z.of_nat i) with
            | Nrm s' | Cnt s' => loop (fst s', snd s' + 1) | Brk s' => Nrm s' | Gto s' => Gto s' | Ret r0 => Ret r0 | Pan => Pan | Out => Out end) =
          ended (ibind s (slice json start i) (fun v => ibind s (cleanValue v) (fun v => let '(s', (go, e)) := cb s v in ki s' go e)))).
      { intros k ki Hk. unfold read, call. cbn [fst snd I.i_start I.i_st]. rewrite zslice_slice.
        destruct (slice_res json start i) as [(v & Ev)|Ev]; rewrite Ev; cbn [ibind]; [|reflexivity].
        rewrite cleanValue_go_spec by (apply slice_len in Ev; lia). destruct (clean_res v) as [(w & Ew)|Ew]; rewrite Ew; cbn [value ibind]; [|reflexivity].
        destruct (cb s w) as [st [go e]]. apply Hk. }
      unfold then_, if_, set_, pass, continue_, break_, label, return_, var.
      Local Ltac inorm := cbn [among existsb N.eqb Pos.eqb orb andb negb fst snd leave arr_fin I.i_st I.i_start I.i_inQuote I.i_level is_open is_close I.i_to_st I.i_to_start I.i_to_inQuote I.i_to_level].
      inorm.
      destruct (N.eqb_spec c 34) as [->|H34].
      { inorm. destruct inq; inorm; [|apply IH'].
        match goal with |- context [leave (for_ fuel ?cd ?ps ?bd ?x)] => assert (E : leave (for_ fuel cd ps bd x) =
          (if closes1 json i then @Gto _ (@I.out St) (I.Ia s (Z.of_nat start) false (Z.of_nat lv - 1), Z.of_nat i) else Nrm (I.Ia s (Z.of_nat start) true (Z.of_nat lv - 1), Z.of_nat i))) end.
        { refine (look1 (I.Ia s (Z.of_nat start) true (Z.of_nat lv - 1), Z.of_nat i) _ i eq_refl _ _); [lia|reflexivity]. }
        rewrite E. clear E. destruct (closes1 json i); inorm; apply IH'. }
      destruct inq.
      { inorm. match goal with |- context [if negb ?x then Cnt _ else Nrm _] => destruct x end; inorm; apply IH'. }
      destruct (N.eqb_spec c 91) as [->|H91]; [|destruct (N.eqb_spec c 123) as [->|H123]].
      1, 2: inorm; replace (Z.of_nat lv - 1 + 1) with (Z.of_nat (S lv) - 1) by lia; apply IH'.
      destruct (N.eqb_spec c 93) as [->|H93]; [|destruct (N.eqb_spec c 125) as [->|H125]].
      { inorm. destruct lv as [|lv]; [reflexivity|]. replace (Z.of_nat (S lv) - 1 <? 0) with false by (symmetry; apply Z.ltb_ge; lia). inorm.
        change (S lv =? 0)%nat with false. cbv iota. destruct lv as [|lv].
        - change (Z.of_nat 1 - 1 =? 0) with true. change (1 =? 1)%nat with true. cbv iota.
          rewrite <- (CB (fun _ e s => Ret (I.i_st (fst s), e)) (fun st _ e => IDone st e)) by reflexivity.
          unfold read, call. cbn [fst snd I.i_start I.i_st]. destruct (zslice json (Z.of_nat start) (Z.of_nat i)); try reflexivity.
          destruct (I.cleanValue_go fuel a) as [| | | |w| |]; try reflexivity. destruct (cb s w) as [st [go e]]. reflexivity.
        - replace (Z.of_nat (S (S lv)) - 1 =? 0) with false by (symmetry; apply Z.eqb_neq; lia). change (S (S lv) =? 1)%nat with false. inorm. cbv iota.
          replace (Z.of_nat (S (S lv)) - 1 - 1) with (Z.of_nat (pred (S (S lv))) - 1) by lia. apply IH'. }
      { inorm. destruct lv as [|lv]; [reflexivity|]. replace (Z.of_nat (S lv) - 1 <? 0) with false by (symmetry; apply Z.ltb_ge; lia). inorm.
        change (S lv =? 0)%nat with false. cbv iota. replace (Z.of_nat (S lv) - 1 - 1) with (Z.of_nat (pred (S lv)) - 1) by lia. apply IH'. }
      destruct (N.eqb_spec c 44) as [->|H44].
      { inorm. replace (Z.of_nat lv - 1 =? 0) with (lv =? 1)%nat by (destruct (Nat.eqb_spec lv 1); symmetry; [apply Z.eqb_eq|apply Z.eqb_neq]; lia).
        destruct (lv =? 1)%nat; inorm; [|apply IH'].
        rewrite <- (CB (fun go e s => match e with Some e => Ret (I.i_st (fst s), Some e) | None => if go then Cnt (I.i_to_start (snd s + 1) s) else Ret (I.i_st (fst s), None) end)
          (fun s' go e => match e with Some e => IDone s' (Some e) | None => if go : bool then iter_arr json (closes1 json) cb r (S i) (S i) lv false s' else IDone s' None end)).
        - unfold read, call. cbn [fst snd I.i_start I.i_st]. destruct (zslice json (Z.of_nat start) (Z.of_nat i)); try reflexivity.
          destruct (I.cleanValue_go fuel a) as [| | | |w| |]; try reflexivity. destruct (cb s w) as [st [go [e|]]]; [reflexivity|]. destruct go; reflexivity.
        - intros st go [e|]; [reflexivity|]. destruct go; [|reflexivity]. inorm. rewrite (zsucc i) at 1. apply IH'. }
      apply N.eqb_neq in H34, H44, H91, H123, H93, H125. unfold is_open, is_close. rewrite ?H34, ?H44, ?H91, ?H123, ?H93, ?H125. inorm. rewrite andb_false_r. apply IH'.
  Qed.

  Lemma front_loop (s : St) q l : forall rest i fu, skipn i json = rest -> (length rest < fu)%nat ->
    for_ fu (fun s => do c <- zat json (I.i_start s); Ok (space c)) (fun s => s) (
       if_ (fun s => I.i_start s >? zlen json - 2) (return_ (fun s => (I.i_st s, Some (G.bad (I.i_start s))))) pass ;;
       set_ (fun s => fst (I.i_to_start (I.i_start s + 1) (s, 0))) ;;
       continue_) (I.Ia s (Z.of_nat i) q l) =
    match skip_space_last rest i with Ok o => Nrm (I.Ia s (Z.of_nat o) q l) | Err e => Ret (s, Some e) | Panic => Pan end.
  Proof.
    induction rest as [|c r IH]; intros i fu Hi Hfu; (destruct fu as [|fu]; [cbn in Hfu; lia|]); cbn [for_ I.i_start].
    - destruct (there fuel json path Hjson Hpath i Hi) as (_ & ->). reflexivity.
    - destruct (here fuel json path Hbytes Hjson Hpath i c r Hi) as (Hat & _ & Hr & Hlt & _). cbn [length] in Hfu. specialize (IH (S i) fu Hr ltac:(lia)). rewrite <- zsucc in IH.
      rewrite Hat. cbn [bind skip_space_last]. destruct (space c); [|reflexivity]. hide fu. unfold then_, if_, set_, pass, continue_, return_. cbn [I.i_start].
      assert (Hl : (length json - i = S (length r))%nat) by (rewrite <- skipn_length, Hi; reflexivity). destruct r as [|d r]; cbn [length] in Hl.
      + replace (Z.of_nat i >? zlen json - 2) with true by (symmetry; rewrite Z.gtb_ltb; apply Z.ltb_lt; unfold zlen; lia). cbn [I.i_st]. unfold G.bad. rewrite Nat2Z.id. reflexivity.
      + replace (Z.of_nat i >? zlen json - 2) with false by (symmetry; rewrite Z.gtb_ltb; apply Z.ltb_ge; unfold zlen; lia). exact IH.
  Qed.

  Lemma nil_match {A B} (l : list A) (x y : B) : match l with [] => x | _ => y end = if (length l =? 0)%nat then x else y.
  Proof. destruct l; reflexivity. Qed.
  Theorem IterateArray_go_spec cb (s : St) : I.IterateArray_go fuel json cb path s = ended (IterateArray json cb path s).
  Proof.
    unfold I.IterateArray_go, IterateArray, func. unfold then_ at 1, if_ at 1. cbn [I.i_st].
    replace ((zlen json =? 0) || (zlen json =? 1)) with (length json <? 2)%nat.
    2: { unfold zlen. destruct (Nat.ltb_spec (length json) 2) as [H2|H2]; symmetry; [|apply orb_false_intro; apply Z.eqb_neq; lia].
         destruct (length json) as [|[|n]]; [reflexivity|reflexivity|lia]. }
    destruct (length json <? 2)%nat; [reflexivity|]. unfold pass at 1. unfold then_ at 1, if_ at 1.
    change 2 with (Z.of_nat 2) at 1. unfold zlen at 1. rewrite zeqb. destruct (length json =? 2)%nat.
    { unfold then_, if_, pass, return_. destruct (bytes_eqb json (b "[]")); reflexivity. }
    unfold pass at 1. unfold then_ at 1.
    set (rest := then_ (read _ _) _).
    enough (K : forall start, returns (rest (I.Ia s (Z.of_nat start) false 0)) = ended (ibind s (at_ json start) (fun c =>
      if (c =? 91)%N then iter_arr json (closes1 json) cb (skipn (S start) json) (S start) (S start) 1 false s else IDone s (Some EArrayExpected)))).
    { unfold if_ at 1. change 0 with (Z.of_nat 0) at 1. unfold zlen at 1. rewrite zeqb, nil_match. destruct (length path =? 0)%nat.
      - pose proof (front_loop s false 0 json 0 fuel eq_refl Hjson) as F. change (Z.of_nat 0) with 0 in F. rewrite F. clear F. destruct (skip_space_last json 0) as [o|e|]; cbn [ibind]; [apply K|reflexivity|reflexivity].
      - unfold call. rewrite core_go_as_core by assumption. destruct (core json true path) as [[[[ks|] st] en]|e|]; cbn [bind ibind returns]; try reflexivity; apply K. }
    intro start. unfold rest, then_, read, if_, set_, pass, return_. cbn [I.i_start I.i_st]. rewrite at_zat.
    destruct (at_ json start) as [c|e|] eqn:Ec; cbn [ibind]; try reflexivity. 2: { unfold at_ in Ec. destruct (nth_error json start); discriminate Ec. }
    destruct (c =? 91)%N; cbn [negb]; [|reflexivity]. rewrite <- (array_loop cb (skipn (S start) json) (S start) fuel (S start) 1 false s eq_refl) by (rewrite skipn_length; lia).
    unfold var. cbn [I.i_to_start fst I.i_start I.i_st I.i_inQuote I.i_level]. rewrite <- zsucc. change (Z.of_nat 1 - 1) with 0.
    match goal with |- context [leave ?x] => destruct x as [| | | | | |] end; reflexivity.
  Qed.

  (** ** IterateKeyValue *)
  Definition kvs (s : St) (start : nat) (e : Z) (ks ke : nat) (q : bool) (l : Z) (k : bytes) (i : nat) : @I.kv St * Z :=
    (I.Kv s (Z.of_nat start) e (Z.of_nat ks) (Z.of_nat ke) q l k, Z.of_nat i).
  Lemma find_start_spec s start e ks ke q l k i : (i <= length json)%nat ->
    I.find_start fuel json (kvs s start e ks ke q l k i) = Nrm (kvs s (fwd_trim json start i) e ks ke q l k i).
  Proof.
    intro Hi. unfold I.find_start, var, fwd_trim. change (I.v_start (fst (kvs s start e ks ke q l k i))) with (Z.of_nat start).
    enough (K : forall n j fu, (i - j = n)%nat -> (n < fu)%nat -> leave (for_ fu (fun t => Ok (snd t <? snd (fst t))) (fun t => (fst t, snd t + 1)) (
        read (fun t => zat json (snd t)) (fun c =>
        if_ (fun _ => negb (space c)) (set_ (fun t => (I.v_to_start (snd t) (fst t), snd t)) ;; break_) pass)) (kvs s start e ks ke q l k i, Z.of_nat j)) =
      Nrm (kvs s (match find (fun j => negb (space (nth j json 0%N))) (List.seq j n) with Some j => j | None => start end) e ks ke q l k i) :> flow _ (@I.out St)).
    { apply K; [reflexivity|lia]. }
    induction n as [|n IH]; intros j fu Hj Hfu; (destruct fu as [|fu]; [lia|]); cbn [for_ fst snd]; change (snd (kvs s start e ks ke q l k i)) with (Z.of_nat i).
    - replace (Z.of_nat j <? Z.of_nat i) with false by (symmetry; apply Z.ltb_ge; lia). reflexivity.
    - replace (Z.of_nat j <? Z.of_nat i) with true by (symmetry; apply Z.ltb_lt; lia). specialize (IH (S j) fu ltac:(lia) ltac:(lia)). rewrite <- zsucc in IH.
      hide fu. unfold read, then_, if_, set_, pass, break_. cbn [fst snd List.seq find]. rewrite zat_nth, (nth_error_nth' json 0%N) by lia.
      destruct (negb (space (nth j json 0%N))); [reflexivity|exact IH].
  Qed.
  Lemma find_end_spec s start e ks ke q l k i lo L : (i <= length json)%nat -> (forall e, lo (kvs s start e ks ke q l k i) = Z.of_nat L - 1) ->
    I.find_end fuel json lo (kvs s start (Z.of_nat e) ks ke q l k i) = Nrm (kvs s start (Z.of_nat (back_trim json L i e)) ks ke q l k i).
  Proof.
    intros Hi Hlo. unfold I.find_end, var, back_trim. change (snd (kvs s start (Z.of_nat e) ks ke q l k i)) with (Z.of_nat i).
    enough (K : forall m fu, (m <= i)%nat -> (m < fu)%nat -> leave (for_ fu (fun t => Ok (snd t >? lo (fst t))) (fun t => (fst t, snd t - 1)) (
        read (fun t => zat json (snd t)) (fun c =>
        if_ (fun _ => negb (space c)) (set_ (fun t => (I.v_to_end (snd t) (fst t), snd t)) ;; break_) pass)) (kvs s start (Z.of_nat e) ks ke q l k i, Z.of_nat m - 1)) =
      Nrm (kvs s start (Z.of_nat (match find (fun j => negb (space (nth j json 0%N))) (rev (List.seq L (m - L))) with Some j => j | None => e end)) ks ke q l k i) :> flow _ (@I.out St)).
    { apply K; lia. }
    induction m as [|m IH]; intros fu Hm Hfu; (destruct fu as [|fu]; [lia|]); cbn [for_ fst snd]; rewrite Hlo.
    - replace (Z.of_nat 0 - 1 >? Z.of_nat L - 1) with false by (symmetry; rewrite Z.gtb_ltb; apply Z.ltb_ge; lia). reflexivity.
    - destruct (Nat.le_gt_cases L m) as [HL|HL].
      + replace (Z.of_nat (S m) - 1 >? Z.of_nat L - 1) with true by (symmetry; rewrite Z.gtb_ltb; apply Z.ltb_lt; lia).
        replace (S m - L)%nat with (S (m - L)) by lia. rewrite seq_S, rev_app_distr. cbn [rev app find]. replace (L + (m - L))%nat with m by lia.
        specialize (IH fu ltac:(lia) ltac:(lia)). replace (Z.of_nat (S m) - 1) with (Z.of_nat m) by lia.
        hide fu. unfold read, then_, if_, set_, pass, break_. cbn [fst snd]. rewrite zat_nth, (nth_error_nth' json 0%N) by lia.
        destruct (negb (space (nth m json 0%N))); [reflexivity|exact IH].
      + replace (Z.of_nat (S m) - 1 >? Z.of_nat L - 1) with false by (symmetry; rewrite Z.gtb_ltb; apply Z.ltb_ge; lia). replace (S m - L)%nat with 0%nat by lia. reflexivity.
  Qed.
  Definition kv_fin (r : flow (@I.kv St) (@I.out St)) : flow unit (@I.out St) :=
    match r with Nrm s => Ret (I.v_st s, None) | Ret r => Ret r | Out => Out | _ => Pan end.

  Lemma object_loop cb : forall rest i fu start end_ level ks ke inq key (s : St), skipn i json = rest -> (length rest < fu)%nat ->
    ((1 <= level /\ 1 <= i)%nat \/ exists c r, rest = c :: r /\ is_open c = true /\ inq = false) ->
    kv_fin (leave (for_ fu (fun s => Ok (snd s <? zlen json)) (fun s => (fst s, snd s + 1)) (I.object_body fuel json cb) (kvs s start (Z.of_nat end_) ks ke inq (Z.of_nat level) key i))) =
    ended (iter_kv json cb rest i start end_ level ks ke inq key s).
  Proof.
    induction rest as [|c r IH]; intros i fu start end_ level ks ke inq key s Hi Hfu Hl; (destruct fu as [|fu]; [cbn in Hfu; lia|]); cbn [for_]; change (snd (kvs s start (Z.of_nat end_) ks ke inq (Z.of_nat level) key i)) with (Z.of_nat i).
    - destruct (there fuel json path Hjson Hpath i Hi) as (-> & _). reflexivity.
    - destruct (here fuel json path Hbytes Hjson Hpath i c r Hi) as (Hat & -> & Hr & Hlt & Hc). cbn [length] in Hfu.
      assert (IH' : forall start end_ level ks ke inq key s, (1 <= level)%nat -> kv_fin (leave (for_ fu (fun s => Ok (snd s <? zlen json)) (fun s => (fst s, snd s + 1)) (I.object_body fuel json cb)
        (I.Kv s (Z.of_nat start) (Z.of_nat end_) (Z.of_nat ks) (Z.of_nat ke) inq (Z.of_nat level) key, Z.of_nat i + 1))) = ended (iter_kv json cb r (S i) start end_ level ks ke inq key s)).
      { intros. rewrite zsucc. apply IH; [exact Hr|lia|left; lia]. }
      clear IH. hide fu. unfold I.object_body. unfold read at 1. change (snd (kvs s start (Z.of_nat end_) ks ke inq (Z.of_nat level) key i)) with (Z.of_nat i). rewrite Hat. unfold read at 1. rewrite (F7_get c Hc). cbn [iter_kv].
      unfold then_, if_, set_, pass, continue_, break_, goto_, label, return_.
      Local Ltac vnorm := cbn [among existsb N.eqb Pos.eqb orb andb negb fst snd leave kv_fin I.v_st I.v_start I.v_end I.v_keyStart I.v_keyEnd I.v_inQuote I.v_level I.v_key is_open is_close
        I.v_to_st I.v_to_start I.v_to_end I.v_to_keyStart I.v_to_keyEnd I.v_to_inQuote I.v_to_level I.v_to_key kvs].
      vnorm.
      destruct (N.eqb_spec c 34) as [->|H34].
      { assert (Hl1 : (1 <= level)%nat) by (destruct Hl as [[Hl _]|(x & y & E & Ho & _)]; [exact Hl|]; injection E as <- <-; discriminate Ho).
        vnorm. destruct inq; vnorm; [|apply IH'; exact Hl1].
        match goal with |- context [CoreGo.look_back fuel json snd CoreGo.rem_odd ?y ?n ?x] => rewrite (look_back_loop fuel json path Hjson Hpath snd CoreGo.rem_odd y n x (kvs s start (Z.of_nat end_) ks ke false (Z.of_nat level) key i) i (Gto x)) end;
          [|reflexivity|lia|exact (rem_odd_spec i)|reflexivity|intro; right; split; reflexivity].
        destruct (qscan json i) as [[|]|]; cbn [after_back]; vnorm; apply IH'; exact Hl1. }
      destruct inq.
      { assert (Hl1 : (1 <= level)%nat) by (destruct Hl as [[Hl _]|(x & y & E & Ho & D)]; [exact Hl|discriminate D]).
        vnorm. match goal with |- context [if negb ?x then Cnt _ else Nrm _] => destruct x end; vnorm; apply IH'; exact Hl1. }
      destruct (N.eqb_spec c 91) as [->|H91]; [|destruct (N.eqb_spec c 123) as [->|H123]].
      1, 2: vnorm; rewrite (zsucc level); apply IH'; lia.
      assert (Hl1 : (1 <= level /\ 1 <= i)%nat).
      { destruct Hl as [Hl|(x & y & E & Ho & _)]; [exact Hl|]. injection E as <- <-. unfold is_open in Ho. apply N.eqb_neq in H91, H123. rewrite H91, H123 in Ho. discriminate Ho. }
      clear Hl. destruct Hl1 as [Hl Hi1].
      assert (Q : forall st en, I.and_also (I.is_quote json (Z.of_nat st)) (I.is_quote json (Z.of_nat en)) =
        do c <- at_ json st; if (c =? 34)%N then do d <- at_ json en; Ok (d =? 34)%N else Ok false).
      { intros st en. unfold I.and_also, I.is_quote. rewrite !at_zat. destruct (at_ json st) as [x|e|]; cbn [bind]; try reflexivity. }
      assert (A : forall n, (exists x, at_ json n = Ok x) \/ at_ json n = Panic).
      { intro n. unfold at_. destruct (nth_error json n); [left; eexists; reflexivity|right; reflexivity]. }
      destruct (N.eqb_spec c 93) as [->|H93].
      { vnorm. change (Z.of_nat level =? 1) with (Z.of_nat level =? Z.of_nat 1). rewrite zeqb. destruct (Nat.eqb_spec level 1) as [->|Hl1]; vnorm; [reflexivity|].
        replace (Z.of_nat level - 1) with (Z.of_nat (pred level)) by lia. apply IH'. lia. }
      destruct (N.eqb_spec c 125) as [->|H125].
      { vnorm. change (Z.of_nat level =? 1) with (Z.of_nat level =? Z.of_nat 1). rewrite zeqb. destruct (Nat.eqb_spec level 1) as [->|Hl1]; vnorm.
        2: { replace (Z.of_nat level =? 1) with false by (symmetry; apply Z.eqb_neq; lia). vnorm. replace (Z.of_nat level - 1) with (Z.of_nat (pred level)) by lia. apply IH'. lia. }
        rewrite (find_start_spec s start (Z.of_nat end_) ks ke false (Z.of_nat 1) key i) by lia. set (st := fwd_trim json start i).
        rewrite (find_end_spec s st end_ ks ke false (Z.of_nat 1) key i _ st) by (try reflexivity; lia). set (en := back_trim json st i end_).
        unfold read. vnorm. rewrite Q. unfold kv_value.
        destruct (A st) as [(x & Ex)|Ex]; rewrite Ex; cbn [bind ibind]; [|reflexivity].
        destruct (x =? 34)%N; cbn [bind].
        - destruct (A en) as [(y & Ey)|Ey]; rewrite Ey; cbn [bind ibind]; [|reflexivity]. destruct (y =? 34)%N.
          + rewrite zsucc, zslice_slice. destruct (slice_res json (S st) en) as [(v & Ev)|Ev]; rewrite Ev; cbn [ibind]; [|reflexivity]. destruct (cb s key v) as [st' [go e]]. reflexivity.
          + vnorm. rewrite zsucc, zslice_slice. destruct (slice_res json st (S en)) as [(v & Ev)|Ev]; rewrite Ev; cbn [ibind]; [|reflexivity]. destruct (cb s key v) as [st' [go e]]. reflexivity.
        - vnorm. rewrite zsucc, zslice_slice. destruct (slice_res json st (S en)) as [(v & Ev)|Ev]; rewrite Ev; cbn [ibind]; [|reflexivity]. destruct (cb s key v) as [st' [go e]]. reflexivity. }
      destruct (N.eqb_spec c 44) as [->|H44].
      { vnorm. change (Z.of_nat level =? 1) with (Z.of_nat level =? Z.of_nat 1). rewrite zeqb. destruct (level =? 1)%nat eqn:Hl1; vnorm; [|apply IH'; lia]. apply Nat.eqb_eq in Hl1. subst level.
        match goal with |- context [I.find_start fuel json ?x] => change x with (kvs s start (Z.of_nat i - 1) ks ke false (Z.of_nat 1) key i) end.
        rewrite (find_start_spec s start (Z.of_nat i - 1) ks ke false (Z.of_nat 1) key i) by lia. set (st := fwd_trim json start i).
        replace (Z.of_nat i - 1) with (Z.of_nat (pred i)) by lia.
        rewrite (find_end_spec s st (pred i) ks ke false (Z.of_nat 1) key i _ (S st)) by (try lia; intro; unfold kvs; cbn [fst I.v_start]; lia). set (en := back_trim json (S st) i (pred i)).
        unfold read. vnorm. rewrite Q. unfold kv_value.
        assert (E : forall v, kv_fin (leave match match
              match (let '(st', (go, e)) := cb s key v in
                match match e with Some e => fun s0 : @I.kv St * Z => Ret (I.v_st (fst s0), Some e) | None => Nrm end (I.Kv st' (Z.of_nat st) (Z.of_nat en) (Z.of_nat ks) (Z.of_nat ke) false (Z.of_nat 1) key, Z.of_nat i) with
                | Nrm s' => if negb go then Ret (I.v_st (fst s'), None) else Nrm s' | x => x end) with
              | Nrm s' => Cnt s' | x => x end with Nrm s' => Nrm s' | x => x end with
            | Nrm s' | Cnt s' => loop (fst s', snd s' + 1) | Brk s' => Nrm s' | Gto s' => Gto s' | Ret r0 => Ret r0 | Pan => Pan | Out => Out end) =
          ended (let '(s', (go, e)) := cb s key v in match e with Some e => IDone s' (Some e) | None => if go : bool then iter_kv json cb r (S i) st en 1 ks ke false key s' else IDone s' None end)).
        { intro v. destruct (cb s key v) as [st' [go [e|]]]; [reflexivity|]. destruct go; [|reflexivity]. vnorm. apply IH'. lia. }
        destruct (A st) as [(x & Ex)|Ex]; rewrite Ex; cbn [bind ibind]; [|reflexivity].
        destruct (x =? 34)%N; cbn [bind].
        - destruct (A en) as [(y & Ey)|Ey]; rewrite Ey; cbn [bind ibind]; [|reflexivity]. destruct (y =? 34)%N.
          + rewrite zsucc, zslice_slice. destruct (slice_res json (S st) en) as [(v & Ev)|Ev]; rewrite Ev; cbn [ibind]; [|reflexivity]. exact (E v).
          + rewrite zsucc, zslice_slice. destruct (slice_res json st (S en)) as [(v & Ev)|Ev]; rewrite Ev; cbn [ibind]; [|reflexivity]. exact (E v).
        - rewrite zsucc, zslice_slice. destruct (slice_res json st (S en)) as [(v & Ev)|Ev]; rewrite Ev; cbn [ibind]; [|reflexivity]. exact (E v). }
      destruct (N.eqb_spec c 58) as [->|H58].
      { vnorm. change (Z.of_nat level =? 1) with (Z.of_nat level =? Z.of_nat 1). rewrite zeqb. destruct (level =? 1)%nat eqn:Hl1; vnorm; [|apply IH'; lia].
        unfold read. vnorm. rewrite (zsucc ks), zslice_slice. destruct (slice_res json (S ks) ke) as [(v & Ev)|Ev]; rewrite Ev; cbn [ibind]; [|reflexivity].
        vnorm. rewrite (zsucc i) at 1. apply IH'. lia. }
      apply N.eqb_neq in H34, H44, H58, H91, H123, H93, H125. unfold is_open, is_close. rewrite ?H34, ?H44, ?H58, ?H91, ?H123, ?H93, ?H125. vnorm. rewrite !andb_false_r. apply IH'. lia.
  Qed.

  Lemma object_front (s : St) e ks ke q l k : forall rest i fu, skipn i json = rest -> (length rest < fu)%nat ->
    for_ fu (fun s => do c <- zat json (I.v_start s); Ok (space c)) (fun s => s) (
       if_ (fun s => I.v_start s >? zlen json - 1) (return_ (fun s => (I.v_st s, Some (G.bad (I.v_start s))))) pass ;;
       set_ (fun s => fst (I.v_to_start (I.v_start s + 1) (s, 0))) ;;
       continue_) (I.Kv s (Z.of_nat i) e ks ke q l k) =
    match skip_space rest i with Ok o => Nrm (I.Kv s (Z.of_nat o) e ks ke q l k) | Err e => Ret (s, Some e) | Panic => Pan end.
  Proof.
    induction rest as [|c r IH]; intros i fu Hi Hfu; (destruct fu as [|fu]; [cbn in Hfu; lia|]); cbn [for_ I.v_start].
    - destruct (there fuel json path Hjson Hpath i Hi) as (_ & ->). reflexivity.
    - destruct (here fuel json path Hbytes Hjson Hpath i c r Hi) as (Hat & _ & Hr & Hlt & _). cbn [length] in Hfu. specialize (IH (S i) fu Hr ltac:(lia)). rewrite <- zsucc in IH.
      rewrite Hat. cbn [bind skip_space]. destruct (space c); [|reflexivity]. hide fu. unfold then_, if_, set_, pass, continue_, return_. cbn [I.v_start].
      replace (Z.of_nat i >? zlen json - 1) with false by (symmetry; rewrite Z.gtb_ltb; apply Z.ltb_ge; unfold zlen; lia). exact IH.
  Qed.

  Theorem IterateKeyValue_go_spec cb (s : St) : I.IterateKeyValue_go fuel json cb path s = ended (IterateKeyValue json cb path s).
  Proof.
    unfold I.IterateKeyValue_go, IterateKeyValue, start_of, func. unfold then_ at 1, if_ at 1. cbn [I.v_st].
    destruct (bytes_eqb json (b "{}")); [reflexivity|]. unfold pass at 1. unfold then_ at 1.
    set (rest := then_ (read _ _) _).
    enough (K : forall start, returns (rest (I.Kv s (Z.of_nat start) 0 0 0 false 0 [])) = ended (ibind s (at_ json start) (fun c =>
      if (c =? 123)%N then iter_kv json cb (skipn start json) start start 0 0 0 0 false [] s else IDone s (Some EObjectExpected)))).
    { unfold if_ at 1. change 0 with (Z.of_nat 0) at 1. unfold zlen at 1. rewrite zeqb, nil_match. destruct (length path =? 0)%nat.
      - pose proof (object_front s 0 0 0 false 0 [] json 0 fuel eq_refl Hjson) as F. change (Z.of_nat 0) with 0 in F. rewrite F. clear F. destruct (skip_space json 0) as [o|e|]; cbn [ibind]; [apply K|reflexivity|reflexivity].
      - unfold call. rewrite core_go_as_core by assumption. destruct (core json true path) as [[[[ks|] st] en]|e|]; cbn [bind ibind returns]; try reflexivity; apply K. }
    intro start. unfold rest, then_, read, if_, set_, pass, return_. cbn [I.v_start I.v_st]. rewrite at_zat.
    destruct (at_ json start) as [c|e|] eqn:Ec; cbn [ibind]; try reflexivity. 2: { unfold at_ in Ec. destruct (nth_error json start); discriminate Ec. }
    destruct (N.eqb_spec c 123) as [->|H]; cbn [negb]; [|reflexivity].
    rewrite <- (object_loop cb (skipn start json) start fuel start 0 0 0 0 false [] s eq_refl).
    2: { rewrite skipn_length. lia. }
    2: { right. unfold at_ in Ec. rewrite skipn_nth in Ec. destruct (skipn start json) as [|d r]; [discriminate Ec|]. injection Ec as ->. exists 123%N, r. repeat split. }
    unfold var, kvs. cbn [I.v_start]. change (Z.of_nat 0) with 0. match goal with |- context [leave ?x] => destruct x as [| | | | | |] end; reflexivity.
  Qed.
End Iterate.
