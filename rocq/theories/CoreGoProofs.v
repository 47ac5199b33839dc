(** inter_core.go line by line (CoreGo.v) computes what the model in Core.v computes. *)
From Coq Require Import String.
From Verif Require Import GoStd GoLang Core.
From Verif Require CoreGo.

Local Open Scope Z_scope.
Module G := CoreGo.

Definition failed {S : Type} (e : err) : flow S G.result := Ret (-1, -1, -1, Some e).
Definition res_flow {A S : Type} (r : res A) (f : A -> flow S G.result) : flow S G.result :=
  match r with Ok a => f a | Err e => failed e | Panic => Pan end.
Definition zks (o : option nat) : Z := match o with Some n => Z.of_nat n | None => -1 end.
Definition emb (k : nat) (t : list bool) (st : cst) : G.fr :=
  G.Fr (Z.of_nat (offset st)) (cur st) t (brace st) (zks (keyst st)) (Z.of_nat k).

(** ** The table *)
Definition T0 : list bool := G.table.
Definition T58 : list bool := zput T0 58 false.
Definition T44 : list bool := zput T0 44 false.
Definition TJ : list bool := zput T0 58 false.
Lemma T58_back : zput T58 58 true = T0. Proof. vm_compute. reflexivity. Qed.
Lemma T44_back : zput T44 44 true = T0. Proof. vm_compute. reflexivity. Qed.
Lemma TJ_in : zput (zput T44 44 true) 58 false = TJ. Proof. vm_compute. reflexivity. Qed.
Lemma TJ_out : zput (zput TJ 44 false) 58 true = T44. Proof. vm_compute. reflexivity. Qed.

Definition among (l : list N) (c : N) : bool := existsb (N.eqb c) l.
Lemma table_get t l c : length t = 256%nat -> forallb (fun n => Bool.eqb (nth n t false) (among l (N.of_nat n))) (List.seq 0 256) = true ->
  (c < 256)%N -> zat t (Z.of_N c) = Ok (among l c).
Proof.
  intros Hl Ht Hc. unfold zat. destruct (Z.ltb_spec (Z.of_N c) 0); [lia|].
  rewrite forallb_forall in Ht. specialize (Ht (N.to_nat c)). rewrite N2Nat.id in Ht.
  assert (Hin : In (N.to_nat c) (List.seq 0 256)) by (apply in_seq; lia). apply Ht in Hin. apply eqb_prop in Hin.
  replace (Z.to_nat (Z.of_N c)) with (N.to_nat c) by lia. rewrite (nth_error_nth' t false) by lia. rewrite Hin. reflexivity.
Qed.
Lemma T0_get c : (c < 256)%N -> zat T0 (Z.of_N c) = Ok (among [34; 44; 58; 91; 93; 123; 125]%N c).
Proof. apply table_get; vm_compute; reflexivity. Qed.
Lemma T58_get c : (c < 256)%N -> zat T58 (Z.of_N c) = Ok (among [34; 44; 91; 93; 123; 125]%N c).
Proof. apply table_get; vm_compute; reflexivity. Qed.
Lemma T44_get c : (c < 256)%N -> zat T44 (Z.of_N c) = Ok (among [34; 58; 91; 93; 123; 125]%N c).
Proof. apply table_get; vm_compute; reflexivity. Qed.

(** ** Indexing *)
Lemma zat_nth {A} (x : list A) i : zat x (Z.of_nat i) = match nth_error x i with Some c => Ok c | None => Panic end.
Proof. unfold zat. destruct (Z.ltb_spec (Z.of_nat i) 0); [lia|]. rewrite Nat2Z.id. reflexivity. Qed.
Lemma zat_succ {A} (x : list A) i : zat x (Z.of_nat i + 1) = match nth_error x (S i) with Some c => Ok c | None => Panic end.
Proof. replace (Z.of_nat i + 1) with (Z.of_nat (S i)) by lia. apply zat_nth. Qed.
Lemma skipn_nth {A} (x : list A) i : nth_error x i = hd_error (skipn i x).
Proof. revert x. induction i as [|i IH]; intros [|c x]; try reflexivity. cbn [nth_error skipn]. apply IH. Qed.
Lemma skipn_more {A} (x : list A) i c r : skipn i x = c :: r -> skipn (S i) x = r.
Proof. revert x. induction i as [|i IH]; intros [|d x] H; try discriminate H; cbn [skipn] in *; [congruence|]. apply IH in H. destruct x; exact H. Qed.
Lemma skipn_len {A} (x : list A) i : length (skipn i x) = (length x - i)%nat.
Proof. apply skipn_length. Qed.

Ltac hide fu := match goal with |- context [for_ fu ?c ?p ?b] => let L := fresh "loop" in set (L := for_ fu c p b) in * end.

Lemma odd_step p m : (m < p)%nat -> Nat.odd (p - m) = negb (Nat.odd (p - S m)).
Proof. intro H. replace (p - m)%nat with (S (p - S m)) by lia. rewrite Nat.odd_succ, <- Nat.negb_odd. reflexivity. Qed.
Lemma zodd n : Z.odd (Z.of_nat n) = Nat.odd n.
Proof. induction n as [|n IH]; [reflexivity|]. rewrite Nat2Z.inj_succ, Z.odd_succ, Nat.odd_succ, <- Z.negb_odd, <- Nat.negb_odd, IH. reflexivity. Qed.
Lemma and_odd_spec p m : (m < p)%nat -> G.and_odd (Z.of_nat p) (Z.of_nat m) = Nat.odd (p - m).
Proof.
  intro H. unfold G.and_odd. rewrite <- Nat2Z.inj_sub by lia. change 1 with (Z.ones 1). rewrite Z.land_ones by lia. change (2 ^ 1) with 2.
  rewrite Zmod_odd, zodd. destruct (Nat.odd (p - m)); reflexivity.
Qed.
Lemma rem_odd_spec p m : (m < p)%nat -> G.rem_odd (Z.of_nat p) (Z.of_nat m) = Nat.odd (p - m).
Proof.
  intro H. unfold G.rem_odd. rewrite <- Nat2Z.inj_sub by lia. rewrite Z.rem_mod_nonneg by lia. rewrite Zmod_odd, zodd. destruct (Nat.odd (p - m)); reflexivity.
Qed.
Lemma rem_even_spec p m : (m < p)%nat -> G.rem_even (Z.of_nat p) (Z.of_nat m) = Nat.odd (p - m).
Proof.
  intro H. unfold G.rem_even. replace (Z.of_nat p - 1 - Z.of_nat m) with (Z.of_nat (p - S m)) by lia. rewrite Z.rem_mod_nonneg by lia.
  rewrite Zmod_odd, zodd, (odd_step p m H). destruct (Nat.odd (p - S m)); reflexivity.
Qed.
Lemma zsucc n : Z.of_nat n + 1 = Z.of_nat (S n). Proof. lia. Qed.
Lemma zeqb n m : (Z.of_nat n =? Z.of_nat m) = (n =? m)%nat.
Proof. destruct (Nat.eqb_spec n m); [apply Z.eqb_eq|apply Z.eqb_neq]; lia. Qed.
Lemma zltb n m : (Z.of_nat n <? Z.of_nat m) = (n <? m)%nat.
Proof. destruct (Nat.ltb_spec n m); [apply Z.ltb_lt|apply Z.ltb_ge]; lia. Qed.
Definition after_back {S R : Type} (q : option bool) (s : S) (yes no : flow S R) : flow S R :=
  match q with Some true => yes | Some false => no | None => Nrm s end.
Lemma toggled q (inq : bool) {S R} (f : bool -> S) : after_back q (f inq) (Nrm (f (negb inq))) (Nrm (f inq)) = Nrm (f (match q with Some true => negb inq | _ => inq end)) :> flow S R.
Proof. destruct q as [[|]|]; reflexivity. Qed.

Section CoreGo.
  Variables (fuel : nat) (json : bytes) (justStart : bool) (path : list bytes).
  Hypothesis Hbytes : Forall (fun c => (c < 256)%N) json.
  Hypothesis Hjson : (length json < fuel)%nat.
  Hypothesis Hpath : (length path < fuel)%nat.

  Lemma here i c r : skipn i json = c :: r ->
    zat json (Z.of_nat i) = Ok c /\ (Z.of_nat i <? zlen json) = true /\ skipn (S i) json = r /\ (i < length json)%nat /\ (c < 256)%N.
  Proof.
    intro H. assert (Hn : nth_error json i = Some c) by (rewrite skipn_nth, H; reflexivity).
    assert (Hi : (i < length json)%nat) by (apply nth_error_Some; congruence).
    split; [rewrite zat_nth, Hn; reflexivity|]. split; [unfold zlen; apply Z.ltb_lt; lia|]. split; [exact (skipn_more _ _ _ _ H)|]. split; [exact Hi|].
    rewrite Forall_forall in Hbytes. apply Hbytes. apply nth_error_In with (n := i). exact Hn.
  Qed.
  Lemma there i : skipn i json = [] -> (Z.of_nat i <? zlen json) = false /\ zat json (Z.of_nat i) = Panic.
  Proof.
    intro H. assert (Hn : nth_error json i = None) by (rewrite skipn_nth, H; reflexivity). split; [|rewrite zat_nth, Hn; reflexivity].
    apply nth_error_None in Hn. unfold zlen. apply Z.ltb_ge. lia.
  Qed.

  (** ** The look-back *)
  Lemma look_back_loop {S R : Type} (i : S -> Z) odd (yes no : cmd (S * Z) R) s y p rn :
    i s = Z.of_nat p -> (p <= length json)%nat ->
    (forall m, (m < p)%nat -> odd (Z.of_nat p) (Z.of_nat m) = Nat.odd (p - m)) ->
    (forall n, yes (s, n) = Brk (y, n)) -> (forall n, (no (s, n) = Brk (s, n) /\ rn = Nrm s) \/ (no (s, n) = Gto (s, n) /\ rn = Gto s)) ->
    G.look_back fuel json i odd yes no s = after_back (qscan json p) s (Nrm y) rn.
  Proof.
    intros Hi Hp Ho Hy Hn. unfold G.look_back, var. rewrite Hi. unfold qscan.
    enough (K : forall m fu, (m <= p)%nat -> (m < fu)%nat ->
      leave (for_ fu (fun t : S * Z => Ok (snd t >? -1)) (fun t => (fst t, snd t - 1))
        (read (fun t => zat json (snd t)) (fun c => if_ (fun _ => negb (c =? 92)%N) (if_ (fun t => odd (i (fst t)) (snd t)) yes no) pass ;; continue_))
        (s, Z.of_nat m - 1)) = after_back (qback (rev (firstn m json)) (Nat.odd (p - m))) s (Nrm y) rn).
    { specialize (K p fuel (Nat.le_refl p)). rewrite Nat.sub_diag in K. apply K. lia. }
    induction m as [|m IH]; intros fu Hm Hfu; (destruct fu as [|fu]; [lia|]); cbn [for_ snd fst].
    - reflexivity.
    - replace (Z.of_nat (Datatypes.S m) - 1) with (Z.of_nat m) by lia.
      replace (Z.of_nat m >? -1) with true by (symmetry; apply Z.gtb_lt; lia).
      destruct (nth_error json m) as [c|] eqn:Ec; [|apply nth_error_None in Ec; lia].
      assert (Ef : firstn (Datatypes.S m) json = firstn m json ++ [c]).
      { clear - Ec. revert m Ec. induction json as [|d x IHx]; intros [|m] Ec; try discriminate Ec; cbn in *; [congruence|]. rewrite IHx by exact Ec. reflexivity. }
      rewrite Ef, rev_app_distr. cbn [rev app qback].
      specialize (IH fu). hide fu. unfold read. cbn [snd]. rewrite zat_nth, Ec. unfold then_, if_. destruct (c =? 92)%N; cbn [negb].
      + unfold pass, continue_. rewrite <- odd_step by lia. cbn [fst snd]. apply IH; lia.
      + cbn [fst snd]. rewrite Hi, Ho by lia. rewrite (odd_step p m) by lia.
        destruct (Nat.odd (p - Datatypes.S m)); cbn [negb after_back].
        * destruct (Hn (Z.of_nat m)) as [[-> ->]|[-> ->]]; reflexivity.
        * rewrite Hy. reflexivity.
  Qed.


  (** ** The array search *)
  Definition last_ (k : nat) : bool := (S k =? length path)%nat.
  Lemma last_spec k : (Z.of_nat k =? zlen path - 1) = last_ k.
  Proof. unfold last_, zlen. destruct (Nat.eqb_spec (S k) (length path)); [apply Z.eqb_eq|apply Z.eqb_neq]; lia. Qed.
  Lemma comm_open c : ((c =? 123) || (c =? 91))%N = is_open c. Proof. apply orb_comm. Qed.

  Definition with_path (k : nat) (f : bytes -> flow G.fr G.result) : flow G.fr G.result := match nth_error path (S k) with Some p => f p | None => Pan end.

  Lemma zeroth_loop k st : forall rest i fu, skipn i json = rest -> (length rest < fu)%nat ->
    leave (for_ fu (fun s => Ok (snd s <? zlen json)) (fun s => (fst s, snd s + 1)) (
      read (fun s => zat json (snd s)) (fun curr =>
      if_ (fun _ => negb (space curr))
        (if_ (fun _ => (curr =? 123) || (curr =? 91))%N
          (set_ (fun s => (G.to_brace curr (fst s), snd s)) ;;
           if_ (fun s => negb (G.k (fst s) =? zlen path - 1))
             (read (fun s => zat path (G.k (fst s) + 1)) (fun p => set_ (fun s => (G.to_path p (fst s), snd s)))) pass ;;
           set_ (fun s => (G.to_offset (snd s) (fst s), snd s)) ;;
           break_)
          (if_ (fun s => negb (G.k (fst s) =? zlen path - 1)) (G.fail (fun _ => EIndexOutOfRange)) pass ;;
           break_))
        pass)) (emb k T0 st, Z.of_nat i)) =
    res_flow (arr0_loop rest i (last_ k)) (fun o =>
      match o with
      | Some (i, c) => if last_ k then Nrm (emb k T0 (CSt i c (cur st) (keyst st))) else with_path k (fun p => Nrm (emb k T0 (CSt i c p (keyst st))))
      | None => Nrm (emb k T0 st)
      end).
  Proof.
    induction rest as [|c r IH]; intros i fu Hi Hfu; (destruct fu as [|fu]; [cbn in Hfu; lia|]); cbn [for_ snd fst].
    - destruct (there i Hi) as (-> & _). reflexivity.
    - destruct (here i c r Hi) as (Hat & -> & Hr & _). cbn [length] in Hfu. specialize (IH (S i) fu Hr ltac:(lia)).
      replace (Z.of_nat (S i)) with (Z.of_nat i + 1) in IH by lia.
      hide fu. unfold read, then_, if_, set_, pass, break_, G.fail, return_. cbn [snd fst]. rewrite Hat. cbn [arr0_loop].
      destruct (space c); cbn [negb]; [exact IH|]. rewrite comm_open. destruct (is_open c) eqn:Ho.
      + change (G.k (G.to_brace c (emb k T0 st))) with (Z.of_nat k). rewrite last_spec. destruct (last_ k); cbn [negb res_flow]; [reflexivity|].
        rewrite zat_succ. unfold with_path. destruct (nth_error path (S k)); reflexivity.
      + change (G.k (emb k T0 st)) with (Z.of_nat k). rewrite last_spec. destruct (last_ k); reflexivity.
  Qed.

  (** What follows the loop over the indexes *)
  Definition a_fin (r : flow G.ar G.result) : flow G.fr G.result :=
    match r with
    | Nrm s => if G.a_found s then Nrm (G.to_char 58 true (G.a_out s)) else failed EIndexOutOfRange
    | Ret r => Ret r | Cnt s => Cnt (G.a_out s) | Brk s => Brk (G.a_out s) | Gto s => Gto (G.a_out s) | Pan => Pan | Out => Out
    end.
  Definition arr_end (k : nat) (st : cst) (o : arr_out) : flow G.fr G.result :=
    match o with
    | ALast off => Nrm (emb k T0 (CSt off (brace st) (cur st) (keyst st)))
    | ABrace i c => with_path k (fun p => Nrm (emb k T0 (CSt i c p (keyst st))))
    | AEnd => Nrm (emb k T0 st)
    end.
  Lemma next_loop {S} (s : S) (k : nat) : forall rest j fu (f : S -> Z), f s = Z.of_nat k -> skipn j json = rest -> (length rest < fu)%nat ->
    leave (for_ fu (fun s => Ok (snd s <? zlen json)) (fun s => (fst s, snd s + 1)) (
      read (fun s => zat json (snd s)) (fun curr =>
      if_ (fun _ => negb (space curr))
        (if_ (fun _ => negb (curr =? 91)%N && negb (curr =? 123)%N)
           (if_ (fun s : S * Z => negb (f (fst s) =? zlen path - 1)) (G.fail (fun _ => EIndexOutOfRange)) pass ;; break_) pass ;;
         break_) pass)) (s, Z.of_nat j)) =
    (if match next_nonspace rest with Some d => negb (is_open d) && negb (last_ k) | None => false end then failed EIndexOutOfRange else Nrm s).
  Proof.
    induction rest as [|c r IH]; intros j fu f Hf Hj Hfu; (destruct fu as [|fu]; [cbn in Hfu; lia|]); cbn [for_ snd fst].
    - destruct (there j Hj) as (-> & _). reflexivity.
    - destruct (here j c r Hj) as (Hat & -> & Hr & _). cbn [length] in Hfu. specialize (IH (Datatypes.S j) fu f Hf Hr ltac:(lia)).
      replace (Z.of_nat (Datatypes.S j)) with (Z.of_nat j + 1) in IH by lia.
      hide fu. unfold read, then_, if_, set_, pass, break_, G.fail, return_. cbn [snd fst]. rewrite Hat. cbn [next_nonspace].
      destruct (space c); cbn [negb]; [exact IH|]. rewrite <- negb_orb. fold (is_open c). destruct (is_open c); cbn [negb andb]; [reflexivity|].
      rewrite Hf, last_spec. destruct (last_ k); reflexivity.
  Qed.


  Lemma indexed_loop k st idx : forall rest i fu level inq found cnt, skipn i json = rest -> (length rest < fu)%nat ->
    a_fin (leave (for_ fu (fun s => Ok (snd s <? zlen json)) (fun s => (fst s, snd s + 1)) (G.indexed_body fuel json path idx)
      (G.Ar (emb k T58 st) (Z.of_nat level) inq found (Z.of_nat cnt), Z.of_nat i))) =
    res_flow (arr_loop json rest i (last_ k) idx level inq found cnt) (arr_end k st).
  Proof.
    induction rest as [|c r IH]; intros i fu level inq found cnt Hi Hfu; (destruct fu as [|fu]; [cbn in Hfu; lia|]); cbn [for_ snd fst].
    - destruct (there i Hi) as (-> & _). cbn [leave fst a_fin G.a_found G.a_out arr_loop]. destruct found; [|reflexivity]. cbn [res_flow arr_end].
      unfold emb, G.to_char. cbn [G.offset G.currentPath G.isJSONChar G.braceType G.keyStart G.k]. rewrite T58_back. reflexivity.
    - destruct (here i c r Hi) as (Hat & -> & Hr & Hlt & Hc). cbn [length] in Hfu.
      assert (IH' : forall level inq found cnt, a_fin (leave (for_ fu (fun s => Ok (snd s <? zlen json)) (fun s => (fst s, snd s + 1)) (G.indexed_body fuel json path idx)
        (G.Ar (emb k T58 st) (Z.of_nat level) inq found (Z.of_nat cnt), Z.of_nat i + 1))) = res_flow (arr_loop json r (S i) (last_ k) idx level inq found cnt) (arr_end k st)).
      { intros. rewrite zsucc. apply IH; [exact Hr|lia]. }
      clear IH. hide fu. unfold G.indexed_body. unfold read at 1. cbn [snd fst]. rewrite Hat. unfold read at 1. cbn [snd fst G.a_out].
      change (G.isJSONChar (emb k T58 st)) with T58. rewrite (T58_get c Hc). cbn [arr_loop].
      unfold then_, if_, set_, pass, continue_, break_, G.fail, return_, read, var, G.a_to_out, G.a_to_level, G.a_to_inQuote, G.a_to_found, G.a_to_count.
      cbn [fst snd G.a_out G.a_level G.a_inQuote G.a_found G.indexCount].
      destruct (N.eqb_spec c 34) as [->|H34].
      { cbn [among existsb N.eqb Pos.eqb orb negb].
        rewrite (look_back_loop snd G.and_odd _ _ _ (G.Ar (emb k T58 st) (Z.of_nat level) (negb inq) found (Z.of_nat cnt), Z.of_nat i) i (Nrm (G.Ar (emb k T58 st) (Z.of_nat level) inq found (Z.of_nat cnt), Z.of_nat i)));
          [|reflexivity|lia|exact (and_odd_spec i)|reflexivity|intro; left; split; reflexivity].
        rewrite (toggled (qscan json i) inq (fun q => (G.Ar (emb k T58 st) (Z.of_nat level) q found (Z.of_nat cnt), Z.of_nat i))).
        cbn [fst snd]. apply IH'. }
      Local Ltac norm := cbn [among existsb N.eqb Pos.eqb orb andb negb fst snd leave a_fin G.a_out G.a_level G.a_inQuote G.a_found G.indexCount is_open is_close].
      destruct (N.eqb_spec c 44) as [->|H44].
      { norm. destruct inq; [apply IH'|]. destruct found; norm; [apply IH'|]. change 1 with (Z.of_nat 1) at 1. rewrite zeqb. destruct (level =? 1)%nat eqn:El; norm; [|apply IH'].
        rewrite zsucc. destruct (Z.of_nat (S cnt) =? idx) eqn:Eidx; norm; [|apply IH'].
        match goal with |- context [leave (for_ fuel ?cd ?ps ?bd ?s)] => assert (E : leave (for_ fuel cd ps bd s) =
            (if match next_nonspace r with Some d => negb (is_open d) && negb (last_ k) | None => false end then failed EIndexOutOfRange
             else @Nrm _ G.result (G.Ar (emb k T58 st) (Z.of_nat level) false true (Z.of_nat (S cnt)), Z.of_nat i))) end.
        { rewrite zsucc. refine (next_loop (G.Ar (emb k T58 st) (Z.of_nat level) false true (Z.of_nat (S cnt)), Z.of_nat i) k r (S i) fuel (fun s => G.k (G.a_out (fst s))) eq_refl Hr _). rewrite <- Hr, skipn_length. lia. }
        rewrite E. clear E. destruct (match next_nonspace r with Some d => negb (is_open d) && negb (last_ k) | None => false end); [reflexivity|]. norm.
        change (G.k (emb k T58 st)) with (Z.of_nat k). rewrite last_spec. destruct (last_ k) eqn:Ela; norm; [|apply IH'].
        cbn [res_flow arr_end]. unfold emb, G.to_char, G.to_offset. cbn [G.offset G.currentPath G.isJSONChar G.braceType G.keyStart G.k offset cur brace keyst]. rewrite T58_back, zsucc. reflexivity. }
      destruct (N.eqb_spec c 91) as [->|H91]; [|destruct (N.eqb_spec c 123) as [->|H123]].
      1, 2: norm; (destruct inq; [apply IH'|]); (destruct found; norm);
        [cbn [arr_loop res_flow arr_end]; unfold with_path; change (G.k (G.to_brace _ (G.to_offset _ (emb k T58 st)))) with (Z.of_nat k); rewrite zat_succ;
         (destruct (nth_error path (S k)) as [p|]; [|reflexivity]); norm; unfold emb, G.to_char, G.to_offset, G.to_brace, G.to_path;
         cbn [G.offset G.currentPath G.isJSONChar G.braceType G.keyStart G.k offset cur brace keyst]; rewrite T58_back; reflexivity|].
      1, 2: rewrite !andb_false_r; (destruct (Z.of_nat level =? 1); norm; rewrite zsucc; apply IH').
      destruct (N.eqb_spec c 93) as [->|H93]; [|destruct (N.eqb_spec c 125) as [->|H125]].
      1, 2: norm; (destruct inq; [apply IH'|]); rewrite !andb_false_r;
        (destruct found; norm; [|destruct (Z.of_nat level =? 1); norm]); change (Z.of_nat level <? 2) with (Z.of_nat level <? Z.of_nat 2); rewrite zltb;
        (destruct (Nat.ltb_spec level 2) as [Hl|Hl]; norm; [reflexivity|]); (replace (Z.of_nat level - 1) with (Z.of_nat (pred level)) by lia); apply IH'.
      apply N.eqb_neq in H34, H44, H91, H123, H93, H125. unfold is_open, is_close. cbn [among existsb]. rewrite H34, H44, H91, H123, H93, H125. norm. rewrite !andb_false_r. norm.
      rewrite IH'. destruct inq; reflexivity.
  Qed.

  Lemma short i : (length (skipn i json) < fuel)%nat. Proof. rewrite skipn_length. lia. Qed.
  Lemma leave_Nrm {S L} (r : flow (S * L) G.result) : match leave r with Nrm s => Nrm s | x => x end = leave r.
  Proof. destruct r; reflexivity. Qed.
  Theorem array_search_spec k st : G.array_search fuel json path (emb k T0 st) = res_flow (arr_step json path k st) (fun st' => Nrm (emb k T0 st')).
  Proof.
    unfold G.array_search, arr_step, read. change (G.currentPath (emb k T0 st)) with (cur st). destruct (atoi (cur st)) as [idx|]; [|reflexivity].
    fold (last_ k). unfold if_ at 1. destruct (idx =? 0) eqn:E0.
    - unfold G.zeroth. unfold then_ at 1, set_ at 1. change (G.to_offset (G.offset (emb k T0 st) + 1) (emb k T0 st)) with (G.Fr (Z.of_nat (offset st) + 1) (cur st) T0 (brace st) (zks (keyst st)) (Z.of_nat k)).
      rewrite zsucc. unfold var. cbn [G.offset].
      pose proof (zeroth_loop k (CSt (S (offset st)) (brace st) (cur st) (keyst st)) (skipn (S (offset st)) json) (S (offset st)) fuel eq_refl (short _)) as E.
      unfold emb at 1 in E. cbn [offset cur brace keyst] in E. rewrite E. unfold res_flow.
      destruct (arr0_loop (skipn (S (offset st)) json) (S (offset st)) (last_ k)) as [[[i c]|]|e|]; cbn [bind]; try reflexivity.
      destruct (last_ k); [reflexivity|]. unfold with_path. destruct (nth_error path (S k)); reflexivity.
    - pose proof (indexed_loop k st idx (skipn (offset st) json) (offset st) fuel 0 false false 0 eq_refl (short _)) as E.
      unfold G.indexed. unfold then_ at 1, set_ at 1. unfold G.a_to_out at 1. cbn [fst snd G.a_out G.a_level G.a_inQuote G.a_found G.indexCount].
      change (G.to_char 58 false (emb k T0 st)) with (emb k T58 st). unfold then_ at 1. unfold var. cbn [G.a_out]. change (G.offset (emb k T58 st)) with (Z.of_nat (offset st)).
      cbn [Z.of_nat] in E. hide fuel.
      match goal with |- context [loop ?x] => change x with (G.Ar (emb k T58 st) 0 false false 0, Z.of_nat (offset st)) end.
      transitivity (a_fin (leave (loop (G.Ar (emb k T58 st) 0 false false 0, Z.of_nat (offset st))))).
      + destruct (loop (G.Ar (emb k T58 st) 0 false false 0, Z.of_nat (offset st))) as [[[f l q fo n] z]| | | | | |]; cbn [leave fst a_fin]; try reflexivity.
        unfold then_, if_, set_, pass, G.fail, return_, G.a_to_out. cbn [G.a_found G.a_out fst snd]. destruct fo; reflexivity.
      + rewrite E. unfold res_flow. destruct (arr_loop json (skipn (offset st) json) (offset st) (last_ k) idx 0 false false 0) as [[off|i c|]|e|]; cbn [bind arr_end]; try reflexivity.
        unfold with_path. destruct (nth_error path (S k)); reflexivity.
  Qed.

  (** ** The key search *)
  Definition kst (k : nat) (t : list bool) (st : cst) (inq found : bool) (start end_ level i : nat) : G.ky * Z :=
    (G.Ky (emb k t st) inq found (Z.of_nat start) (Z.of_nat end_) (Z.of_nat level), Z.of_nat i).

  Lemma jump_spec k st found start end_ level i : forall rest j fu il inq, skipn j json = rest -> (length rest < fu)%nat ->
    leave (leave (for_ fu (fun s => Ok (snd s <? zlen json)) (fun s => (fst s, snd s + 1)) (G.jump_body fuel json)
      (kst k TJ st inq found start end_ level i, Z.of_nat il, Z.of_nat j))) =
    match jump_loop json rest j k il inq with
    | JComma j' => Nrm (kst k TJ st false found start end_ level j')
    | JFail => failed (EKeyNotFound (cur st))
    | JEnd inq' => Nrm (kst k TJ st inq' found start end_ level i)
    end.
  Proof.
    induction rest as [|c r IH]; intros j fu il inq Hj Hfu; (destruct fu as [|fu]; [cbn in Hfu; lia|]); cbn [for_ snd fst].
    - destruct (there j Hj) as (-> & _). reflexivity.
    - destruct (here j c r Hj) as (Hat & -> & Hr & Hlt & Hc). cbn [length] in Hfu.
      assert (IH' : forall il inq, leave (leave (for_ fu (fun s => Ok (snd s <? zlen json)) (fun s => (fst s, snd s + 1)) (G.jump_body fuel json)
          (kst k TJ st inq found start end_ level i, Z.of_nat il, Z.of_nat j + 1))) =
        match jump_loop json r (S j) k il inq with
        | JComma j' => Nrm (kst k TJ st false found start end_ level j')
        | JFail => failed (EKeyNotFound (cur st))
        | JEnd inq' => Nrm (kst k TJ st inq' found start end_ level i)
        end) by (intros; rewrite zsucc; apply IH; [exact Hr|lia]).
      clear IH. hide fu. unfold G.jump_body. unfold read at 1. cbn [snd fst]. rewrite Hat. unfold read at 1. cbn [snd fst kst G.o_out].
      change (G.isJSONChar (emb k TJ st)) with T58. rewrite (T58_get c Hc). cbn [jump_loop].
      unfold then_, if_, set_, pass, continue_, break_, G.fail, return_, read, var.
      Local Ltac jnorm := cbn [among existsb N.eqb Pos.eqb orb andb negb fst snd leave G.o_out G.o_inQuote G.o_found G.start G.end_ G.o_level is_open is_close kst].
      jnorm. change (G.k (emb k TJ st)) with (Z.of_nat k).
      destruct (N.eqb_spec c 34) as [->|H34].
      { jnorm.
        match goal with |- context [G.look_back fuel json snd G.rem_even ?y ?n ?s] => rewrite (look_back_loop snd G.rem_even y n s (kst k TJ st (negb inq) found start end_ level i, Z.of_nat il, Z.of_nat j) j (Nrm s)) end;
          [|reflexivity|lia|exact (rem_even_spec j)|reflexivity|intro; left; split; reflexivity].
        change (G.Ky (emb k TJ st) inq found (Z.of_nat start) (Z.of_nat end_) (Z.of_nat level), Z.of_nat i) with (kst k TJ st inq found start end_ level i).
        rewrite (toggled (qscan json j) inq (fun q => (kst k TJ st q found start end_ level i, Z.of_nat il, Z.of_nat j))).
        cbn [fst snd]. apply IH'. }
      destruct inq.
      { jnorm. match goal with |- context [if negb ?x then Cnt _ else Nrm _] => destruct x end; jnorm; apply IH'. }
      destruct (N.eqb_spec c 91) as [->|H91]; [|destruct (N.eqb_spec c 123) as [->|H123]].
      1, 2: jnorm; rewrite zsucc; apply IH'.
      destruct (N.eqb_spec c 93) as [->|H93]; [|destruct (N.eqb_spec c 125) as [->|H125]].
      1, 2: jnorm; change (G.k (emb k TJ st)) with (Z.of_nat k); rewrite (zsucc k), zltb; (destruct (Nat.ltb_spec il (S k)) as [Hl|Hl]; jnorm; [reflexivity|]); (replace (Z.of_nat il - 1) with (Z.of_nat (pred il)) by lia); apply IH'.
      destruct (N.eqb_spec c 44) as [->|H44].
      { jnorm. change (G.k (emb k TJ st)) with (Z.of_nat k). rewrite (zsucc k), zeqb. destruct (il =? S k)%nat; jnorm; [reflexivity|apply IH']. }
      apply N.eqb_neq in H34, H44, H91, H123, H93, H125. unfold is_open, is_close. rewrite ?H34, ?H44, ?H91, ?H123, ?H93, ?H125. jnorm. apply IH'.
  Qed.

  (** The comparison of the key with the path *)
  Lemma compare_spec (s : G.ky * Z) (same : bool) : forall rest j fu start, skipn j (G.currentPath (G.o_out (fst s))) = rest -> (length rest < fu)%nat ->
    G.start (fst s) = Z.of_nat start -> (start + length (G.currentPath (G.o_out (fst s))) <= length json)%nat ->
    leave (for_ fu (fun t => Ok (snd t <? zlen (G.currentPath (G.o_out (fst (fst (fst t))))))) (fun t => (fst t, snd t + 1)) (
      read (fun t => zat (G.currentPath (G.o_out (fst (fst (fst t))))) (snd t)) (fun x =>
      read (fun t => zat json (G.start (fst (fst (fst t))) + snd t)) (fun y =>
      if_ (fun _ => negb (x =? y)%N) (set_ (fun t => (fst (fst t), false, snd t)) ;; break_) continue_))) ((s, same), Z.of_nat j)) =
    Nrm (s, same && bytes_eqb (firstn (length rest) (skipn (start + j) json)) rest) :> flow _ G.result.
  Proof.
    induction rest as [|c r IH]; intros j fu start Hj Hfu Hs Hlen; (destruct fu as [|fu]; [cbn in Hfu; lia|]); cbn [for_ snd fst].
    - assert (Hn : nth_error (G.currentPath (G.o_out (fst s))) j = None) by (rewrite skipn_nth, Hj; reflexivity). apply nth_error_None in Hn.
      replace (Z.of_nat j <? zlen (G.currentPath (G.o_out (fst s)))) with false by (symmetry; unfold zlen; apply Z.ltb_ge; lia).
      cbn [length firstn bytes_eqb]. rewrite andb_true_r. reflexivity.
    - assert (Hn : nth_error (G.currentPath (G.o_out (fst s))) j = Some c) by (rewrite skipn_nth, Hj; reflexivity).
      assert (Hlt : (j < length (G.currentPath (G.o_out (fst s))))%nat) by (apply nth_error_Some; congruence).
      replace (Z.of_nat j <? zlen (G.currentPath (G.o_out (fst s)))) with true by (symmetry; unfold zlen; apply Z.ltb_lt; lia).
      cbn [length] in Hfu. specialize (IH (S j) fu start (skipn_more _ _ _ _ Hj) ltac:(lia) Hs Hlen).
      hide fu. unfold read, then_, if_, set_, break_, continue_. cbn [fst snd]. rewrite zat_nth, Hn, Hs, <- Nat2Z.inj_add, zat_nth.
      destruct (skipn (start + j) json) as [|y r'] eqn:Ey.
      { apply (f_equal (@length N)) in Ey. rewrite skipn_length in Ey. cbn [length] in Ey. lia. }
      rewrite (skipn_nth json), Ey. cbn [hd_error length firstn bytes_eqb]. rewrite (N.eqb_sym c y). destruct (y =? c)%N; cbn [negb fst snd andb].
      + rewrite zsucc, IH. rewrite Nat.add_succ_r, (skipn_more _ _ _ _ Ey). reflexivity.
      + cbn [leave fst]. rewrite andb_false_r. reflexivity.
  Qed.

  (** ** [resume] in the model of the key search *)
  Lemma resume_past : forall rest i R k level found inq start end_ st, (R <= i)%nat ->
    key_loop json path rest i R k level found inq start end_ st = key_loop json path rest i 0 k level found inq start end_ st.
  Proof.
    induction rest as [|c r IH]; intros i R k level found inq start end_ st HR; [reflexivity|]. cbn [key_loop].
    replace (i <? R)%nat with false by (symmetry; apply Nat.ltb_ge; exact HR). replace (i <? 0)%nat with false by (symmetry; apply Nat.ltb_ge; lia).
    rewrite !(IH (S i) R) by lia.
    assert (E : forall k level found inq start end_ st, key_loop json path r (S i) R k level found inq start end_ st = key_loop json path r (S i) 0 k level found inq start end_ st)
      by (intros; apply IH; lia).
    repeat match goal with |- context [match ?x with _ => _ end] => destruct x; rewrite ?E; try reflexivity end.
  Qed.
  Lemma resume_skip : forall rest i R k level found inq start end_ st, skipn i json = rest -> (i <= R <= length json)%nat ->
    key_loop json path rest i R k level found inq start end_ st = key_loop json path (skipn R json) R 0 k level found inq start end_ st.
  Proof.
    induction rest as [|c r IH]; intros i R k level found inq start end_ st Hi HR.
    - apply (f_equal (@length N)) in Hi as Hl. rewrite skipn_length in Hl. cbn [length] in Hl. assert (i = R) by lia. subst R. rewrite Hi. apply resume_past. lia.
    - destruct (Nat.eq_dec i R) as [->|Hne]; [rewrite Hi; apply resume_past; lia|]. cbn [key_loop].
      replace (i <? R)%nat with true by (symmetry; apply Nat.ltb_lt; lia). apply IH; [exact (skipn_more _ _ _ _ Hi)|lia].
  Qed.
  Lemma jump_range : forall rest j k il inq j', jump_loop json rest j k il inq = JComma j' -> (j <= j' < j + length rest)%nat.
  Proof.
    induction rest as [|c r IH]; intros j k il inq j' H; [discriminate H|]. cbn [jump_loop length] in *.
    repeat match type of H with context [if ?x then _ else _] => destruct x end; try discriminate H;
      try (apply IH in H; lia). injection H as <-. lia.
  Qed.

  Lemma same_flow {S} (x : flow S G.result) :
    match x with Nrm s => Nrm s | Cnt s => Cnt s | Brk s => Brk s | Gto s => Gto s | Ret r => Ret r | Pan => Pan | Out => Out end = x.
  Proof. destruct x; reflexivity. Qed.
  (** What follows the loop over the keys *)
  Definition k_fin (r : flow G.ky G.result) : flow G.fr G.result :=
    match r with
    | Nrm s => if G.o_found s then Nrm (G.to_char 44 true (G.o_out s)) else failed (EKeyNotFound (G.currentPath (G.o_out s)))
    | Ret r => Ret r | Cnt s => Cnt (G.o_out s) | Brk s => Brk (G.o_out s) | Gto s => Gto (G.o_out s) | Pan => Pan | Out => Out
    end.
  Definition key_end (o : nat * cst) : flow G.fr G.result := let '(k, st) := o in Nrm (emb k T0 st).
  Lemma key_loop_spec : forall fu rest i k level found inq start end_ st, skipn i json = rest -> (length rest < fu)%nat -> (end_ <= i)%nat ->
    k_fin (leave (for_ fu (fun s => Ok (snd s <? zlen json)) (fun s => (fst s, snd s + 1)) (G.key_body fuel json path) (kst k T44 st inq found start end_ level i))) =
    res_flow (key_loop json path rest i 0 k level found inq start end_ st) key_end.
  Proof.
    induction fu as [|fu IH]; intros rest i k level found inq start end_ st Hi Hfu Hend; [lia|]. cbn [for_].
    change (snd (kst k T44 st inq found start end_ level i)) with (Z.of_nat i).
    destruct rest as [|c r].
    - destruct (there i Hi) as (-> & _). cbn [leave fst kst k_fin G.o_found G.o_out key_loop]. destruct found; [|reflexivity]. cbn [res_flow key_end].
      unfold emb, G.to_char. cbn [G.offset G.currentPath G.isJSONChar G.braceType G.keyStart G.k]. rewrite T44_back. reflexivity.
    - destruct (here i c r Hi) as (Hat & -> & Hr & Hlt & Hc). cbn [length] in Hfu.
      assert (IHn : forall k level found inq start end_ st, (end_ <= S i)%nat ->
        k_fin (leave (for_ fu (fun s => Ok (snd s <? zlen json)) (fun s => (fst s, snd s + 1)) (G.key_body fuel json path)
          (G.Ky (emb k T44 st) inq found (Z.of_nat start) (Z.of_nat end_) (Z.of_nat level), Z.of_nat i + 1))) =
        res_flow (key_loop json path r (S i) 0 k level found inq start end_ st) key_end).
      { intros. rewrite zsucc. apply IH; [exact Hr|lia|lia]. }
      assert (IHj : forall j, (S i <= j < length json)%nat ->
        k_fin (leave (for_ fu (fun s => Ok (snd s <? zlen json)) (fun s => (fst s, snd s + 1)) (G.key_body fuel json path)
          (G.Ky (emb k T44 st) false found (Z.of_nat start) (Z.of_nat end_) (Z.of_nat level), Z.of_nat j + 1))) =
        res_flow (key_loop json path r (S i) (S j) k level found false start end_ st) key_end).
      { intros j Hj. rewrite zsucc. rewrite (resume_skip r (S i) (S j)) by (try exact Hr; lia). apply IH; [reflexivity|rewrite <- Hr, skipn_length in Hfu; rewrite skipn_length; lia|lia]. }
      clear IH. hide fu. unfold G.key_body. unfold read at 1. change (snd (kst k T44 st inq found start end_ level i)) with (Z.of_nat i). rewrite Hat. unfold read at 1.
      change (G.isJSONChar (G.o_out (fst (kst k T44 st inq found start end_ level i)))) with T44. rewrite (T44_get c Hc). cbn [key_loop]. change (i <? 0)%nat with false. cbv iota.
      unfold then_, if_, set_, pass, continue_, break_, goto_, label, G.fail, return_, read, var, G.o_to_out, G.o_to_inQuote, G.o_to_found, G.o_to_start, G.o_to_end, G.o_to_level.
      Local Ltac knorm := cbn [among existsb N.eqb Pos.eqb orb andb negb fst snd leave k_fin G.o_out G.o_inQuote G.o_found G.start G.end_ G.o_level is_open is_close kst G.k emb].
      knorm.
      destruct (N.eqb_spec c 34) as [->|H34].
      { knorm. destruct found; knorm; [apply IHn; lia|]. rewrite (zsucc k), zeqb. destruct (level =? S k)%nat; knorm; [|apply IHn; lia].
        match goal with |- context [G.look_back fuel json snd G.and_odd ?y ?n ?s] => rewrite (look_back_loop snd G.and_odd y n s (kst k T44 st (negb inq) false start end_ level i) i (Gto s)) end;
          [|reflexivity|lia|exact (and_odd_spec i)|reflexivity|intro; right; split; reflexivity].
        destruct (qscan json i) as [[|]|]; cbn [after_back]; knorm.
        - destruct inq; knorm; [apply IHn; lia|]. rewrite (zsucc i) at 1. apply IHn. lia.
        - apply IHn; lia.
        - destruct inq; knorm; [|apply IHn; lia]. rewrite (zsucc i) at 1. apply IHn. lia. }
      destruct inq.
      { knorm. match goal with |- context [if negb ?x then Cnt _ else Nrm _] => destruct x end; knorm; apply IHn; lia. }
      destruct (N.eqb_spec c 58) as [->|H58].
      { knorm. rewrite (zsucc k), zeqb. destruct (level =? S k)%nat; knorm; [|apply IHn; lia].
        assert (J : forall s, s = kst k T44 st false found start end_ level i ->
          k_fin (leave match match leave (leave (for_ fuel (fun s => Ok (snd s <? zlen json)) (fun s => (fst s, snd s + 1)) (G.jump_body fuel json)
              (G.Ky (G.to_char 58 false (G.to_char 44 true (G.o_out (fst s)))) (G.o_inQuote (fst s)) (G.o_found (fst s)) (G.start (fst s)) (G.end_ (fst s)) (G.o_level (fst s)), snd s, G.o_level (fst s), snd s)))
            with
            | Nrm s' => Cnt (G.Ky (G.to_char 58 true (G.to_char 44 false (G.o_out (fst s')))) (G.o_inQuote (fst s')) (G.o_found (fst s')) (G.start (fst s')) (G.end_ (fst s')) (G.o_level (fst s')), snd s')
            | x => x end with
            | Nrm s' | Cnt s' => loop (fst s', snd s' + 1) | Brk s' => Nrm s' | Gto s' => Gto s' | Ret r0 => Ret r0 | Pan => Pan | Out => Out end) =
          res_flow (match jump_loop json r (S i) k level false with
            | JComma j => key_loop json path r (S i) (S j) k level found false start end_ st
            | JFail => Err (EKeyNotFound (cur st))
            | JEnd inq' => key_loop json path r (S i) 0 k level found inq' start end_ st end) key_end).
        { intros s ->. knorm. unfold G.to_char. cbn [emb G.offset G.currentPath G.isJSONChar G.braceType G.keyStart G.k]. rewrite TJ_in.
          pose proof (jump_spec k st found start end_ level i (58%N :: r) i fuel level false Hi ltac:(rewrite <- Hi; apply short)) as E.
          unfold kst at 1 in E. unfold emb at 1 in E. rewrite E. clear E. change (jump_loop json (58%N :: r) i k level false) with (jump_loop json r (S i) k level false).
          destruct (jump_loop json r (S i) k level false) as [j| |q] eqn:Ej; [| reflexivity |].
          - cbn [kst fst snd G.o_out G.o_inQuote G.o_found G.start G.end_ G.o_level]. unfold G.to_char. cbn [emb G.offset G.currentPath G.isJSONChar G.braceType G.keyStart G.k]. rewrite TJ_out.
            apply IHj. apply jump_range in Ej. rewrite <- Hr, skipn_length in Ej. lia.
          - cbn [kst fst snd G.o_out G.o_inQuote G.o_found G.start G.end_ G.o_level]. unfold G.to_char. cbn [emb G.offset G.currentPath G.isJSONChar G.braceType G.keyStart G.k]. rewrite TJ_out.
            apply IHn. lia. }
        change (G.currentPath _) with (cur st) at 1.
        destruct (zlen (cur st) =? Z.of_nat end_ - Z.of_nat start) eqn:El.
        - apply Z.eqb_eq in El. unfold zlen in El.
          match goal with |- context [leave (for_ fuel ?cd ?ps ?bd ?s)] => assert (E : leave (for_ fuel cd ps bd s) = @Nrm _ G.result (kst k T44 st false found start end_ level i, key_match json (cur st) start end_)) end.
          { unfold key_match. replace (start + length (cur st) =? end_)%nat with true by (symmetry; apply Nat.eqb_eq; lia).
            pose proof (compare_spec (kst k T44 st false found start end_ level i) true (cur st) 0 fuel start eq_refl ltac:(lia) eq_refl ltac:(cbn; lia)) as C.
            rewrite Nat.add_0_r in C. exact C. }
          rewrite E. clear E. knorm. destruct (key_match json (cur st) start end_); knorm.
          + match goal with |- context [G.k (G.to_offset ?z ?f)] => change (G.k (G.to_offset z f)) with (Z.of_nat k) end. rewrite last_spec. fold (last_ k). destruct (last_ k); knorm.
            * cbn [res_flow key_end]. unfold emb, G.to_char, G.to_offset, G.to_keyStart. cbn [G.offset G.currentPath G.isJSONChar G.braceType G.keyStart G.k offset cur brace keyst]. rewrite T44_back, zsucc. reflexivity.
            * unfold G.to_offset. cbn [G.offset G.currentPath G.isJSONChar G.braceType G.keyStart G.k]. rewrite zsucc at 1.
              exact (IHn k level true false start end_ (CSt (S i) (brace st) (cur st) (keyst st)) ltac:(lia)).
          + rewrite same_flow. exact (J _ eq_refl).
        - replace (key_match json (cur st) start end_) with false.
          2: { unfold key_match. apply Z.eqb_neq in El. unfold zlen in El. destruct (Nat.eqb_spec (start + length (cur st)) end_); [lia|reflexivity]. }
          rewrite same_flow. exact (J _ eq_refl). }
      rewrite andb_false_r.
      destruct (N.eqb_spec c 91) as [->|H91].
      { knorm. destruct (Z.of_nat level =? Z.of_nat k + 1); knorm; (destruct found; knorm; [|rewrite (zsucc level); apply IHn; lia]);
          change (G.k (G.to_brace _ (G.to_offset _ _))) with (Z.of_nat k); rewrite zat_succ; (destruct (nth_error path (S k)) as [p|]; [|reflexivity]);
          knorm; cbn [res_flow key_end]; unfold emb, G.to_char, G.to_offset, G.to_brace, G.to_path; cbn [G.offset G.currentPath G.isJSONChar G.braceType G.keyStart G.k offset cur brace keyst]; rewrite T44_back; reflexivity. }
      destruct (N.eqb_spec c 123) as [->|H123].
      { knorm. destruct (Z.of_nat level =? Z.of_nat k + 1); knorm; (destruct found; knorm; [|rewrite (zsucc level); apply IHn; lia]);
          change (G.k (G.to_k (Z.of_nat k + 1) _)) with (Z.of_nat k + 1); rewrite zat_succ; (destruct (nth_error path (S k)) as [p|]; [|reflexivity]);
          knorm; unfold G.to_path, G.to_k; cbn [G.offset G.currentPath G.isJSONChar G.braceType G.keyStart G.k]; rewrite (zsucc level), (zsucc k);
          exact (IHn (S k) (S level) false false start end_ (CSt (offset st) (brace st) p (keyst st)) ltac:(lia)). }
      destruct (N.eqb_spec c 93) as [->|H93]; [|destruct (N.eqb_spec c 125) as [->|H125]].
      1, 2: knorm; (destruct (Z.of_nat level =? Z.of_nat k + 1); knorm); rewrite (zsucc k), zltb;
        (destruct (Nat.ltb_spec level (S k)) as [Hl|Hl]; knorm; [reflexivity|]); (replace (Z.of_nat level - 1) with (Z.of_nat (pred level)) by lia); apply IHn; lia.
      apply N.eqb_neq in H34, H58, H91, H123, H93, H125. unfold is_close. rewrite ?H34, ?H58, ?H91, ?H123, ?H93, ?H125. knorm. apply IHn. lia.
  Qed.
  Theorem key_search_spec k st : G.key_search fuel json path (emb k T0 st) =
    res_flow (key_loop json path (skipn (offset st) json) (offset st) 0 k k false false 0 0 st) key_end.
  Proof.
    pose proof (key_loop_spec fuel (skipn (offset st) json) (offset st) k k false false 0 0 st eq_refl (short _) ltac:(lia)) as E.
    rewrite <- E. clear E. unfold G.key_search. unfold then_ at 1, set_ at 1. unfold then_ at 1, var at 1.
    match goal with |- context [for_ fuel _ _ _ ?x] => change x with (kst k T44 st false false 0 0 k (offset st)) end. hide fuel.
    destruct (loop (kst k T44 st false false 0 0 k (offset st))) as [[[f q fo n1 n2 n3] z]| | | | | |]; cbn [leave fst k_fin]; try reflexivity.
    unfold then_, if_, set_, pass, G.fail, return_, G.o_to_out. cbn [G.o_found G.o_out fst snd]. destruct fo; reflexivity.
  Qed.

  (** ** The loop over the path *)
  Lemma k_range : forall rest i R k level found inq start end_ st k' st', key_loop json path rest i R k level found inq start end_ st = Ok (k', st') ->
    (k < length path -> k <= k' < length path)%nat.
  Proof.
    induction rest as [|c r IH]; intros i R k level found inq start end_ st k' st' H Hk; cbn [key_loop] in H.
    - destruct found; [|discriminate H]. injection H as <- _. lia.
    - repeat match type of H with context [match ?x with _ => _ end] => let E := fresh "E" in destruct x eqn:E end; try discriminate H;
        try (injection H as <- _; lia); try (apply IH in H; lia).
      assert (S k < length path)%nat by (apply nth_error_Some; congruence). apply IH in H; lia.
  Qed.
  Lemma outer_past : forall todo k R st, (R <= k)%nat -> outer json path todo k R st = outer json path todo k 0 st.
  Proof.
    induction todo as [|p todo IH]; intros k R st HR; [reflexivity|]. cbn [outer].
    replace (k <? R)%nat with false by (symmetry; apply Nat.ltb_ge; exact HR). change (k <? 0)%nat with false. cbv iota.
    destruct (brace st =? 91)%N; [|reflexivity]. destruct (arr_step json path k st); cbn [bind]; try reflexivity. apply IH. lia.
  Qed.
  Lemma outer_skip : forall todo k R st, skipn k path = todo -> (k <= R <= length path)%nat -> outer json path todo k R st = outer json path (skipn R path) R 0 st.
  Proof.
    induction todo as [|p todo IH]; intros k R st Hk HR.
    - apply (f_equal (@length bytes)) in Hk as Hl. rewrite skipn_length in Hl. cbn [length] in Hl. assert (k = R) by lia. subst R. rewrite Hk. reflexivity.
    - destruct (Nat.eq_dec k R) as [->|Hne]; [rewrite Hk; apply outer_past; lia|]. cbn [outer].
      replace (k <? R)%nat with true by (symmetry; apply Nat.ltb_lt; lia). apply IH; [exact (skipn_more _ _ _ _ Hk)|lia].
  Qed.
  Lemma outer_spec : forall fu todo k st, skipn k path = todo -> (length todo < fu)%nat ->
    exists k', for_ fu (fun f => Ok (G.k f <? zlen path)) (fun f => G.to_k (G.k f + 1) f)
      (if_ (fun f => (G.braceType f =? 91)%N) (G.array_search fuel json path) (G.key_search fuel json path)) (emb k T0 st) =
    res_flow (outer json path todo k 0 st) (fun st' => Nrm (emb k' T0 st')).
  Proof.
    induction fu as [|fu IH]; intros todo k st Hk Hfu; [lia|]. cbn [for_]. change (G.k (emb k T0 st)) with (Z.of_nat k).
    unfold zlen. rewrite zltb. destruct todo as [|p todo].
    - replace (k <? length path)%nat with false; [exists k; reflexivity|]. symmetry. apply Nat.ltb_ge. apply (f_equal (@length bytes)) in Hk. rewrite skipn_length in Hk. cbn [length] in Hk. lia.
    - assert (Hlt : (k < length path)%nat) by (apply (f_equal (@length bytes)) in Hk; rewrite skipn_length in Hk; cbn [length] in Hk; lia).
      replace (k <? length path)%nat with true by (symmetry; apply Nat.ltb_lt; exact Hlt). cbn [length] in Hfu. cbn [outer]. change (k <? 0)%nat with false. cbv iota.
      unfold if_ at 1. change (G.braceType (emb k T0 st)) with (brace st). destruct (brace st =? 91)%N.
      + rewrite array_search_spec. destruct (arr_step json path k st) as [st'|e|]; cbn [bind res_flow]; try (exists k; reflexivity).
        change (G.to_k (G.k (emb k T0 st') + 1) (emb k T0 st')) with (G.Fr (Z.of_nat (offset st')) (cur st') T0 (brace st') (zks (keyst st')) (Z.of_nat k + 1)).
        rewrite zsucc. exact (IH todo (S k) st' (skipn_more _ _ _ _ Hk) ltac:(lia)).
      + rewrite key_search_spec. destruct (key_loop json path (skipn (offset st) json) (offset st) 0 k k false false 0 0 st) as [[k1 st']|e|] eqn:Ek; cbn [bind res_flow key_end]; try (exists k; reflexivity).
        apply k_range in Ek; [|exact Hlt].
        change (G.to_k (G.k (emb k1 T0 st') + 1) (emb k1 T0 st')) with (G.Fr (Z.of_nat (offset st')) (cur st') T0 (brace st') (zks (keyst st')) (Z.of_nat k1 + 1)).
        rewrite zsucc. rewrite (outer_skip todo (S k) (S k1) st' (skipn_more _ _ _ _ Hk) ltac:(lia)).
        apply (IH (skipn (S k1) path) (S k1) st' eq_refl). rewrite skipn_length. apply (f_equal (@length bytes)) in Hk. rewrite skipn_length in Hk. cbn [length] in Hk. lia.
  Qed.

  (** ** Blanks *)
  Lemma trim_loop k st : forall rest i fu, skipn i json = rest -> (length rest < fu)%nat ->
    for_ fu (fun f => do c <- zat json (G.offset f); Ok (space c)) (fun f => f) (
      if_ (fun f => G.offset f >? zlen json - 1) (G.fail (fun f => G.bad (G.offset f))) pass ;;
      set_ (fun f => G.to_offset (G.offset f + 1) f) ;;
      continue_) (emb k T0 (CSt i (brace st) (cur st) (keyst st))) =
    res_flow (skip_space rest i) (fun o => Nrm (emb k T0 (CSt o (brace st) (cur st) (keyst st)))).
  Proof.
    induction rest as [|c r IH]; intros i fu Hi Hfu; (destruct fu as [|fu]; [cbn in Hfu; lia|]); cbn [for_ snd fst].
    - change (G.offset (emb k T0 {| offset := i; brace := brace st; cur := cur st; keyst := keyst st |})) with (Z.of_nat i). destruct (there i Hi) as (_ & ->). reflexivity.
    - destruct (here i c r Hi) as (Hat & Hz & Hr & Hlt & _). cbn [length] in Hfu. specialize (IH (S i) fu Hr ltac:(lia)).
      change (G.offset (emb k T0 {| offset := i; brace := brace st; cur := cur st; keyst := keyst st |})) with (Z.of_nat i). rewrite Hat. cbn [bind skip_space].
      destruct (space c); [|reflexivity]. rewrite <- IH. clear IH. hide fu. unfold then_, if_, set_, pass, continue_.
      change (G.offset (emb k T0 {| offset := i; brace := brace st; cur := cur st; keyst := keyst st |})) with (Z.of_nat i).
      replace (Z.of_nat i >? zlen json - 1) with false; [unfold emb, G.to_offset; cbn [G.offset G.currentPath G.isJSONChar G.braceType G.keyStart G.k offset cur brace keyst]; rewrite zsucc; reflexivity|]. symmetry. rewrite Z.gtb_ltb. apply Z.ltb_ge. unfold zlen. lia.
  Qed.

  (** ** The end of the value *)
  Definition found_end (k : nat) (st : cst) (o : option nat) (f : nat -> flow G.fr G.result) : flow G.fr G.result := match o with Some e => f e | None => Nrm (emb k T0 st) end.
  Lemma braced_loop k st : forall rest i fu level inq, skipn i json = rest -> (length rest < fu)%nat ->
    ((1 <= level)%nat \/ exists c r, rest = c :: r /\ is_open c = true /\ inq = false) ->
    leave (leave (leave (for_ fu (fun s => Ok (snd s <? zlen json)) (fun s => (fst s, snd s + 1)) (
        read (fun s => zat json (snd s)) (fun curr =>
        read (fun s => zat (G.isJSONChar (fst (fst (fst s)))) (Z.of_N curr)) (fun is_char =>
        if_ (fun _ => negb is_char) continue_ pass ;;
        if_ (fun _ => (curr =? 34)%N)
          (G.look_back fuel json snd G.rem_odd
             (set_ (fun s => let '(f, l, q, i, n) := s in (f, l, negb q, i, n)) ;; break_)
             break_ ;;
           continue_) pass ;;
        if_ (fun s => snd (fst s)) continue_
          (if_ (fun _ => (curr =? 91) || (curr =? 123))%N
             (set_ (fun s => let '(f, l, q, i) := s in (f, l + 1, q, i)) ;; continue_) pass ;;
           if_ (fun _ => (curr =? 93) || (curr =? 125))%N
             (if_ (fun s => snd (fst (fst s)) =? 1)
                (return_ (fun s => (G.keyStart (fst (fst (fst s))), G.offset (fst (fst (fst s))), snd s + 1, None))) pass ;;
              set_ (fun s => let '(f, l, q, i) := s in (f, l - 1, q, i)) ;;
              continue_) pass ;;
           continue_)))) (emb k T0 st, Z.of_nat level, inq, Z.of_nat i)))) =
    found_end k st (close_loop json rest i level inq) (fun e => Ret (zks (keyst st), Z.of_nat (offset st), Z.of_nat e, None)).
  Proof.
    induction rest as [|c r IH]; intros i fu level inq Hi Hfu Hl; (destruct fu as [|fu]; [cbn in Hfu; lia|]); cbn [for_ snd fst].
    - destruct (there i Hi) as (-> & _). reflexivity.
    - destruct (here i c r Hi) as (Hat & -> & Hr & Hlt & Hc). cbn [length] in Hfu.
      specialize (IH (S i) fu). rewrite <- zsucc in IH.
      hide fu. unfold read at 1. cbn [snd fst]. rewrite Hat. unfold read at 1. cbn [snd fst].
      change (G.isJSONChar (emb k T0 st)) with T0. rewrite (T0_get c Hc). cbn [close_loop].
      unfold then_, if_, set_, pass, continue_, break_, return_.
      Local Ltac bnorm := cbn [among existsb N.eqb Pos.eqb orb andb negb fst snd leave is_open is_close].
      bnorm.
      destruct (N.eqb_spec c 34) as [->|H34].
      { bnorm. rewrite (look_back_loop snd G.rem_odd _ _ _ (emb k T0 st, Z.of_nat level, negb inq, Z.of_nat i) i (Nrm (emb k T0 st, Z.of_nat level, inq, Z.of_nat i)));
          [|reflexivity|lia|exact (rem_odd_spec i)|reflexivity|intro; left; split; reflexivity].
        rewrite (toggled (qscan json i) inq (fun q => (emb k T0 st, Z.of_nat level, q, Z.of_nat i))). cbn [fst snd]. apply IH; [exact Hr|lia|].
        destruct Hl as [Hl|(x & y & E & Ho & _)]; [left; exact Hl|]. injection E as <- <-. discriminate Ho. }
      assert (Hl' : inq = true -> (1 <= level)%nat) by (intros ->; destruct Hl as [Hl|(x & y & E & Ho & D)]; [exact Hl|discriminate D]).
      destruct inq.
      { bnorm. match goal with |- context [if negb ?x then Cnt _ else Nrm _] => destruct x end; bnorm; (apply IH; [exact Hr|lia|left; apply Hl'; reflexivity]). }
      destruct (N.eqb_spec c 91) as [->|H91]; [|destruct (N.eqb_spec c 123) as [->|H123]].
      1, 2: bnorm; rewrite zsucc; apply IH; [exact Hr|lia|left; lia].
      assert (Hl1 : (1 <= level)%nat) by (destruct Hl as [Hl|(x & y & E & Ho & _)]; [exact Hl|]; injection E as <- <-; unfold is_open in Ho; apply N.eqb_neq in H91, H123; rewrite H91, H123 in Ho; discriminate Ho).
      destruct (N.eqb_spec c 93) as [->|H93]; [|destruct (N.eqb_spec c 125) as [->|H125]].
      1, 2: bnorm; change (Z.of_nat level =? 1) with (Z.of_nat level =? Z.of_nat 1); rewrite zeqb; (destruct (Nat.eqb_spec level 1) as [E1|E1]; bnorm; [rewrite zsucc; reflexivity|]);
        (replace (Z.of_nat level - 1) with (Z.of_nat (pred level)) by lia); apply IH; [exact Hr|lia|left; lia].
      apply N.eqb_neq in H34, H91, H123, H93, H125. unfold is_open, is_close. rewrite ?H34, ?H91, ?H123, ?H93, ?H125. bnorm.
      match goal with |- context [if negb ?x then Cnt _ else Nrm _] => destruct x end; bnorm; (apply IH; [exact Hr|lia|left; exact Hl1]).
  Qed.
  Lemma quoted_loop k st : forall fu rest i, skipn i json = rest -> (length rest < fu)%nat ->
    leave (for_ fu (fun s => Ok (snd s <? zlen json)) (fun s => (fst s, snd s + 1)) (
      read (fun s => zat json (snd s)) (fun curr =>
      if_ (fun _ => (curr =? 92)%N) (set_ (fun s => (fst s, snd s + 1)) ;; continue_)
        (if_ (fun _ => (curr =? 34)%N) (return_ (fun s => (G.keyStart (fst s), G.offset (fst s) + 1, snd s, None))) pass))) (emb k T0 st, Z.of_nat i)) =
    found_end k st (quote_loop rest i) (fun e => Ret (zks (keyst st), Z.of_nat (S (offset st)), Z.of_nat e, None)).
  Proof.
    induction fu as [|fu IH]; intros rest i Hi Hfu; [lia|]. cbn [for_ snd fst]. destruct rest as [|c r].
    - destruct (there i Hi) as (-> & _). reflexivity.
    - destruct (here i c r Hi) as (Hat & -> & Hr & Hlt & Hc). cbn [length] in Hfu. pose proof (IH r (S i) Hr ltac:(lia)) as IH1. rewrite <- zsucc in IH1.
      assert (IH2 : leave (for_ fu (fun s => Ok (snd s <? zlen json)) (fun s => (fst s, snd s + 1)) (
          read (fun s => zat json (snd s)) (fun curr =>
          if_ (fun _ => (curr =? 92)%N) (set_ (fun s => (fst s, snd s + 1)) ;; continue_)
            (if_ (fun _ => (curr =? 34)%N) (return_ (fun s => (G.keyStart (fst s), G.offset (fst s) + 1, snd s, None))) pass))) (emb k T0 st, Z.of_nat i + 1 + 1)) =
        found_end k st (match r with [] => None | _ :: r' => quote_loop r' (S (S i)) end) (fun e => Ret (zks (keyst st), Z.of_nat (S (offset st)), Z.of_nat e, None))).
      { rewrite !zsucc. destruct r as [|d r'].
        - apply (IH [] (S (S i))); [|cbn in Hfu |- *; lia]. apply skipn_all2. apply (f_equal (@length N)) in Hr. rewrite skipn_length in Hr. cbn [length] in Hr. lia.
        - apply IH; [exact (skipn_more _ _ _ _ Hr)|cbn [length] in Hfu; lia]. }
      clear IH. hide fu. unfold read, then_, if_, set_, pass, continue_, return_. cbn [snd fst]. rewrite Hat. cbn [quote_loop].
      destruct (c =? 92)%N; [exact IH2|]. destruct (c =? 34)%N; [|exact IH1]. cbn [leave found_end]. change (G.offset (emb k T0 st)) with (Z.of_nat (offset st)). rewrite zsucc. reflexivity.
  Qed.
  Lemma other_loop k st : forall rest i fu, skipn i json = rest -> (length rest < fu)%nat ->
    leave (for_ fu (fun s => Ok (snd s <? zlen json)) (fun s => (fst s, snd s + 1)) (
      read (fun s => zat json (snd s)) (fun curr =>
      if_ (fun _ => space curr || (curr =? 44) || (curr =? 93) || (curr =? 125))%N
        (if_ (fun s => G.offset (fst s) =? snd s) (G.fail (fun _ => EEmptyArray)) pass ;;
         return_ (fun s => (G.keyStart (fst s), G.offset (fst s), snd s, None))) pass)) (emb k T0 st, Z.of_nat i)) =
    found_end k st (token_loop rest i) (fun e => if (e =? offset st)%nat then failed EEmptyArray else Ret (zks (keyst st), Z.of_nat (offset st), Z.of_nat e, None)).
  Proof.
    induction rest as [|c r IH]; intros i fu Hi Hfu; (destruct fu as [|fu]; [cbn in Hfu; lia|]); cbn [for_ snd fst].
    - destruct (there i Hi) as (-> & _). reflexivity.
    - destruct (here i c r Hi) as (Hat & -> & Hr & Hlt & Hc). cbn [length] in Hfu. specialize (IH (S i) fu Hr ltac:(lia)). rewrite <- zsucc in IH.
      hide fu. unfold read, then_, if_, set_, pass, return_, G.fail, return_. cbn [snd fst]. rewrite Hat. cbn [token_loop].
      destruct (space c || (c =? 44)%N || (c =? 93)%N || (c =? 125)%N); [|exact IH]. change (G.offset (emb k T0 st)) with (Z.of_nat (offset st)). rewrite zeqb, Nat.eqb_sym. cbn [found_end].
      destruct (i =? offset st)%nat; reflexivity.
  Qed.

  Definition answer (r : res (option nat * nat * nat)) : flow G.fr G.result :=
    res_flow r (fun o => let '(ks, s, e) := o in Ret (zks ks, Z.of_nat s, Z.of_nat e, None)).
  Lemma trim_spec k st : G.trim fuel json (emb k T0 st) = res_flow (skip_space (skipn (offset st) json) (offset st)) (fun o => Nrm (emb k T0 (CSt o (brace st) (cur st) (keyst st)))).
  Proof. destruct st as [o br cu ks]. exact (trim_loop k (CSt o br cu ks) (skipn o json) o fuel eq_refl (short _)). Qed.
  Lemma at_zat i : zat json (Z.of_nat i) = at_ json i.
  Proof. rewrite zat_nth. unfold at_. reflexivity. Qed.
  Lemma value_end_spec k st : (read (fun f => zat json (G.offset f)) (fun c =>
      if_ (fun _ => (c =? 91) || (c =? 123))%N (G.braced fuel json) (if_ (fun _ => (c =? 34)%N) (G.quoted fuel json) (G.other fuel json))) ;;
    G.fail (fun f => G.bad (G.offset f))) (emb k T0 st) = answer (value_end json (keyst st) (offset st)).
  Proof.
    unfold then_, read, if_. change (G.offset (emb k T0 st)) with (Z.of_nat (offset st)). rewrite at_zat. unfold value_end.
    destruct (at_ json (offset st)) as [c|e|] eqn:Ec; cbn [bind]; try reflexivity.
    2: { unfold at_ in Ec. destruct (nth_error json (offset st)); discriminate Ec. }
    fold (is_open c). destruct (is_open c) eqn:Ho.
    - assert (E : G.braced fuel json (emb k T0 st) = found_end k st (close_loop json (skipn (offset st) json) (offset st) 0 false) (fun e => Ret (zks (keyst st), Z.of_nat (offset st), Z.of_nat e, None))).
      { apply (braced_loop k st (skipn (offset st) json) (offset st) fuel 0 false eq_refl (short _)). right. unfold at_ in Ec. rewrite skipn_nth in Ec.
        destruct (skipn (offset st) json) as [|d r]; [discriminate Ec|]. injection Ec as ->. exists c, r. repeat split; exact Ho. }
      rewrite E. destruct (close_loop json (skipn (offset st) json) (offset st) 0 false); cbn [found_end]; [reflexivity|].
      unfold G.fail, return_, answer, res_flow, failed, G.bad. change (G.offset (emb k T0 st)) with (Z.of_nat (offset st)). rewrite Nat2Z.id. reflexivity.
    - destruct (c =? 34)%N.
      + assert (E : G.quoted fuel json (emb k T0 st) = found_end k st (quote_loop (skipn (S (offset st)) json) (S (offset st))) (fun e => Ret (zks (keyst st), Z.of_nat (S (offset st)), Z.of_nat e, None))).
        { unfold G.quoted, var. change (G.offset (emb k T0 st)) with (Z.of_nat (offset st)). rewrite zsucc. apply (quoted_loop k st fuel (skipn (S (offset st)) json) (S (offset st)) eq_refl (short _)). }
        rewrite E. destruct (quote_loop (skipn (S (offset st)) json) (S (offset st))); cbn [found_end]; [reflexivity|].
        unfold G.fail, return_, answer, res_flow, failed, G.bad. change (G.offset (emb k T0 st)) with (Z.of_nat (offset st)). rewrite Nat2Z.id. reflexivity.
      + assert (E : G.other fuel json (emb k T0 st) = found_end k st (token_loop (skipn (offset st) json) (offset st)) (fun e => if (e =? offset st)%nat then failed EEmptyArray else Ret (zks (keyst st), Z.of_nat (offset st), Z.of_nat e, None))).
        { apply (other_loop k st (skipn (offset st) json) (offset st) fuel eq_refl (short _)). }
        rewrite E. destruct (token_loop (skipn (offset st) json) (offset st)) as [e|]; cbn [found_end]; [destruct (e =? offset st)%nat; reflexivity|].
        unfold G.fail, return_, answer, res_flow, failed, G.bad. change (G.offset (emb k T0 st)) with (Z.of_nat (offset st)). rewrite Nat2Z.id. reflexivity.
  Qed.

  Lemma hd_match {A B} (l : list A) (X : A -> res B) : match l with [] => Panic | x :: _ => X x end = match nth_error l 0 with Some x => X x | None => Panic end.
  Proof. destruct l; reflexivity. Qed.
  Theorem core_go_core : G.core_go fuel json justStart path = answer (core json justStart path).
  Proof.
    unfold G.core_go, core. unfold zlen. change 2 with (Z.of_nat 2). rewrite zltb. destruct (length json <? 2)%nat; [reflexivity|].
    change 0 with (Z.of_nat 0) at 1. rewrite zat_nth. 
    match goal with |- _ = answer (match path with [] => Panic | x :: _ => @?X x end) => rewrite (hd_match path X) end.
    destruct (nth_error path 0) as [p0|]; [|reflexivity]. cbv beta.
    unfold G.search. change (G.Fr 0 p0 G.table 0 (-1) 0) with (emb 0 T0 (CSt 0 0%N p0 None)).
    unfold then_ at 1. rewrite trim_spec. cbn [offset skipn].
    destruct (skip_space json 0) as [off|e|]; cbn [res_flow bind brace cur keyst]; try reflexivity.
    unfold then_ at 1. unfold read at 1. change (G.offset (emb 0 T0 {| offset := off; brace := 0; cur := p0; keyst := None |})) with (Z.of_nat off). rewrite at_zat.
    destruct (at_ json off) as [br|e|] eqn:Ea; cbn [bind]; try reflexivity. 2: { unfold at_ in Ea. destruct (nth_error json off); discriminate Ea. }
    unfold set_ at 1. change (G.to_brace br (emb 0 T0 {| offset := off; brace := 0; cur := p0; keyst := None |})) with (emb 0 T0 (CSt off br p0 None)).
    unfold then_ at 1. destruct (outer_spec fuel path 0 (CSt off br p0 None) eq_refl Hpath) as (k' & ->).
    destruct (outer json path path 0 0 (CSt off br p0 None)) as [st|e|]; cbn [res_flow bind]; try reflexivity.
    unfold then_ at 1. unfold if_ at 1. change (G.offset (emb k' T0 st)) with (Z.of_nat (offset st)). change (Z.of_nat (offset st) =? 0) with (Z.of_nat (offset st) =? Z.of_nat 0). rewrite zeqb.
    destruct (offset st =? 0)%nat; [reflexivity|]. unfold pass at 1. unfold then_ at 1. rewrite trim_spec.
    destruct (skip_space (skipn (offset st) json) (offset st)) as [off'|e|]; cbn [res_flow bind]; try reflexivity.
    destruct justStart; [reflexivity|]. unfold then_ at 1. unfold pass at 1. apply value_end_spec.
  Qed.
End CoreGo.

Theorem core_go_as_core fuel json justStart path : Forall (fun c => (c < 256)%N) json -> (length json < fuel)%nat -> (length path < fuel)%nat ->
  G.core_go fuel json justStart path =
  match core json justStart path with
  | Ok (None, start, end_) => Ret (-1, Z.of_nat start, Z.of_nat end_, None)
  | Ok (Some key, start, end_) => Ret (Z.of_nat key, Z.of_nat start, Z.of_nat end_, None)
  | Err e => Ret (-1, -1, -1, Some e)
  | Panic => Pan
  end.
Proof. intros Hb Hj Hp. rewrite core_go_core by assumption. unfold answer, res_flow. destruct (core json justStart path) as [[[[key|] start] end_]|e|]; reflexivity. Qed.
Theorem core_go_ends fuel json justStart path : Forall (fun c => (c < 256)%N) json -> (length json < fuel)%nat -> (length path < fuel)%nat ->
  G.core_go fuel json justStart path <> Out /\ forall more, (fuel <= more)%nat -> G.core_go more json justStart path = G.core_go fuel json justStart path.
Proof.
  intros Hb Hj Hp. split.
  - rewrite core_go_core by assumption. unfold answer, res_flow. destruct (core json justStart path) as [[[ks s] e]|e|]; discriminate.
  - intros more Hm. rewrite !core_go_core by (try assumption; lia). reflexivity.
Qed.
