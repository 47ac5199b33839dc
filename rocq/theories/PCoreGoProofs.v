(** pCore statement by statement (PCoreGo.v) computes what the model in Pointers.v computes. *)
From Coq Require Import String.
From Verif Require Import GoStd GoLang Core SpecPtr Pointers.
From Verif Require CoreGo IterGo PCoreGo.
From Verif Require Import CoreGoProofs IterGoProofs.

Local Open Scope Z_scope.
Module Q := PCoreGo.

Section PCore.
  Variables (fuel : nat) (json : bytes).
  Hypothesis Hbytes : Forall (fun c => (c < 256)%N) json.
  Hypothesis Hjson : (length json < fuel)%nat.

  Definition reached (r : res heap) : flow unit heap := match r with Ok h => Ret h | _ => Pan end.
  (** The variables, at a place where the model has [start], [stop] and [vs] *)
  Definition emb (inq : bool) (start stop : nat) (key : bytes) (vs : nat) (last : N) (braces idx : sequance) (h : heap) (core : option nat) : Q.pc :=
    Q.Pc inq braces idx (Z.of_nat start) (Z.of_nat stop) key (Z.of_nat vs) last h core.
  Definition finish (r : flow Q.pc heap) : flow unit heap := returns (match r with Nrm s => Ret (Q.hp s) | x => x end).

  Lemma look inq b i z e k v l h c n : (n <= length json)%nat -> inq = true ->
    G.look_back fuel json snd G.and_odd (set_ (fun t => (Q.q_to_inQuote (negb (Q.q_inQuote (fst (fst t)))) (fst (fst t)), snd (fst t), snd t)) ;; break_) goto_ (Q.Pc inq b i z e k v l h c, Z.of_nat n) =
    after_back (qscan json n) (Q.Pc true b i z e k v l h c, Z.of_nat n) (Nrm (Q.Pc false b i z e k v l h c, Z.of_nat n)) (Gto (Q.Pc true b i z e k v l h c, Z.of_nat n)) :> flow _ heap.
  Proof.
    intros Hn ->. apply (look_back_loop fuel json [] Hjson ltac:(cbn; lia)); try reflexivity; [exact Hn|intros; apply and_odd_spec; assumption|].
    intro. right. split; reflexivity.
  Qed.

  Lemma node_spec l v (enter : bool) s : Q.node l v enter s =
    match (do l <- l (fst s); do v <- v s; hang (Q.hp (fst s)) (Q.core (fst s)) l v) with
    | Ok (h, n) => Nrm (let t := Q.q_to_heap h (fst s) in if enter then Q.q_to_core (Some n) t else t, snd s)
    | _ => Pan
    end.
  Proof.
    unfold Q.node, Q.step, Q.upd, read, set_, hang. destruct (l (fst s)); [|reflexivity..]. cbn [bind]. destruct (v s); [|reflexivity..]. cbn [bind alloc fst].
    destruct (push_down _ _ _); reflexivity.
  Qed.

  Ltac pnorm := unfold Q.step, Q.upd, then_, if_, read, set_, pass, continue_, break_, label;
    cbn [fst snd Q.q_inQuote Q.braceList Q.indexList Q.q_start Q.q_end Q.q_key Q.valStart Q.q_last Q.hp Q.core
         Q.q_to_inQuote Q.q_to_brace Q.q_to_index Q.q_to_start Q.q_to_end Q.q_to_key Q.q_to_val Q.q_to_last Q.q_to_heap Q.q_to_core bind].

  Lemma zslice_int z j : zslice json z (Z.of_nat j) = slice_int json z j.
  Proof.
    unfold slice_int. destruct (Z.ltb_spec z 0) as [L|L]; [unfold zslice; destruct (Z.ltb_spec z 0); [reflexivity|lia]|].
    rewrite <- (Z2Nat.id z) at 1 by exact L. apply zslice_slice.
  Qed.

  Lemma p_loop : forall rest i fu inq start stop key vs last braces idx h core, skipn i json = rest -> (length rest < fu)%nat ->
    finish (leave (for_ fu (fun s => Ok (snd s <? zlen json)) (fun s => (fst s, snd s + 1)) (Q.p_body fuel json) (emb inq start stop key vs last braces idx h core, Z.of_nat i))) =
    reached (q_loop json rest i inq start stop key vs last braces idx h core).
  Proof.
    Local Ltac one json h core idx braces :=
      match goal with
      | |- context [slice json ?a ?i] => destruct (slice json a i); cbn [bind]
      | |- context [slice_int json ?a ?i] => destruct (slice_int json a i); cbn [bind]
      | |- context [sq_last idx] => destruct (sq_last idx); cbn [bind]
      | |- context [hang h core ?l ?v] => destruct (hang h core l v) as [[? ?]|?|]; cbn [bind]; pnorm
      | |- context [sq_inc idx] => destruct (sq_inc idx); cbn [bind]; pnorm
      | |- context [sq_push idx ?v] => destruct (sq_push idx v); cbn [bind]; pnorm
      | |- context [sq_push braces ?v] => destruct (sq_push braces v); cbn [bind]; pnorm
      | |- context [sq_pop braces] => destruct (sq_pop braces) as [[? ?]|?|]; cbn [bind]; pnorm
      | |- context [write ?h core ?f] => destruct (write h core f); cbn [bind]; pnorm
      | |- context [sq_pop idx] => destruct (sq_pop idx) as [[? ?]|?|]; cbn [bind]; pnorm
      | |- context [deref ?h core] => destruct (deref h core) as [[? ?]|?|]; cbn [bind]; pnorm
      end.
    induction rest as [|c r IH]; intros i fu inq start stop key vs last braces idx h core Hi Hfu; (destruct fu as [|fu]; [cbn in Hfu; lia|]); cbn [for_ snd fst].
    - destruct (there fuel json [] Hjson ltac:(cbn; lia) i Hi) as [-> _]. reflexivity.
    - destruct (here fuel json [] Hbytes Hjson ltac:(cbn; lia) i c r Hi) as (Hz & Hlt & Hs & Hl & Hc). rewrite Hlt.
      assert (IH' := fun inq start stop key vs last braces idx h core => IH (S i) fu inq start stop key vs last braces idx h core Hs ltac:(cbn in Hfu; lia)). clear IH.
      hide fu. unfold Q.p_body. unfold read at 1. cbn [snd]. rewrite Hz. unfold read at 1. rewrite (F7_get c Hc). unfold then_ at 1, if_ at 1. unfold among. cbn [existsb].
      cbn [q_loop]. unfold is_open, is_close.
      destruct (N.eqb_spec c 34) as [->|N34].
      { cbn [N.eqb Pos.eqb orb negb]. unfold emb. pnorm. destruct inq.
        - rewrite look by (lia || reflexivity). destruct (qscan json i) as [[|]|]; cbn [after_back]; pnorm; rewrite ?zsucc; apply IH'.
        - pnorm. rewrite ?zsucc. apply IH'. }
      destruct (N.eqb_spec c 44) as [->|N44]; [|destruct (N.eqb_spec c 58) as [->|N58]; [|destruct (N.eqb_spec c 91) as [->|N91]; [|destruct (N.eqb_spec c 93) as [->|N93]; [|destruct (N.eqb_spec c 123) as [->|N123]; [|destruct (N.eqb_spec c 125) as [->|N125]]]]]];
        cbn [N.eqb Pos.eqb orb negb andb]; unfold emb; pnorm; (destruct inq; cbn [fst snd]; [rewrite zsucc; apply IH'|]).
      + (* a comma *)
        destruct (N.eqb_spec last 58) as [->|L58]; [|destruct (N.eqb_spec last 44) as [->|L44]; [|destruct (N.eqb_spec last 91) as [->|L91]]]; cbn [N.eqb Pos.eqb orb];
          rewrite ?node_spec; unfold Q.keyLabel, Q.indexLabel, Q.value; pnorm; rewrite ?zslice_slice;
          repeat one json h core idx braces; try reflexivity; rewrite zsucc; apply IH'.
      + (* a colon *)
        rewrite zslice_slice. destruct (slice json start stop); try reflexivity. cbn [bind]. pnorm. rewrite zsucc. apply IH'.
      + destruct (N.eqb_spec last 58) as [->|L58]; cbn [N.eqb Pos.eqb orb]; rewrite ?node_spec; unfold Q.keyLabel, Q.indexLabel, Q.value; pnorm;
          repeat one json h core idx braces; try reflexivity; rewrite zsucc; apply IH'.
      + destruct (N.eqb_spec last 58) as [->|L58]; [|destruct (N.eqb_spec last 44) as [->|L44]]; cbn [N.eqb Pos.eqb orb];
          rewrite ?node_spec; unfold Q.keyLabel, Q.indexLabel, Q.value; pnorm; rewrite ?zslice_slice; cbn [bind];
          repeat (rewrite ?zsucc, ?zslice_int; one json h core idx braces); try reflexivity; rewrite ?zsucc; apply IH'.
      + destruct (N.eqb_spec last 58) as [->|L58]; cbn [N.eqb Pos.eqb orb]; rewrite ?node_spec; unfold Q.keyLabel, Q.indexLabel, Q.value; pnorm;
          repeat one json h core idx braces; try reflexivity; rewrite zsucc; apply IH'.
      + destruct (N.eqb_spec last 58) as [->|L58]; [|destruct (N.eqb_spec last 44) as [->|L44]]; cbn [N.eqb Pos.eqb orb];
          rewrite ?node_spec; unfold Q.keyLabel, Q.indexLabel, Q.value; pnorm; rewrite ?zslice_slice; cbn [bind];
          repeat (rewrite ?zsucc, ?zslice_int; one json h core idx braces); try reflexivity; rewrite ?zsucc; apply IH'.
      + rewrite zsucc. apply IH'.
  Qed.

  Lemma trim_loop (inq : bool) braces idx stop key vs last h core : forall rest i fu, skipn i json = rest -> (length rest < fu)%nat ->
    for_ fu (fun s => do c <- zat json (Q.q_start s); Ok (space c)) (fun s => s) (
        if_ (fun s => Q.q_start s >? zlen json - 1) (return_ Q.hp) pass ;;
        set_ (fun s => Q.q_to_start (Q.q_start s + 1) s)) (emb inq i stop key vs last braces idx h core) =
    match skip_space rest i with Ok j => Nrm (emb inq j stop key vs last braces idx h core) | _ => Pan end.
  Proof.
    induction rest as [|c r IH]; intros i fu Hi Hfu; (destruct fu as [|fu]; [cbn in Hfu; lia|]); cbn [for_].
    - unfold emb at 1. cbn [Q.q_start]. destruct (there fuel json [] Hjson ltac:(cbn; lia) i Hi) as [_ ->]. reflexivity.
    - destruct (here fuel json [] Hbytes Hjson ltac:(cbn; lia) i c r Hi) as (Hz & Hlt & Hs & Hl & Hc).
      specialize (IH (S i) fu Hs ltac:(cbn in Hfu; lia)). hide fu. unfold emb at 1. cbn [Q.q_start]. rewrite Hz. cbn [bind skip_space].
      destruct (space c); [|reflexivity]. unfold emb at 1. pnorm. replace (Z.of_nat i >? zlen json - 1) with false by (symmetry; rewrite Z.gtb_ltb; apply Z.ltb_ge; unfold zlen; lia).
      pnorm. rewrite zsucc. exact IH.
  Qed.

  Theorem pCore_go_spec h n : Q.pCore_go fuel json h n = reached (q_core json h n).
  Proof.
    unfold Q.pCore_go, func, q_core. unfold then_ at 1, if_ at 1. change 2 with (Z.of_nat 2). unfold zlen at 1. rewrite zltb. destruct (length json <? 2)%nat; [reflexivity|].
    unfold pass at 1. unfold then_ at 1, read at 1. cbn [Q.indexList]. destruct (sq_push (makeSeq 4) 0) as [idx|e|]; try reflexivity. cbn [bind]. unfold set_ at 1. cbn [Q.q_to_index Q.q_inQuote Q.braceList Q.indexList Q.q_start Q.q_end Q.q_key Q.valStart Q.q_last Q.hp Q.core].
    unfold then_ at 1. match goal with |- context [for_ fuel _ _ _ (Q.q_to_index idx ?x)] => change (Q.q_to_index idx x) with (emb false 0 0 [] 0 0 (makeSeq 4) idx h (Some n)) end.
    rewrite (trim_loop false (makeSeq 4) idx 0 [] 0 0 h (Some n) json 0 fuel eq_refl Hjson).
    destruct (skip_space json 0) as [j|e|]; try reflexivity. cbn [bind].
    unfold then_ at 1. unfold var. cbn [emb Q.q_start].
    rewrite <- (p_loop (skipn j json) j fuel false j 0 [] 0 0 (makeSeq 4) idx h (Some n) eq_refl) by (rewrite skipn_length; lia).
    unfold finish, return_, emb. destruct (leave _); reflexivity.
  Qed.
End PCore.

(** With what C46 knows of the model: the children of the node are those of the model on trees; other nodes stay as they are *)
From Verif Require Import Parser PointerProofs.
Theorem pCore_go_tree fuel json h n : Forall (fun c => (c < 256)%N) json -> (length json < fuel)%nat -> nth_error h n = Some (Cell [] [] None []) ->
  match pCore json with
  | Ok ns => exists h', Q.pCore_go fuel json h n = Ret h' /\ stands h' n (Node [] [] ns) /\ (forall a, a <> n -> (a < length h)%nat -> nth_error h' a = nth_error h a)
  | _ => Q.pCore_go fuel json h n = Pan
  end.
Proof.
  intros Hb Hl Hn. pose proof (core_sim json h n Hn) as H. unfold loops in H. rewrite (pCore_go_spec fuel json Hb Hl). destruct (pCore json) as [ns|e|]; [|rewrite H; reflexivity..].
  destruct H as (h' & A & -> & Ht & Hd & Hg). exists h'. split; [reflexivity|]. split; [exists None, A; split; assumption|].
  intros a Ha Hlt. destruct Hg as (_ & K & _). apply K; [exact Hlt|]. intros [->|[]]. apply Ha. reflexivity.
Qed.
