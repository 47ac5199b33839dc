(** Walk terminates on every input: the fuel of [Walk] is never used up. *)
From Coq Require Import String.
From Verif Require Import GoStd Core Errors Api Iter Walk.

Local Open Scope N_scope.

(** ** A path core resolves is no longer than the position it finds *)
Lemma key_loop_grow json path rest : forall i resume k level found inq s e st k' st',
  key_loop json path rest i resume k level found inq s e st = Ok (k', st') ->
  (k <= i)%nat -> (found = true -> (S k <= i /\ S k <= offset st)%nat) -> (k <= k' /\ S k' <= offset st')%nat.
Proof.
  induction rest as [|c r IH]; intros i resume k level found inq s e st k' st' H Hi Hf; cbn [key_loop] in H.
  - destruct found; [|discriminate]. injection H as <- <-. split; [lia|]. apply Hf. reflexivity.
  - assert (Hs : forall resume level inq s e, key_loop json path r (S i) resume k level found inq s e st = Ok (k', st') -> (k <= k' /\ S k' <= offset st')%nat).
    { intros rs lv iq s1 e1 H1. eapply IH; [exact H1|lia|]. intro E. specialize (Hf E). lia. }
    destruct (i <? resume)%nat; [eapply Hs; exact H|].
    destruct (c =? 34).
    { destruct found; [eapply Hs; exact H|]. destruct (negb (level =? S k)%nat); [eapply Hs; exact H|].
      destruct (qscan json i) as [[|]|]; [|eapply Hs; exact H|]; [destruct (negb inq)|destruct inq]; eapply Hs; exact H. }
    destruct inq; [eapply Hs; exact H|].
    destruct ((level =? S k)%nat && (c =? 58)).
    { destruct (key_match json (cur st) s e).
      - destruct (S k =? length path)%nat; [injection H as <- <-; cbn [offset]; lia|]. eapply IH; [exact H|lia|]. intros _. cbn [offset]. lia.
      - destruct (jump_loop json r (S i) k level false); [|discriminate|]; eapply Hs; exact H. }
    destruct (c =? 91).
    { destruct found; [|eapply Hs; exact H]. destruct (nth_error path (S k)); [|discriminate]. injection H as <- <-. cbn [offset]. specialize (Hf eq_refl). lia. }
    destruct (c =? 123).
    { destruct found; [|eapply Hs; exact H]. destruct (nth_error path (S k)); [|discriminate]. specialize (Hf eq_refl).
      apply IH in H; [|lia|discriminate]. lia. }
    destruct (is_close c); [|eapply Hs; exact H]. destruct (level <? S k)%nat; [discriminate|]. eapply Hs; exact H.
Qed.

Lemma arr0_loop_pos last rest : forall i j c, arr0_loop rest i last = Ok (Some (j, c)) -> (i <= j)%nat.
Proof.
  induction rest as [|x r IH]; intros i j c H; cbn [arr0_loop] in H; [discriminate|].
  destruct (space x); [apply IH in H; lia|]. destruct (is_open x); [injection H as <- <-; lia|]. destruct last; discriminate.
Qed.

Lemma arr_loop_pos json rest last target : forall i level inq found cnt o,
  arr_loop json rest i last target level inq found cnt = Ok o ->
  match o with ALast off => (i < off)%nat | ABrace j _ => (i <= j)%nat /\ (found = false -> (i < j)%nat) | AEnd => True end.
Proof.
  induction rest as [|c r IH]; intros i level inq found cnt o H; cbn [arr_loop] in H.
  - destruct found; [injection H as <-; exact I|discriminate].
  - assert (Hs : forall level inq found' cnt, arr_loop json r (S i) last target level inq found' cnt = Ok o ->
      match o with ALast off => (i < off)%nat | ABrace j _ => (i <= j)%nat /\ (found = false -> (i < j)%nat) | AEnd => True end).
    { intros lv iq fd ct H1. apply IH in H1. destruct o; [lia| |exact I]. destruct H1. split; intros; lia. }
    destruct (c =? 34); [eapply Hs; exact H|]. destruct inq; [eapply Hs; exact H|].
    destruct (negb found && (level =? 1)%nat && (c =? 44)).
    { destruct (Z.of_nat (S cnt) =? target)%Z; [|eapply Hs; exact H].
      destruct (match next_nonspace r with Some d => negb (is_open d) && negb last | None => false end); [discriminate|].
      destruct last; [injection H as <-; lia|eapply Hs; exact H]. }
    destruct (is_open c).
    { destruct found; [injection H as <-; split; [lia|discriminate]|eapply Hs; exact H]. }
    destruct (is_close c); [|eapply Hs; exact H]. destruct (level <? 2)%nat; [discriminate|]. eapply Hs; exact H.
Qed.

(** The search past the last element, after which there are only blanks. *)
Lemma skip_space_blank r i : next_nonspace r = None -> skip_space r i = Panic.
Proof. revert i. induction r as [|c r IH]; intros i H; cbn in *; [reflexivity|]. destruct (space c); [auto|discriminate]. Qed.

Lemma arr_found_end json r target : forall i level cnt, arr_loop json r i false target level false true cnt = Ok AEnd ->
  match next_nonspace r with Some d => is_open d = true | None => True end -> next_nonspace r = None.
Proof.
  induction r as [|c r IH]; intros i level cnt H Hd; [reflexivity|]. cbn [arr_loop next_nonspace] in *.
  destruct (space c) eqn:Es.
  - assert (Ec : (c =? 34) = false /\ is_open c = false /\ is_close c = false).
    { unfold space in Es. rewrite !orb_true_iff, !N.eqb_eq in Es. destruct Es as [[[->| ->]| ->]| ->]; repeat split; reflexivity. }
    destruct Ec as (E1 & E2 & E3). rewrite E1, E2, E3 in H. cbn [negb andb] in H. apply IH in H; assumption.
  - assert (Eq : (c =? 34) = false).
    { unfold is_open in Hd. rewrite orb_true_iff, !N.eqb_eq in Hd. destruct Hd; subst c; reflexivity. }
    rewrite Eq, Hd in H. cbn [negb andb] in H. discriminate.
Qed.

Lemma arr_loop_end json target rest : forall pre level inq cnt, json = pre ++ rest ->
  arr_loop json rest (length pre) false target level inq false cnt = Ok AEnd ->
  exists off, arr_loop json rest (length pre) true target level inq false cnt = Ok (ALast off) /\
    forall i, skip_space (skipn off json) i = Panic.
Proof.
  induction rest as [|c r IH]; intros pre level inq cnt Hj H; cbn [arr_loop] in H; [discriminate|]. cbn [arr_loop].
  assert (Hs : forall level inq cnt, arr_loop json r (S (length pre)) false target level inq false cnt = Ok AEnd ->
    exists off, arr_loop json r (S (length pre)) true target level inq false cnt = Ok (ALast off) /\ forall i, skip_space (skipn off json) i = Panic).
  { intros lv iq ct H1. assert (E : S (length pre) = length (pre ++ [c])) by (rewrite app_length; cbn; lia). rewrite E in *.
    apply IH; [rewrite Hj, <- app_assoc; reflexivity|exact H1]. }
  destruct (c =? 34); [eapply Hs; exact H|]. destruct inq; [eapply Hs; exact H|]. cbn [negb] in *.
  destruct (true && (level =? 1)%nat && (c =? 44)).
  { destruct (Z.of_nat (S cnt) =? target)%Z; [|eapply Hs; exact H].
    replace (match next_nonspace r with Some d => negb (is_open d) && false | None => false end) with false
      by (destruct (next_nonspace r); [rewrite andb_false_r|]; reflexivity). cbv iota.
    exists (S (length pre)). split; [reflexivity|]. intro i. rewrite Hj.
    replace (skipn (S (length pre)) (pre ++ c :: r)) with r by (clear; induction pre; cbn; [reflexivity|assumption]).
    apply skip_space_blank. destruct (next_nonspace r) as [d|] eqn:En; [|reflexivity].
    destruct (is_open d) eqn:Ed; cbn [negb andb] in H; [|discriminate]. rewrite <- En. eapply arr_found_end; [exact H|]. rewrite En. exact Ed. }
  destruct (is_open c); [eapply Hs; exact H|]. destruct (is_close c); [|eapply Hs; exact H].
  destruct (level <? 2)%nat; [discriminate|]. eapply Hs; exact H.
Qed.

Lemma arr_loop_last json target rest : forall i level inq cnt, arr_loop json rest i true target level inq false cnt <> Ok AEnd.
Proof.
  induction rest as [|c r IH]; intros i level inq cnt H; cbn [arr_loop] in H; [discriminate|].
  destruct (c =? 34); [eapply IH; exact H|]. destruct inq; [eapply IH; exact H|].
  destruct (negb false && (level =? 1)%nat && (c =? 44)).
  { destruct (Z.of_nat (S cnt) =? target)%Z; [|eapply IH; exact H].
    destruct (match next_nonspace r with Some d => negb (is_open d) && negb true | None => false end); discriminate. }
  destruct (is_open c); [eapply IH; exact H|]. destruct (is_close c); [|eapply IH; exact H]. destruct (level <? 2)%nat; [discriminate|]. eapply IH; exact H.
Qed.

(** Once stuck there, the search ends in a panic. *)
Lemma outer_stuck json path todo : forall k resume st st' idx, length path = (k + length todo)%nat -> todo <> [] -> (resume <= k)%nat ->
  brace st = 91 -> atoi (cur st) = Some idx -> (idx =? 0)%Z = false ->
  arr_loop json (skipn (offset st) json) (offset st) false idx 0 false false 0 = Ok AEnd ->
  outer json path todo k resume st = Ok st' -> forall i, skip_space (skipn (offset st') json) i = Panic.
Proof.
  induction todo as [|x todo IH]; intros k resume st st' idx Hlen Hne Hr Hb Ha Hz HE H i; [contradiction|]. cbn [outer] in H.
  assert (Ho : (offset st <= length json)%nat) by (destruct (Nat.le_gt_cases (offset st) (length json)) as [|Hgt]; [assumption|]; rewrite skipn_all2 in HE by lia; discriminate HE).
  replace (k <? resume)%nat with false in H by (symmetry; apply Nat.ltb_ge; exact Hr). rewrite Hb in H. cbn [N.eqb Pos.eqb] in H.
  unfold arr_step in H. rewrite Ha, Hz in H. destruct (arr_loop_end json idx (skipn (offset st) json) (firstn (offset st) json) 0 false 0) as (off & HL & Hp).
  { symmetry. apply firstn_skipn. } { rewrite firstn_length, Nat.min_l by exact Ho. exact HE. }
  rewrite firstn_length, Nat.min_l in HL by exact Ho.
  destruct todo as [|y todo].
  - cbn [length] in Hlen. replace (S k =? length path)%nat with true in H by (symmetry; apply Nat.eqb_eq; lia). rewrite HL in H. cbn [bind outer] in H.
    injection H as <-. cbn [offset]. apply Hp.
  - cbn [length] in Hlen. replace (S k =? length path)%nat with false in H by (symmetry; apply Nat.eqb_neq; lia). rewrite HE in H. cbn [bind] in H.
    eapply (IH (S k) resume st st' idx); try eassumption; [cbn [length]; lia|discriminate|lia].
Qed.

Lemma outer_grow json path todo : forall k resume st st', length path = (k + length todo)%nat -> (k <= offset st)%nat -> (resume <= offset st)%nat ->
  outer json path todo k resume st = Ok st' -> (length path <= offset st')%nat \/ (forall i, skip_space (skipn (offset st') json) i = Panic).
Proof.
  induction todo as [|x todo IH]; intros k resume st st' Hlen Hk Hr H; cbn [outer] in H.
  - injection H as <-. left. cbn in Hlen. lia.
  - cbn [length] in Hlen. destruct (Nat.ltb_spec k resume) as [E|E].
    + eapply IH; [| | |exact H]; lia.
    + destruct (brace st =? 91) eqn:Eb.
      * destruct (arr_step json path k st) as [st1|er|] eqn:Es; try discriminate. cbn [bind] in H.
        assert (Hgo : (S (offset st) <= offset st1)%nat -> (length path <= offset st')%nat \/ (forall i, skip_space (skipn (offset st') json) i = Panic)).
        { intro Hg. eapply (IH (S k) resume st1 st'); [lia|lia|lia|exact H]. }
        unfold arr_step in Es. destruct (atoi (cur st)) as [idx|] eqn:Ea; [|discriminate]. destruct (idx =? 0)%Z eqn:Ez.
        -- destruct (arr0_loop (skipn (S (offset st)) json) (S (offset st)) (S k =? length path)%nat) as [[[j c]|]|er|] eqn:E0; try discriminate; cbn [bind] in Es.
           ++ apply arr0_loop_pos in E0. destruct (S k =? length path)%nat; [injection Es as <-; apply Hgo; cbn [offset]; lia|].
              destruct (nth_error path (S k)); [|discriminate]. injection Es as <-. apply Hgo. cbn [offset]. lia.
           ++ injection Es as <-. apply Hgo. cbn [offset]. lia.
        -- destruct (arr_loop json (skipn (offset st) json) (offset st) (S k =? length path)%nat idx 0 false false 0) as [o|er|] eqn:E0; try discriminate; cbn [bind] in Es.
           pose proof (arr_loop_pos _ _ _ _ _ _ _ _ _ _ E0) as Hp. destruct o as [off|j c|].
           ++ injection Es as <-. apply Hgo. cbn [offset]. lia.
           ++ destruct (nth_error path (S k)); [|discriminate]. injection Es as <-. apply Hgo. cbn [offset]. destruct Hp as [_ Hp]. specialize (Hp eq_refl). lia.
           ++ injection Es as <-. destruct todo as [|y todo]; [cbn [length] in Hlen|].
              { exfalso. replace (S k =? length path)%nat with true in E0 by (symmetry; apply Nat.eqb_eq; lia). exact (arr_loop_last _ _ _ _ _ _ _ E0). }
              right. cbn [length] in Hlen. replace (S k =? length path)%nat with false in E0 by (symmetry; apply Nat.eqb_neq; lia). apply N.eqb_eq in Eb.
              eapply (outer_stuck json path (y :: todo) (S k) resume st st' idx); try eassumption; [cbn [length]; lia|discriminate|lia].
      * destruct (key_loop json path (skipn (offset st) json) (offset st) 0 k k false false 0 0 st) as [[k' st1]|er|] eqn:Ek; try discriminate. cbn [bind] in H.
        apply key_loop_grow in Ek; [|lia|discriminate]. eapply (IH (S k) (S k') st1 st'); [lia|lia|lia|exact H].
Qed.

Lemma skip_space_pos rest : forall i j, skip_space rest i = Ok j -> (i <= j)%nat.
Proof. induction rest as [|c r IH]; intros i j H; cbn in H; [discriminate|]. destruct (space c); [apply IH in H; lia|injection H as <-; lia]. Qed.

Lemma start_of_long json path n : start_of json path = Ok n -> (length path <= n)%nat.
Proof.
  unfold start_of. destruct path as [|x p]; [cbn; lia|]. set (path := x :: p). intro H.
  destruct (core json true path) as [[[ks st] en]|e|] eqn:E; try discriminate. injection H as <-.
  unfold core, path in E. fold path in E. destruct (length json <? 2)%nat; [discriminate|].
  destruct (skip_space json 0) as [off|er|]; try discriminate. cbn [bind] in E. destruct (at_ json off) as [br|er|]; try discriminate. cbn [bind] in E.
  destruct (outer json path path 0 0 (CSt off br x None)) as [st1|er|] eqn:Eo; try discriminate. cbn [bind] in E.
  destruct (offset st1 =? 0)%nat; [discriminate|].
  destruct (skip_space (skipn (offset st1) json) (offset st1)) as [o|er|] eqn:Es; try discriminate. cbn [bind] in E. injection E as <- <- <-.
  destruct (outer_grow json path path 0 0 _ _ eq_refl ltac:(cbn [offset]; lia) ltac:(cbn [offset]; lia) Eo) as [Hg|Hp].
  - apply skip_space_pos in Es. lia.
  - rewrite Hp in Es. discriminate.
Qed.

(** A path GetType answers for is shorter than the text. *)
Lemma get_type_long pf json path t : GetType pf json path = Ok t -> (length path < length json)%nat.
Proof.
  unfold GetType. destruct (typeControlCore json [] false path) as [[z st]|e|] eqn:E; try discriminate. cbn [bind].
  destruct (at_ json st) as [c|e|] eqn:Ea; try discriminate. intros _.
  unfold typeControlCore in E. destruct json as [|x json]; [discriminate|]. set (js := x :: json) in *.
  destruct (start_of js path) as [n|e|] eqn:Es; try discriminate. cbn [bind existsb] in E. injection E as <- <-.
  apply start_of_long in Es. unfold at_ in Ea. destruct (nth_error js n) as [c0|] eqn:En; [|discriminate].
  assert (n < length js)%nat by (apply nth_error_Some; rewrite En; discriminate). lia.
Qed.

(** ** What a callback keeps, an iteration keeps *)
Section Keep.
  Context {St : Type}.
  Variable P : St -> Prop.

  Definition kept (r : itres St) : Prop := match r with IDone s _ => P s | IPanic => True end.
  Lemma kept_ibind {A} s (r : res A) k : P s -> (forall a, r = Ok a -> kept (k a)) -> kept (ibind s r k).
  Proof. intros Hs Hk. destruct r; cbn; auto. Qed.

  Lemma iter_arr_kept json closes cb rest : (forall s v, P s -> P (fst (cb s v))) -> forall i start lv inq s, P s ->
    kept (iter_arr json closes cb rest i start lv inq s).
  Proof.
    intro Hcb. induction rest as [|c r IH]; intros i start lv inq s Hs; cbn [iter_arr]; [exact Hs|].
    destruct (c =? 34); [apply IH; exact Hs|]. destruct inq; [apply IH; exact Hs|]. destruct (is_open c); [apply IH; exact Hs|].
    destruct (is_close c).
    { destruct (lv =? 0)%nat; [exact Hs|]. destruct ((c =? 93) && (lv =? 1)%nat); [|apply IH; exact Hs].
      apply kept_ibind; [exact Hs|]. intros v _. apply kept_ibind; [exact Hs|]. intros v' _. pose proof (Hcb s v' Hs) as H. destruct (cb s v') as [s' [? ?]]. exact H. }
    destruct ((lv =? 1)%nat && (c =? 44)); [|apply IH; exact Hs].
    apply kept_ibind; [exact Hs|]. intros v _. apply kept_ibind; [exact Hs|]. intros v' _. pose proof (Hcb s v' Hs) as H. destruct (cb s v') as [s' [go [e|]]]; [exact H|].
    destruct go; [apply IH; exact H|exact H].
  Qed.
  Lemma IterateArray_kept json cb path s : (forall s v, P s -> P (fst (cb s v))) -> P s -> kept (IterateArray json cb path s).
  Proof.
    intros Hcb Hs. unfold IterateArray. destruct (length json <? 2)%nat; [exact Hs|]. destruct (length json =? 2)%nat; [destruct (bytes_eqb json (b "[]")); exact Hs|].
    apply kept_ibind; [exact Hs|]. intros st _. apply kept_ibind; [exact Hs|]. intros c _. destruct (c =? 91); [|exact Hs]. apply iter_arr_kept; assumption.
  Qed.

  Lemma iter_kv_kept json cb rest : (forall s k v, P s -> P (fst (cb s k v))) -> forall i start end_ level ks ke inq key s, P s ->
    kept (iter_kv json cb rest i start end_ level ks ke inq key s).
  Proof.
    intro Hcb. induction rest as [|c r IH]; intros i start end_ level ks ke inq key s Hs; cbn [iter_kv]; [exact Hs|].
    destruct (c =? 34). { destruct inq; [|apply IH; exact Hs]. destruct (qscan json i) as [[|]|]; apply IH; exact Hs. }
    destruct inq; [apply IH; exact Hs|]. destruct (is_open c); [apply IH; exact Hs|].
    destruct (is_close c).
    { destruct ((c =? 125) && (level =? 1)%nat).
      - apply kept_ibind; [exact Hs|]. intros v _. apply Hcb. exact Hs.
      - destruct (level =? 1)%nat; [exact Hs|apply IH; exact Hs]. }
    destruct ((level =? 1)%nat && (c =? 44)).
    { apply kept_ibind; [exact Hs|]. intros v _. pose proof (Hcb s key v Hs) as H. destruct (cb s key v) as [s' [go [e|]]]; [exact H|]. destruct go; [apply IH; exact H|exact H]. }
    destruct ((level =? 1)%nat && (c =? 58)); [|apply IH; exact Hs]. apply kept_ibind; [exact Hs|]. intros v _. apply IH. exact Hs.
  Qed.
  Lemma IterateKeyValue_kept json cb path s : (forall s k v, P s -> P (fst (cb s k v))) -> P s -> kept (IterateKeyValue json cb path s).
  Proof.
    intros Hcb Hs. unfold IterateKeyValue. destruct (bytes_eqb json (b "{}")); [exact Hs|]. apply kept_ibind; [exact Hs|]. intros st _.
    apply kept_ibind; [exact Hs|]. intros c _. destruct (c =? 123); [|exact Hs]. apply iter_kv_kept; assumption.
  Qed.
End Keep.

(** ** Walk *)
Definition live {St} (w : wst (St := St)) : Prop := w <> Dead WFuel.

Lemma walk_enough {St} pf (cb : St -> bytes -> bytes -> list bytes -> St * (bool * option err)) json fuel : forall path s,
  (length path <= length json)%nat -> (length json < fuel + length path)%nat -> walk pf fuel json path cb s <> WFuel.
Proof.
  induction fuel as [|fuel IH]; intros path s Hp Hf; [lia|]. cbn [walk].
  destruct (GetType pf json path) as [t|e|] eqn:E; try discriminate. apply get_type_long in E.
  assert (Hb : forall (w : wst (St := St)) x, live w -> live (fst (below w (fun s i => walk pf fuel json (path ++ [x s i]) cb s)))).
  { intros w x Hw. destruct w as [s0 i0|r]; [|exact Hw]. cbn [below].
    pose proof (IH (path ++ [x s0 i0]) s0) as H. rewrite app_length in H. cbn [length] in H. specialize (H ltac:(lia) ltac:(lia)).
    destruct (walk pf fuel json (path ++ [x s0 i0]) cb s0) as [s' [e|]| |]; cbn; intro Hx; try discriminate. congruence. }
  assert (Hafter : forall r, kept live r -> after (St := St) r <> WFuel).
  { intros [w e|] H; [|discriminate]. destruct w as [s0 i0|r]; [discriminate|]. cbn in *. intro Hx. subst r. apply H. reflexivity. }
  destruct t; try (destruct (Get json path) as [v|e|]; [destruct (cb s (last path []) v path) as [s' [? ?]]; discriminate|discriminate|discriminate]).
  all: apply Hafter.
  all: (apply IterateArray_kept || apply IterateKeyValue_kept); try (unfold live; discriminate); intros; try apply (Hb _ (fun _ i => itoa (Z.of_nat i))); try assumption.
  apply (Hb s0 (fun _ _ => k)). assumption.
Qed.

Theorem Walk_terminates {St} pf (cb : St -> bytes -> bytes -> list bytes -> St * (bool * option err)) json s : Walk pf json cb s <> WFuel.
Proof. apply walk_enough; cbn [length]; lia. Qed.
