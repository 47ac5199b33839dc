(** C59: callbacks that panic.  The iteration is that of the callback that stops where this one panics. *)
From Coq Require Import String.
From Verif Require Import GoStd Core Errors Api Iter GoMem Mem SpecMem MemProofs IterMem SpecIterMem IterMemProofs IterEdit.

Local Open Scope nat_scope.

(** On memory: stop and raise the flag instead of panicking. *)
Definition caught {StM : Type} (r : option ((StM * (bool * option err)) * mem)) (sm : StM) (h : mem) : option (((bool * StM) * (bool * option err)) * mem) :=
  match r with
  | None => Some (((true, sm), (false, None)), h)
  | Some ((sm', ge), h') => Some (((false, sm'), ge), h')
  end.
Definition catchM {StM : Type} (cbM : StM -> bsl -> M (StM * (bool * option err))) : bool * StM -> bsl -> M ((bool * StM) * (bool * option err)) :=
  fun s v h => caught (cbM (snd s) v h) (snd s) h.
Definition catchM2 {StM : Type} (cbM : StM -> bsl -> bsl -> M (StM * (bool * option err))) : bool * StM -> bsl -> bsl -> M ((bool * StM) * (bool * option err)) :=
  fun s k v h => caught (cbM (snd s) k v h) (snd s) h.
(** What is left of an iteration that stopped with the flag up is a panic. *)
Definition thrown {StM : Type} (r : option (((bool * StM) * option err) * mem)) : option ((StM * option err) * mem) :=
  match r with
  | Some (((false, sm), e), h) => Some ((sm, e), h)
  | _ => None
  end.

Lemma arr_loop_thrown {StM : Type} (json : bsl) (cbM : StM -> bsl -> M (StM * (bool * option err))) : forall n i start lv inq sm h,
  iter_arrM json cbM n i start lv inq sm h = thrown (iter_arrM json (catchM cbM) n i start lv inq (false, sm) h).
Proof.
  induction n as [|n IH]; intros; cbn [iter_arrM]; [reflexivity|]. unfold mbind, look.
  destruct (nth i (content h json) 0 =? 34)%N; [apply IH|]. destruct inq; [apply IH|]. destruct (is_open _); [apply IH|].
  destruct (is_close _).
  - destruct (lv =? 0); [reflexivity|]. destruct (_ && _); [|apply IH].
    destruct (sub json start i h) as [[v h1]|]; [|reflexivity]. destruct (cleanValueM v h1) as [[w h2]|]; [|reflexivity].
    unfold catchM. cbn [snd]. destruct (cbM sm w h2) as [[[sm' ge] h3]|]; reflexivity.
  - destruct (_ && _); [|apply IH].
    destruct (sub json start i h) as [[v h1]|]; [|reflexivity]. destruct (cleanValueM v h1) as [[w h2]|]; [|reflexivity].
    unfold catchM at 1. cbn [snd]. destruct (cbM sm w h2) as [[[sm' [g [e|]]] h3]|]; try reflexivity. cbn [caught fst snd]. destruct g; [apply IH|reflexivity].
Qed.
Lemma array_thrown {StM : Type} (json : bsl) (cbM : StM -> bsl -> M (StM * (bool * option err))) path sm h :
  IterateArrayM json cbM path sm h = thrown (IterateArrayM json (catchM cbM) path (false, sm) h).
Proof.
  unfold IterateArrayM, mbind, look. destruct (b_len json <? 2); [reflexivity|]. destruct (b_len json =? 2); [destruct (bytes_eqb _ _); reflexivity|].
  unfold ibindM. destruct (match path with [] => _ | _ => _ end) as [start|e|]; try reflexivity. destruct (at_ _ start) as [c|e|]; try reflexivity.
  destruct (c =? 91)%N; [|reflexivity]. apply arr_loop_thrown.
Qed.

Lemma kv_loop_thrown {StM : Type} (json : bsl) (cbM : StM -> bsl -> bsl -> M (StM * (bool * option err))) : forall n i start end_ level ks ke inq key sm h,
  iter_kvM json cbM n i start end_ level ks ke inq key sm h = thrown (iter_kvM json (catchM2 cbM) n i start end_ level ks ke inq key (false, sm) h).
Proof.
  induction n as [|n IH]; intros; cbn [iter_kvM]; [reflexivity|]. cbv zeta. unfold mbind, look.
  destruct (nth i (content h json) 0 =? 34)%N; [destruct inq; [destruct (qscan _ i) as [[]|]|]; apply IH|]. destruct inq; [apply IH|]. destruct (is_open _); [apply IH|].
  destruct (is_close _).
  - destruct (_ && _).
    + destruct (kv_valueM json _ _ h) as [[v h1]|]; [|reflexivity].
      unfold catchM2. cbn [snd]. destruct (cbM sm key v h1) as [[[sm' ge] h3]|]; reflexivity.
    + destruct (level =? 1); [reflexivity|apply IH].
  - destruct (_ && _).
    + destruct (kv_valueM json _ _ h) as [[v h1]|]; [|reflexivity].
      unfold catchM2 at 1. cbn [snd]. destruct (cbM sm key v h1) as [[[sm' [g [e|]]] h3]|]; try reflexivity. cbn [caught fst snd]. destruct g; [apply IH|reflexivity].
    + destruct (_ && _); [|apply IH]. destruct (sub json _ _ h) as [[k h1]|]; [apply IH|reflexivity].
Qed.
Lemma pairs_thrown {StM : Type} (json : bsl) (cbM : StM -> bsl -> bsl -> M (StM * (bool * option err))) path sm h :
  IterateKeyValueM json cbM path sm h = thrown (IterateKeyValueM json (catchM2 cbM) path (false, sm) h).
Proof.
  unfold IterateKeyValueM, mbind, look. destruct (bytes_eqb _ _); [reflexivity|].
  unfold ibindM. destruct (start_of _ path) as [start|e|]; try reflexivity. destruct (at_ _ start) as [c|e|]; try reflexivity.
  destruct (c =? 123)%N; [|reflexivity]. apply kv_loop_thrown.
Qed.

Section Follow.
  Context {St StM : Type}.
  Variable R : St -> StM -> mem -> Prop.
  Definition upR (s : bool * St) (sm : bool * StM) (h : mem) : Prop := fst s = fst sm /\ R (snd s) (snd sm) h.

  Lemma thrown_follows r u : iter_follows upR r u -> risky_follows R (thrown r) u.
  Proof.
    destruct r as [[[[f sm] e] h]|]; cbn; [|intros ->; left; reflexivity]. intros ([g s] & -> & Hf & HR). cbn in Hf, HR. subst g.
    destruct f; cbn; [right; eauto|]. exists s. split; [reflexivity|exact HR].
  Qed.

  Theorem risky_array json cb cbM path s sm h : risky_callback R json cb cbM -> valid h json -> R s sm h ->
    risky_follows R (IterateArrayM json cbM path sm h) (IterateArray (content h json) (quit cb) path (false, s)).
  Proof.
    intros HC V HR. rewrite array_thrown. apply thrown_follows. apply array_follows; [|exact V|split; [reflexivity|exact HR]].
    intros [f s1] [g sm1] h1 v i j [Hf H1] V1 Vv W. cbn [fst snd] in *. specialize (HC s1 sm1 h1 v i j H1 V1 Vv W). unfold quit, catchM. cbn [snd].
    destruct (cb s1 (content h1 v)) as [[s' ge]|]; cbn [quits fst snd].
    - destruct HC as (sm' & h' & E & K1 & K2 & K3). rewrite E. exists (false, sm'), h'. split; [reflexivity|]; split; [split; [reflexivity|assumption]|]; split; assumption.
    - rewrite HC. exists (true, sm1), h1. split; [reflexivity|]; split; [split; [reflexivity|assumption]|]; split; [assumption|reflexivity].
  Qed.
  Theorem risky_pairs json cb cbM path s sm h : risky_pair_callback R json cb cbM -> valid h json -> R s sm h ->
    risky_follows R (IterateKeyValueM json cbM path sm h) (IterateKeyValue (content h json) (quit2 cb) path (false, s)).
  Proof.
    intros HC V HR. rewrite pairs_thrown. apply thrown_follows. apply pairs_follow; [|exact V|split; [reflexivity|exact HR]].
    intros [f s1] [g sm1] h1 k v i j [Hf H1] V1 Vk Vv W Wk. cbn [fst snd] in *. specialize (HC s1 sm1 h1 k v i j H1 V1 Vk Vv W Wk). unfold quit2, catchM2. cbn [snd].
    destruct (cb s1 (content h1 k) (content h1 v)) as [[s' ge]|]; cbn [quits fst snd].
    - destruct HC as (sm' & h' & E & K1 & K2 & K3). rewrite E. exists (false, sm'), h'. split; [reflexivity|]; split; [split; [reflexivity|assumption]|]; split; assumption.
    - rewrite HC. exists (true, sm1), h1. split; [reflexivity|]; split; [split; [reflexivity|assumption]|]; split; [assumption|reflexivity].
  Qed.
  Theorem risky_edits json cb cbM d path w ms s sm h : risky_editor R json cb cbM -> valid h json -> Json.wf_doc d = true -> content h json = Json.text d ->
    Json.lookup (Json.d_val d) path = Some (Json.JObj w ms) -> ms <> [] -> R s sm h ->
    risky_follows R (IterateKeyValueM json cbM path sm h) (IterateKeyValue (Json.text d) (quit2 cb) path (false, s)).
  Proof.
    intros HC V Hw Ht Hl Hn HR. rewrite pairs_thrown. apply thrown_follows. apply (edits_follow upR json (quit2 cb) (catchM2 cbM) d path w ms); try assumption; [|split; [reflexivity|exact HR]].
    intros [f s1] [g sm1] h1 k v i j [Hf H1] V1 Vk Vv W Wk. cbn [fst snd] in *. specialize (HC s1 sm1 h1 k v i j H1 V1 Vk Vv W Wk). unfold quit2, catchM2. cbn [snd].
    destruct (cb s1 (content h1 k) (content h1 v)) as [[s' ge]|]; cbn [quits fst snd].
    - destruct HC as (sm' & h' & E & K1 & K2 & K3). rewrite E. exists (false, sm'), h'. split; [reflexivity|]; split; [split; [reflexivity|assumption]|]; split; assumption.
    - rewrite HC. exists (true, sm1), h1. split; [reflexivity|]; split; [split; [reflexivity|assumption]|]; split; [assumption|reflexivity].
  Qed.
End Follow.
