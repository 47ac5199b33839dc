(** Property C80: documents made of nested Go maps and slices.  Statements only; the proofs are in [Deep]. *)
From Coq Require Import String.
From Verif Require Import GoStd Json Spec Domains Errors Core Api Typed SpecTyped SpecParser Parser Make Walk SpecMade SpecDeep.
From Verif Require Iter Deep DeepWalk DeepParser DeepTotal.

Local Open Scope N_scope.

(** ** C80

    [make pf m] is the text made of the nested value [m] by MakeJsonWithMap and MakeArrayString, each text made being a value for the next.
    Full statement: a call that applies to [m] leads to the text made of [m] changed.  False, [C80_new_key_refuted]: a key new to a map inside
    may be one of a later map, which the scanner takes it for. *)
Definition C80_statement : Prop := forall pf m c m', good pf m -> filled m -> mcmd_easy pf c -> m_effect c m = Some m' ->
  do_mcmd pf c (make pf m) = Done (make pf m').

(** [mcmd_ok] asks that a new key be one that the text shows nowhere in quotes. *)
Theorem C80_calls_partial : forall pf m c m', good pf m -> filled m -> mcmd_ok pf m c -> m_effect c m = Some m' ->
  do_mcmd pf c (make pf m) = Done (make pf m') /\ good pf m' /\ filled m'.
Proof. exact Deep.deep_call. Qed.
Print Assumptions C80_calls_partial.

Theorem C80_histories_partial : forall pf cs m m', good pf m -> filled m -> m_goes pf cs m m' ->
  run_calls (do_mcmd pf) cs (make pf m) = Some (make pf m') /\ good pf m' /\ filled m'.
Proof. exact Deep.deep_history. Qed.
Print Assumptions C80_histories_partial.

Theorem C80_reads : forall pf m p x, good pf m -> filled m -> m_at m p = Some x ->
  (p <> [] -> Get (make pf m) p = Ok (make pf x)) /\
  match x with
  | MStr _ => True
  | MMap ps => ps <> [] -> Iter.GetKeys (make pf m) p = Ok (map fst ps) /\ Iter.GetValues (make pf m) p = Ok (map (fun kv => make pf (snd kv)) ps) /\
      Iter.Length (make pf m) p = Ok (length ps)
  | MList ms => ms <> [] -> Iter.GetStringArray (make pf m) p = Ok (map (make pf) ms) /\ (p <> [] \/ (2 <= length ms)%nat -> Iter.Length (make pf m) p = Ok (length ms))
  end.
Proof. exact Deep.deep_reads. Qed.
Print Assumptions C80_reads.

Theorem C80_types : forall pf m p x, good pf m -> filled m -> m_at m p = Some x ->
  Iter.IsArray (make pf m) p = Ok (match x with MList _ => true | _ => false end) /\ Iter.IsValue (make pf m) p = Ok (match x with MStr _ => true | _ => false end).
Proof. exact DeepWalk.deep_types. Qed.
Print Assumptions C80_types.

(** Walk shows every string once, in order, with its path; the callback's wish to stop is not heeded (C35). *)
Theorem C80_walk : forall pf (St : Type) pf' m (cb : St -> bytes -> bytes -> list bytes -> St * (bool * option err)) s,
  good pf m -> filled m -> m_full m -> fits (make pf m) -> (forall s k v p, snd (snd (cb s k v p)) = None) ->
  Walk pf' (make pf m) cb s = WDone (fold_left (fun s l => fst (cb s (last (fst l) []) (snd l) (fst l))) (m_leaves [] m) s) None.
Proof. exact DeepWalk.deep_walk. Qed.
Print Assumptions C80_walk.

(** A Parser finds everything but the only string of a slice (C29), and whatever it finds is there. *)
Theorem C80_parser_partial : forall pf m, good pf m -> filled m ->
  exists p, Parse (make pf m) = Ok p /\ P_JSON p = make pf m /\
    (forall q x, q <> [] -> m_at m q = Some x -> m_straight m q -> P_Get p q = Ok (make pf x)) /\
    (fits (make pf m) -> forall q t, P_Get p q = Ok t -> exists x, m_at m q = Some x /\ (q <> [] -> t = make pf x)).
Proof. exact DeepParser.deep_parser. Qed.
Print Assumptions C80_parser_partial.

(** A call whose path leads astray says so and returns the text unchanged. *)
Theorem C80_refused : forall pf m q m' x r, good pf m -> filled m -> m_at m q = Some m' -> m_child m' x = None ->
  match m' with MStr _ => False | MMap _ => new_in (make pf m) x | MList _ => True end ->
  let t := make pf m in let p := q ++ x :: r in let e := m_miss m' x r in
  Get t p = Err e /\ Delete t p = Fail (Some t) e /\ (forall v, SetString pf t v p = Fail (Some t) e) /\ (forall v, AddString pf t v p = Fail (Some t) e) /\
  (forall k v, k <> [] -> AddKeyValueString pf t k v p = Fail (Some t) e) /\ (forall i v, (0 <= i)%Z -> InsertString pf t i v p = Fail (Some t) e).
Proof. exact Deep.deep_refused. Qed.
Print Assumptions C80_refused.

(** So does a call that would give a map a key it has. *)
Theorem C80_taken : forall pf m q ps k u, good pf m -> filled m -> m_at m q = Some (MMap ps) -> assoc k ps = Some u -> k <> [] -> let t := make pf m in
  (forall v, AddKeyValueString pf t k v q = Fail (Some t) (EKeyAlreadyExist k)) /\ forall x, SetKey t k (q ++ [x]) = Fail (Some t) (EBadJSON 0).
Proof. exact Deep.deep_taken. Qed.
Print Assumptions C80_taken.

(** Any call but Store into a slice, whether it applies or not: [m_sure] asks of every key absent from a map that it be new to the text. *)
Theorem C80_any_call_partial : forall pf m c, good pf m -> filled m -> m_sure pf m c ->
  match m_effect c m with
  | Some m' => do_mcmd pf c (make pf m) = Done (make pf m') /\ good pf m' /\ filled m'
  | None => exists e, do_mcmd pf c (make pf m) = Fail (Some (make pf m)) e
  end.
Proof. exact DeepTotal.deep_total. Qed.
Print Assumptions C80_any_call_partial.

Definition ex80_pf (s : bytes) : bool := bytes_eqb s (b "1.5").
Theorem C80_new_key_refuted : ~ C80_statement /\
  (let m := MList [MMap [(b "a", MStr (b "1"))]; MMap [(b "k", MStr (b "2")); (b "j", MStr (b "3"))]] in
   make ex80_pf m = b "[{""a"":1},{""k"":2,""j"":3}]" /\
   do_mcmd ex80_pf (MAddKey [b "0"] (b "j") (MStr (b "5"))) (make ex80_pf m) = Fail (Some (make ex80_pf m)) (EKeyAlreadyExist (b "j")) /\
   do_mcmd ex80_pf (MStore [b "0"] (b "j") (MStr (b "5"))) (make ex80_pf m) = Done (b "[{""a"":1},{""k"":2,""j"":5}]")).
Proof.
  split.
  - intro H. set (m := MList [MMap [(b "a", MStr (b "1"))]; MMap [(b "k", MStr (b "2")); (b "j", MStr (b "3"))]]).
    assert (F : forall s, ex80_pf s = false -> str_ok s = true -> fenced s = false -> fit ex80_pf s) by (intros s H1 H2 H3; split; [exact H2|]; split; [rewrite H1; discriminate|exact H3]).
    assert (G : good ex80_pf m) by (cbn [good m fold_right fst snd]; repeat match goal with |- _ /\ _ => split | |- True => exact I | |- fit _ _ => apply F; vm_compute; reflexivity | |- _ => reflexivity end).
    destruct (m_effect (MAddKey [b "0"] (b "j") (MStr (b "5"))) m) as [m'|] eqn:Em; [|vm_compute in Em; discriminate Em].
    apply (H ex80_pf) in Em; [|exact G|exact I|split; [discriminate|split; [reflexivity|apply F; vm_compute; reflexivity]]].
    assert (E : do_mcmd ex80_pf (MAddKey [b "0"] (b "j") (MStr (b "5"))) (make ex80_pf m) = Fail (Some (make ex80_pf m)) (EKeyAlreadyExist (b "j"))) by (vm_compute; reflexivity).
    rewrite E in Em. discriminate Em.
  - cbv zeta. repeat split; vm_compute; reflexivity.
Qed.
Print Assumptions C80_new_key_refuted.

Definition ex80_m : made :=
  MMap [(b "a", MList [MStr (b "x y"); MMap [(b "k", MStr (b "1.5")); (b "{", MStr [])]]); (b "n", MMap []); (b "a", MStr (b "true"))].
Definition ex80_cs : list mcmd :=
  [MSet [b "a"; b "1"; b "k"] (MList [MStr (b "7")]); MAddKey [b "n"] (b "z") (MMap [(b "q", MStr (b "[x"))]); MAppend [b "a"] (MStr (b "null"));
   MRename [b "a"; b "1"] (b "{") (b "m"); MInsert [b "a"; b "1"; b "k"] 0 (MStr (b "8")); MDelete [b "a"] (b "0"); MStore [b "n"] (b "z") (MStr (b "t")); MStore [] (b "w") (MMap [])].
Example C80_example :
  good ex80_pf ex80_m /\ filled ex80_m /\
  make ex80_pf ex80_m = b "{""a"":[""x y"",{""k"":1.5,""{"":""""}],""n"":{},""a"":true}" /\
  m_at ex80_m [b "a"; b "1"; b "k"] = Some (MStr (b "1.5")) /\ Get (make ex80_pf ex80_m) [b "a"; b "1"; b "k"] = Ok (b "1.5") /\
  Iter.GetKeys (make ex80_pf ex80_m) [b "a"; b "1"] = Ok [b "k"; b "{"] /\
  Iter.GetStringArray (make ex80_pf ex80_m) [b "a"] = Ok [b "x y"; b "{""k"":1.5,""{"":""""}"] /\
  exists m', m_goes ex80_pf ex80_cs ex80_m m' /\ make ex80_pf m' = b "{""a"":[{""k"":[8,7],""m"":""""},null],""n"":{""z"":""t""},""a"":true,""w"":{}}" /\
    run_calls (do_mcmd ex80_pf) ex80_cs (make ex80_pf ex80_m) = Some (make ex80_pf m').
Proof.
  assert (F : forall s, str_ok s && (negb (ex80_pf s) || scalar_ok s) && negb (fenced s) = true -> fit ex80_pf s).
  { intros s H. apply andb_prop in H. destruct H as [H H3]. apply andb_prop in H. destruct H as [H1 H2]. split; [exact H1|]. split; [|destruct (fenced s); [discriminate|reflexivity]].
    intro Hp. rewrite Hp in H2. exact H2. }
  assert (Ns : forall t k, negb (bytes_eqb k []) && negb (occurs_b (quoted k) t) && negb (bytes_eqb (firstn (length k + 1) t) (k ++ [34])) = true -> new_in t k).
  { intros t k H. apply andb_prop in H. destruct H as [H H3]. apply andb_prop in H. destruct H as [H1 H2]. apply negb_true_iff in H1, H2, H3. split; [intros ->; discriminate H1|].
    split; [apply occurs_b_complete, H2|]. intros r ->. apply bytes_eqb_neq in H3. apply H3. rewrite firstn_app. replace (length k + 1 - length k)%nat with 1%nat by (rewrite Nat.add_comm, Nat.add_sub; reflexivity).
    rewrite firstn_all2 by (apply Nat.le_add_r). reflexivity. }
  split; [cbn [good ex80_m fold_right fst snd]; repeat match goal with |- _ /\ _ => split | |- True => exact I | |- fit _ _ => apply F; vm_compute; reflexivity | |- _ => reflexivity end|]. split; [exact I|].
  do 5 (split; [vm_compute; reflexivity|]). eexists. split.
  - unfold ex80_cs. repeat (cbn [m_goes]; split;
      [cbn [mcmd_ok good fold_right fst snd]; repeat match goal with
         | |- _ /\ _ => split | |- True => exact I | |- fit _ _ => apply F; vm_compute; reflexivity | |- new_in _ _ => apply Ns; vm_compute; reflexivity
         | |- m_at _ _ <> None \/ _ => first [left; vm_compute; discriminate|right] | |- _ = true => vm_compute; reflexivity | |- _ <> [] => discriminate end
      |eexists; split; [vm_compute; reflexivity|]]).
    reflexivity.
  - split; vm_compute; reflexivity.
Qed.

Definition ex80_w : made :=
  MMap [(b "a", MList [MStr (b "x y"); MMap [(b "k", MStr (b "1.5")); (b "{", MStr [])]]); (b "n", MList [MList [MStr (b "7")]])].
Example C80_walk_example :
  good ex80_pf ex80_w /\ m_full ex80_w /\ fits (make ex80_pf ex80_w) /\
  m_leaves [] ex80_w = [([b "a"; b "0"], b "x y"); ([b "a"; b "1"; b "k"], b "1.5"); ([b "a"; b "1"; b "{"], []); ([b "n"; b "0"; b "0"], b "7")] /\
  Walk ex80_pf (make ex80_pf ex80_w) (fun s k v p => (s ++ [(k, v)], (true, None))) [] =
  WDone [(b "0", b "x y"); (b "k", b "1.5"); (b "{", []); (b "0", b "7")] None /\
  Iter.IsArray (make ex80_pf ex80_w) [b "n"; b "0"] = Ok true /\ Iter.IsValue (make ex80_pf ex80_w) [b "a"; b "1"; b "{"] = Ok true.
Proof.
  assert (F : forall s, str_ok s && (negb (ex80_pf s) || scalar_ok s) && negb (fenced s) = true -> fit ex80_pf s).
  { intros s H. apply andb_prop in H. destruct H as [H H3]. apply andb_prop in H. destruct H as [H1 H2]. split; [exact H1|]. split; [|destruct (fenced s); [discriminate|reflexivity]].
    intro Hp. rewrite Hp in H2. exact H2. }
  split; [cbn [good ex80_w fold_right fst snd]; repeat match goal with |- _ /\ _ => split | |- True => exact I | |- fit _ _ => apply F; vm_compute; reflexivity | |- _ => reflexivity end|].
  split; [cbn [m_full ex80_w fold_right map fst snd]; repeat match goal with |- _ /\ _ => split | |- True => exact I | |- _ <> [] => discriminate | |- NoDup _ => repeat constructor; cbn; intuition discriminate end|].
  split; [apply Z.leb_le; vm_compute; reflexivity|]. repeat split; vm_compute; reflexivity.
Qed.

Example C80_parser_example : exists p,
  Parse (make ex80_pf ex80_w) = Ok p /\ m_straight ex80_w [b "a"; b "1"; b "k"] /\ P_Get p [b "a"; b "1"; b "k"] = Ok (b "1.5") /\
  m_straight ex80_w [b "n"; b "0"] /\ P_Get p [b "n"; b "0"] = Ok (b "[7]") /\ P_Get p [b "n"; b "0"; b "0"] = Err (EKeyNotFound (b "0")).
Proof.
  assert (A : forall z, atoi (b "1") = Some z -> itoa z = b "1") by (intros z E; vm_compute in E; injection E as <-; reflexivity).
  assert (Z : forall z, atoi (b "0") = Some z -> itoa z = b "0") by (intros z E; vm_compute in E; injection E as <-; reflexivity).
  eexists. split; [vm_compute; reflexivity|]. split; [cbn; repeat split; try discriminate; apply A|]. split; [vm_compute; reflexivity|].
  split; [cbn; repeat split; try discriminate; apply Z|]. split; vm_compute; reflexivity.
Qed.

Example C80_refused_example :
  good ex80_pf ex80_m /\ m_at ex80_m [b "a"] = Some (MList [MStr (b "x y"); MMap [(b "k", MStr (b "1.5")); (b "{", MStr [])]]) /\
  m_miss (MList [MStr (b "x y"); MMap [(b "k", MStr (b "1.5")); (b "{", MStr [])]]) (b "2") [b "k"] = EIndexOutOfRange /\
  Delete (make ex80_pf ex80_m) [b "a"; b "2"; b "k"] = Fail (Some (make ex80_pf ex80_m)) EIndexOutOfRange /\
  new_in (make ex80_pf ex80_m) (b "z") /\ m_at ex80_m [b "a"; b "1"] = Some (MMap [(b "k", MStr (b "1.5")); (b "{", MStr [])]) /\
  SetString ex80_pf (make ex80_pf ex80_m) (b "9") [b "a"; b "1"; b "z"] = Fail (Some (make ex80_pf ex80_m)) (EKeyNotFound (b "z")) /\
  AddKeyValueString ex80_pf (make ex80_pf ex80_m) (b "{") (b "9") [b "a"; b "1"] = Fail (Some (make ex80_pf ex80_m)) (EKeyAlreadyExist (b "{")) /\
  SetKey (make ex80_pf ex80_m) (b "{") [b "a"; b "1"; b "k"] = Fail (Some (make ex80_pf ex80_m)) (EBadJSON 0).
Proof.
  split; [apply C80_example|]. do 3 (split; [vm_compute; reflexivity|]). split.
  - split; [discriminate|]. split; [apply occurs_b_complete; vm_compute; reflexivity|]. intros r E. vm_compute in E. discriminate E.
  - repeat split; vm_compute; reflexivity.
Qed.
