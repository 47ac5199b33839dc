(** Property C83: a Parser of a document made of nested Go maps and slices.  Statements only; the proofs are in [DeepParserOps]. *)
From Coq Require Import String.
From Verif Require Import GoStd Json Spec Domains Errors SpecTyped SpecParser Parser GoLang AsWritten SpecMade SpecDeep SpecDeepGo SpecDeepJO SpecDeepParser ParserGo ParserTypedGo.
From Verif Require P_Deep DeepParserOps Pointers.

Local Open Scope N_scope.

(** ** C83

    Full statement: a Parser of the text made of a nested value changes as the value does, and Get returns the parts.  False: after the deletion of an element
    the tree no longer agrees with the text, and it keeps what a replaced map held, [C83_tree_refuted]. *)
Definition C83_statement : Prop := forall pf cs m m', good pf m -> filled m -> m_goes pf cs m m' -> (forall q k v, ~ In (MStore q k v) cs) ->
  exists p p', Parse (make pf m) = Ok p /\ p_run_mcmds pf cs p = Some p' /\ P_JSON p' = make pf m' /\
    forall q x, q <> [] -> m_at m' q = Some x -> P_Get p' q = Ok (make pf x).

(** [p_m_goes] asks along the way, beyond [m_goes], what [p_mcmd_ok] says. *)
Theorem C83_histories_partial : forall pf cs m m', good pf m -> filled m -> p_m_goes pf cs m m' ->
  exists p p', Parse (make pf m) = Ok p /\ p_run_mcmds pf cs p = Some p' /\ P_JSON p' = make pf m' /\
    (forall q x, q <> [] -> m_at m' q = Some x -> m_straight m' q -> P_Get p' q = Ok (make pf x)) /\
    (fits (make pf m') -> forall q t, P_Get p' q = Ok t -> exists x, m_at m' q = Some x /\ (q <> [] -> t = make pf x)).
Proof. exact DeepParserOps.deep_parser_history. Qed.
Print Assumptions C83_histories_partial.

(** The same of the methods as written in Go. *)
Theorem C83_written_partial : forall pf cs m m', good pf m -> filled m -> m_octets m -> Forall mcmd_octets cs -> p_m_goes pf cs m m' ->
  exists p p', eventually (fun fuel => Parse_go (as_written fuel) (make pf m) = Ret (Some p, None)) /\
    eventually (fun fuel => calls_t (as_written fuel) pf (flat_map (tcmd pf) cs) p = Ret (p', repeat None (length cs))) /\ Pointers.q_json p' = make pf m' /\
    forall q x, q <> [] -> m_at m' q = Some x -> m_straight m' q -> eventually (fun fuel => Get_p (as_written fuel) p' q = Ret (make pf x, None)).
Proof. exact DeepParserOps.deep_parser_history_written. Qed.
Print Assumptions C83_written_partial.

(** Histories with calls that do not apply ([p_m_calm]): these are refused and leave the Parser as it is.  [m_final cs m] and [m_applied cs m] as in C82. *)
Theorem C83_any_call_partial : forall pf cs m, good pf m -> filled m -> p_m_sures pf cs m ->
  exists p p' es, Parse (make pf m) = Ok p /\ t_calls pf (flat_map (tcmd pf) cs) p = Some (p', es) /\ told_by es = m_applied cs m /\ P_JSON p' = make pf (m_final cs m) /\
    (forall q x, q <> [] -> m_at (m_final cs m) q = Some x -> m_straight (m_final cs m) q -> P_Get p' q = Ok (make pf x)) /\
    (forall q t, P_Get p' q = Ok t -> exists x, m_at (m_final cs m) q = Some x /\ (q <> [] -> t = make pf x)).
Proof. exact DeepParserOps.deep_parser_any. Qed.
Print Assumptions C83_any_call_partial.

Theorem C83_any_call_written_partial : forall pf cs m, good pf m -> filled m -> m_octets m -> Forall mcmd_octets cs -> p_m_sures pf cs m ->
  exists p p' es, eventually (fun fuel => Parse_go (as_written fuel) (make pf m) = Ret (Some p, None)) /\
    eventually (fun fuel => calls_t (as_written fuel) pf (flat_map (tcmd pf) cs) p = Ret (p', es)) /\ told_by es = m_applied cs m /\ Pointers.q_json p' = make pf (m_final cs m) /\
    forall q x, q <> [] -> m_at (m_final cs m) q = Some x -> m_straight (m_final cs m) q -> eventually (fun fuel => Get_p (as_written fuel) p' q = Ret (make pf x, None)).
Proof. exact DeepParserOps.deep_parser_any_written. Qed.
Print Assumptions C83_any_call_written_partial.

Definition ex83_read (m : made) (cs : list mcmd) (q : list bytes) : option (option (bytes * res bytes)) :=
  match Parse (make P_Deep.ex80_pf m) with
  | Ok p => Some (match p_run_mcmds P_Deep.ex80_pf cs p with Some p' => Some (P_JSON p', P_Get p' q) | None => None end)
  | _ => None
  end.
Theorem C83_tree_refuted : ~ C83_statement /\
  ex83_read (MMap [(b "a", MList [MStr (b "1"); MStr (b "2")])]) [MDelete [b "a"] (b "0"); MSet [b "a"; b "0"] (MStr (b "3"))] [] = Some None /\
  ex83_read (MMap [(b "a", MStr (b "1"))]) [MSet [b "a"] (MMap [(b "k", MStr (b "2"))])] [b "a"; b "k"] = Some (Some (b "{""a"":{""k"":2}}", Err (EKeyNotFound (b "k")))) /\
  ex83_read (MMap [(b "a", MMap [(b "k", MStr (b "1"))])]) [MSet [b "a"] (MStr (b "2"))] [b "a"; b "k"] = Some (Some (b "{""a"":2}", Ok (b "1"))).
Proof.
  split; [|repeat split; vm_compute; reflexivity]. intro H.
  assert (F : forall s, str_ok s && (negb (P_Deep.ex80_pf s) || scalar_ok s) && negb (fenced s) = true -> fit P_Deep.ex80_pf s).
  { intros s Hs. apply andb_prop in Hs. destruct Hs as [Hs H3]. apply andb_prop in Hs. destruct Hs as [H1 H2]. split; [exact H1|]. split; [|destruct (fenced s); [discriminate|reflexivity]].
    intro Hp. rewrite Hp in H2. exact H2. }
  destruct (H P_Deep.ex80_pf [MDelete [b "a"] (b "0"); MSet [b "a"; b "0"] (MStr (b "3"))] (MMap [(b "a", MList [MStr (b "1"); MStr (b "2")])]) (MMap [(b "a", MList [MStr (b "3")])])) as (p & p' & E1 & E2 & _).
  - cbn [good fold_right fst snd]. repeat match goal with |- _ /\ _ => split | |- True => exact I | |- fit _ _ => apply F; vm_compute; reflexivity | |- _ => reflexivity end.
  - exact I.
  - cbn [m_goes]. split; [exact I|]. eexists. split; [vm_compute; reflexivity|]. split; [split; [discriminate|apply F; vm_compute; reflexivity]|]. eexists. split; [vm_compute; reflexivity|reflexivity].
  - intros q k v [E|[E|[]]]; discriminate E.
  - vm_compute in E1. injection E1 as <-. vm_compute in E2. discriminate E2.
Qed.
Print Assumptions C83_tree_refuted.

(** Eight calls, at depths one to four *)
Definition ex83_m : made :=
  MMap [(b "a", MList [MStr (b "x y"); MMap [(b "k", MStr (b "1.5")); (b "{", MStr [])]; MStr (b "z")]); (b "n", MMap []); (b "e", MList [])].
Definition ex83_cs : list mcmd :=
  [MSet [b "a"; b "1"; b "k"] (MStr (b "7")); MDelete [b "a"] (b "2"); MAddKey [b "a"; b "1"] (b "q") (MStr (b "[x")); MAppend [b "a"] (MStr (b "null")); MRename [b "a"; b "1"] (b "{") (b "m");
   MSet [b "n"] (MStr (b "t")); MDelete [] (b "e"); MAddKey [] (b "w") (MStr (b "1.5"))].
Example C83_example :
  good P_Deep.ex80_pf ex83_m /\ filled ex83_m /\ m_octets ex83_m /\ Forall mcmd_octets ex83_cs /\
  make P_Deep.ex80_pf ex83_m = b "{""a"":[""x y"",{""k"":1.5,""{"":""""},""z""],""n"":{},""e"":[]}" /\
  exists m', p_m_goes P_Deep.ex80_pf ex83_cs ex83_m m' /\ make P_Deep.ex80_pf m' = b "{""a"":[""x y"",{""k"":7,""m"":"""",""q"":""[x""},null],""n"":""t"",""w"":1.5}" /\
    m_straight m' [b "a"; b "1"; b "q"] /\ fits (make P_Deep.ex80_pf m') /\
    ex83_read ex83_m ex83_cs [b "a"; b "1"; b "q"] = Some (Some (make P_Deep.ex80_pf m', Ok (b "[x"))).
Proof.
  assert (F : forall s, str_ok s && (negb (P_Deep.ex80_pf s) || scalar_ok s) && negb (fenced s) = true -> fit P_Deep.ex80_pf s).
  { intros s H. apply andb_prop in H. destruct H as [H H3]. apply andb_prop in H. destruct H as [H1 H2]. split; [exact H1|]. split; [|destruct (fenced s); [discriminate|reflexivity]].
    intro Hp. rewrite Hp in H2. exact H2. }
  assert (Ns : forall t k, negb (bytes_eqb k []) && negb (occurs_b (quoted k) t) && negb (bytes_eqb (firstn (length k + 1) t) (k ++ [34])) = true -> new_in t k).
  { intros t k H. apply andb_prop in H. destruct H as [H H3]. apply andb_prop in H. destruct H as [H1 H2]. apply negb_true_iff in H1, H2, H3. split; [intros ->; discriminate H1|].
    split; [apply occurs_b_complete, H2|]. intros r ->. apply bytes_eqb_neq in H3. apply H3. rewrite firstn_app. replace (length k + 1 - length k)%nat with 1%nat by (rewrite Nat.add_comm, Nat.add_sub; reflexivity).
    rewrite firstn_all2 by (apply Nat.le_add_r). reflexivity. }
  split; [cbn [good ex83_m fold_right fst snd]; repeat match goal with |- _ /\ _ => split | |- True => exact I | |- fit _ _ => apply F; vm_compute; reflexivity | |- _ => reflexivity end|]. split; [exact I|].
  split; [cbn [m_octets ex83_m fold_right fst snd]; repeat match goal with |- _ /\ _ => split | |- True => exact I | |- octets _ => repeat (constructor; [reflexivity|]); constructor end|].
  split; [unfold ex83_cs; repeat (apply Forall_cons; [cbn [mcmd_octets m_octets fold_right fst snd]; repeat match goal with |- _ /\ _ => split | |- True => exact I | |- octets _ => repeat (constructor; [reflexivity|]); constructor end|]); constructor|].
  split; [vm_compute; reflexivity|]. eexists. split.
  - unfold ex83_cs. repeat (cbn [p_m_goes]; split;
      [cbn [mcmd_ok good fold_right fst snd]; repeat match goal with
         | |- _ /\ _ => split | |- True => exact I | |- fit _ _ => apply F; vm_compute; reflexivity | |- new_in _ _ => apply Ns; vm_compute; reflexivity
         | |- _ = true => vm_compute; reflexivity | |- _ <> [] => discriminate end
      |split; [apply DeepParserOps.p_mcmd_sound; vm_compute; reflexivity|eexists; split; [vm_compute; reflexivity|]]]).
    reflexivity.
  - split; [vm_compute; reflexivity|]. split; [apply DeepParserOps.straight_sound; vm_compute; reflexivity|]. split; [vm_compute; discriminate|vm_compute; reflexivity].
Qed.

(** Nine calls of which three apply *)
Definition ex83_any : list mcmd :=
  [MDelete [b "a"] (b "7"); MSet [b "a"; b "1"; b "k"] (MStr (b "7")); MRename [b "a"; b "1"] (b "k") (b "{"); MAppend [b "n"] (MStr (b "1")); MAddKey [] (b "n") (MStr (b "1")); MAddKey [b "a"; b "0"] (b "1") (MStr (b "1"));
   MRename [b "a"; b "1"] (b "k") (b "kk"); MSet [b "a"; b "1"; b "k"] (MList []); MAppend [b "a"] (MStr (b "9"))].
Example C83_any_example :
  p_m_sures P_Deep.ex80_pf ex83_any ex83_m /\ m_applied ex83_any ex83_m = [false; true; false; false; false; false; true; false; true] /\
  make P_Deep.ex80_pf (m_final ex83_any ex83_m) = b "{""a"":[""x y"",{""kk"":7,""{"":""""},""z"",9],""n"":{},""e"":[]}" /\
  exists p p', Parse (make P_Deep.ex80_pf ex83_m) = Ok p /\
    t_calls P_Deep.ex80_pf (flat_map (tcmd P_Deep.ex80_pf) ex83_any) p = Some (p', [Some (EKeyNotFound (b "7")); None; Some (EKeyAlreadyExist (b "{")); Some EArrayExpected; Some (EKeyAlreadyExist (b "n")); Some (EKeyAlreadyExist (b "1")); None; Some (EKeyNotFound (b "k")); None]) /\
    P_JSON p' = b "{""a"":[""x y"",{""kk"":7,""{"":""""},""z"",9],""n"":{},""e"":[]}" /\ P_Get p' [b "a"; b "1"; b "kk"] = Ok (b "7").
Proof.
  assert (F : forall s, str_ok s && (negb (P_Deep.ex80_pf s) || scalar_ok s) && negb (fenced s) = true -> fit P_Deep.ex80_pf s).
  { intros s H. apply andb_prop in H. destruct H as [H H3]. apply andb_prop in H. destruct H as [H1 H2]. split; [exact H1|]. split; [|destruct (fenced s); [discriminate|reflexivity]].
    intro Hp. rewrite Hp in H2. exact H2. }
  assert (Ns : forall t k, negb (bytes_eqb k []) && negb (occurs_b (quoted k) t) && negb (bytes_eqb (firstn (length k + 1) t) (k ++ [34])) = true -> new_in t k).
  { intros t k H. apply andb_prop in H. destruct H as [H H3]. apply andb_prop in H. destruct H as [H1 H2]. apply negb_true_iff in H1, H2, H3. split; [intros ->; discriminate H1|].
    split; [apply occurs_b_complete, H2|]. intros r ->. apply bytes_eqb_neq in H3. apply H3. rewrite firstn_app. replace (length k + 1 - length k)%nat with 1%nat by (rewrite Nat.add_comm, Nat.add_sub; reflexivity).
    rewrite firstn_all2 by (apply Nat.le_add_r). reflexivity. }
  split.
  - unfold ex83_any, ex83_m. repeat (cbn [p_m_sures]; try match goal with |- context [p_m_sures _ _ (m_after ?c ?m)] => let x := eval vm_compute in (m_after c m) in change (m_after c m) with x end;
      match goal with |- context [m_applies ?c ?m] => let x := eval vm_compute in (m_applies c m) in change (m_applies c m) with x; cbv iota end; split; [vm_compute; discriminate|]; split;
      [first [split; [|apply DeepParserOps.p_mcmd_sound; vm_compute; reflexivity]; cbn [mcmd_ok good fold_right fst snd]
             |cbn [p_m_calm good fold_right fst snd]]; repeat match goal with
         | |- _ /\ _ => split | |- True => exact I | |- fit _ _ => apply F; vm_compute; reflexivity | |- new_in _ _ => apply Ns; vm_compute; reflexivity
         | |- m_straight _ _ => apply DeepParserOps.straight_sound; vm_compute; reflexivity
         | |- _ = true => vm_compute; reflexivity | |- _ <> [] => discriminate
         | |- forall ps, _ = Some (MMap ps) -> _ => intros ps E; first [reflexivity | vm_compute in E; discriminate E]
         | |- forall ms, _ <> _ => intros ms E; vm_compute in E; discriminate E end|]).
    all: vm_compute; first [reflexivity | discriminate | intros u E; injection E as <-; reflexivity].
  - do 2 (split; [vm_compute; reflexivity|]). eexists. eexists. split; [vm_compute; reflexivity|]. split; [vm_compute; reflexivity|]. split; vm_compute; reflexivity.
Qed.
