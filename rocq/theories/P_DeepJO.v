(** Property C82: a JO that holds a document made of nested Go maps and slices.  Statements only; the proofs are in [DeepJO]. *)
From Coq Require Import String.
From Verif Require Import GoStd Json Spec Domains Errors SpecTyped GoLang AsWritten SpecMade SpecDeep SpecDeepGo SpecDeepJO TypedGo.
From Verif Require JO P_Deep DeepJO.

Local Open Scope N_scope.

(** ** C82

    [jcmd pf c] is the method of JO for the call [c], [m_final cs m] the value after the calls [cs], those that do not apply changing nothing, and
    [m_applied cs m] tells which of them apply.  [m_sures] asks along the way that a key absent from a map be one the text shows nowhere in quotes, that
    keys be not empty and indices not negative, that no path lead into a string, and that Store be called on maps. *)
Theorem C82_histories_partial : forall pf cs m, good pf m -> filled m -> m_sures pf cs m ->
  exists es, JO.jo_run pf (make pf m) (map (jcmd pf) cs) = Some (make pf (m_final cs m), es) /\ told_by es = m_applied cs m /\ good pf (m_final cs m) /\ filled (m_final cs m).
Proof. exact DeepJO.jo_history_deep. Qed.
Print Assumptions C82_histories_partial.

(** The same of the methods as written in Go. *)
Theorem C82_written_partial : forall pf cs m, good pf m -> filled m -> m_octets m -> Forall mcmd_octets cs -> m_sures pf cs m ->
  exists es, eventually (fun fuel => after (make_go pf m) (calls_j fuel pf (map (jcmd pf) cs)) = Ret (make pf (m_final cs m), es)) /\ told_by es = m_applied cs m.
Proof. exact DeepJO.jo_written_deep. Qed.
Print Assumptions C82_written_partial.

(** Full statement: with StoreString for Store, as with the function of that name (C80).  False: the method writes its string without quotes. *)
Definition C82_statement : Prop := forall pf cs m, good pf m -> filled m -> m_sures pf cs m ->
  exists es, JO.jo_run pf (make pf m) (map (jcmd_string pf) cs) = Some (make pf (m_final cs m), es) /\ told_by es = m_applied cs m.
Theorem C82_store_string_refuted : ~ C82_statement /\
  JO.jo_run P_Deep.ex80_pf (make P_Deep.ex80_pf (MMap [])) (map (jcmd_string P_Deep.ex80_pf) [MStore [] (b "k") (MStr (b "x y"))]) = Some (b "{""k"":x y}", [None]).
Proof.
  split; [|vm_compute; reflexivity]. intro H. destruct (H P_Deep.ex80_pf [MStore [] (b "k") (MStr (b "x y"))] (MMap [])) as (es & E & _); [exact I|exact I| |vm_compute in E; discriminate E].
  split; [|exact I]. split; [reflexivity|]. split; [split; [vm_compute; reflexivity|]; split; [intro E; vm_compute in E; discriminate E|vm_compute; reflexivity]|]. split; [|intros ms E; discriminate E].
  cbn [app m_tells assoc]. split; [discriminate|]. split; [apply occurs_b_complete; vm_compute; reflexivity|]. intros r E. vm_compute in E. discriminate E.
Qed.
Print Assumptions C82_store_string_refuted.

(** Nine calls of which five apply *)
Definition ex82_cs : list mcmd :=
  [MAddKey [] (b "a") (MList [MStr (b "1.5"); MStr (b "x y")]); MDelete [b "a"] (b "2"); MAppend [b "a"] (MMap [(b "k", MStr [])]); MAddKey [] (b "a") (MStr (b "1"));
   MStore [b "a"; b "2"] (b "n") (MStr (b "true")); MAppend [b "a"; b "0"] (MStr (b "1")); MRename [b "a"; b "2"] (b "k") (b "n"); MInsert [b "a"] 0 (MMap []); MSet [b "a"; b "3"; b "z"] (MStr (b "7"))].
Example C82_example :
  m_sures P_Deep.ex80_pf ex82_cs (MMap []) /\ make P_Deep.ex80_pf (MMap []) = JO.NewJSON /\
  m_applied ex82_cs (MMap []) = [true; false; true; false; true; false; false; true; false] /\
  make P_Deep.ex80_pf (m_final ex82_cs (MMap [])) = b "{""a"":[{},1.5,""x y"",{""k"":"""",""n"":true}]}" /\
  JO.jo_run P_Deep.ex80_pf JO.NewJSON (map (jcmd P_Deep.ex80_pf) ex82_cs) =
    Some (b "{""a"":[{},1.5,""x y"",{""k"":"""",""n"":true}]}",
      [None; Some EIndexOutOfRange; None; Some (EKeyAlreadyExist (b "a")); None; Some EArrayExpected; Some (EBadJSON 0); None; Some (EKeyNotFound (b "z"))]) /\
  calls_j 100 P_Deep.ex80_pf (map (jcmd P_Deep.ex80_pf) ex82_cs) JO.NewJSON =
    Ret (b "{""a"":[{},1.5,""x y"",{""k"":"""",""n"":true}]}",
      [None; Some EIndexOutOfRange; None; Some (EKeyAlreadyExist (b "a")); None; Some EArrayExpected; Some (EBadJSON 0); None; Some (EKeyNotFound (b "z"))]) /\
  Forall mcmd_octets ex82_cs.
Proof.
  assert (F : forall s, str_ok s && (negb (P_Deep.ex80_pf s) || scalar_ok s) && negb (fenced s) = true -> fit P_Deep.ex80_pf s).
  { intros s H. apply andb_prop in H. destruct H as [H H3]. apply andb_prop in H. destruct H as [H1 H2]. split; [exact H1|]. split; [|destruct (fenced s); [discriminate|reflexivity]].
    intro Hp. rewrite Hp in H2. exact H2. }
  assert (Ns : forall t k, negb (bytes_eqb k []) && negb (occurs_b (quoted k) t) && negb (bytes_eqb (firstn (length k + 1) t) (k ++ [34])) = true -> new_in t k).
  { intros t k H. apply andb_prop in H. destruct H as [H H3]. apply andb_prop in H. destruct H as [H1 H2]. apply negb_true_iff in H1, H2, H3. split; [intros ->; discriminate H1|].
    split; [apply occurs_b_complete, H2|]. intros r ->. apply bytes_eqb_neq in H3. apply H3. rewrite firstn_app. replace (length k + 1 - length k)%nat with 1%nat by (rewrite Nat.add_comm, Nat.add_sub; reflexivity).
    rewrite firstn_all2 by (apply Nat.le_add_r). reflexivity. }
  split.
  - unfold ex82_cs. do 9 (cbn [m_sures]; try match goal with |- context [m_sures _ _ (m_after ?c ?m)] => let x := eval vm_compute in (m_after c m) in change (m_after c m) with x end; split;
      [cbn [m_sure good fold_right fst snd app]; repeat match goal with
         | |- _ /\ _ => split | |- True => exact I | |- fit _ _ => apply F; vm_compute; reflexivity
         | |- m_tells _ _ _ => first [exact I | vm_compute; exact I | progress cbn; apply Ns; vm_compute; reflexivity]
         | |- _ = true => vm_compute; reflexivity | |- _ <> [] => discriminate | |- (_ <= _)%Z => discriminate
         | |- forall ms, _ <> _ => intros ms E; vm_compute in E; discriminate E
         | |- forall ps, _ -> _ => intros ps E; vm_compute in E; first [discriminate E | injection E as <-; first [left; vm_compute; discriminate | right; apply Ns; vm_compute; reflexivity]] end|]).
    exact I.
  - do 5 (split; [vm_compute; reflexivity|]). unfold ex82_cs. repeat (apply Forall_cons; [cbn [mcmd_octets m_octets fold_right fst snd]; repeat match goal with |- _ /\ _ => split | |- True => exact I | |- octets _ => repeat (constructor; [reflexivity|]); constructor end|]); constructor.
Qed.
