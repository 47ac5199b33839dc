(** Property C79: a Parser of a document made of a Go map.  Statements only; the proofs are in [MadeParser]. *)
From Coq Require Import String.
From Verif Require Import GoStd Json Spec Errors Core Api Typed SpecTyped SpecParser Parser Make SpecFlat SpecMade.
From Verif Require MadeParser.

Local Open Scope N_scope.

(** ** C79

    Full statement: a Parser of the object made of a map is the map, through any history of Set, AddKeyValueString, Delete and SetKey, failing calls
    included.  False for AddKeyValue on the object without members, [C79_parser_refuted]. *)
Definition C79_statement : Prop := forall pf cs ps, sheet pf ps -> Forall (cmd_ok pf) cs -> (forall k v, ~ In (CStore k v) cs) ->
  exists p p', Parse (MakeJsonWithMap pf (nonnil ps)) = Ok p /\ p_run_calls pf cs p = Some p' /\
    p_json p' = MakeJsonWithMap pf (nonnil (p_steps cs ps)).

(** The values are no arrays or objects, and [p_goes] asks that nothing be added while the object has no members, and that the length of every text be an int. *)
Theorem C79_histories_partial : forall pf cs ps, sheet pf ps -> Forall (fit pf) (map snd ps) -> p_goes pf cs ps ->
  exists p p', Parse (MakeJsonWithMap pf (nonnil ps)) = Ok p /\ p_run_calls pf cs p = Some p' /\
    p_json p' = MakeJsonWithMap pf (nonnil (p_steps cs ps)) /\
    forall k, P_Get p' [k] = match assoc k (p_steps cs ps) with Some v => Ok v | None => Err (EKeyNotFound k) end.
Proof. exact MadeParser.parser_history. Qed.
Print Assumptions C79_histories_partial.

(** A text without blanks is the text of one document only, whatever tree one parses it into. *)
Theorem C79_one_document : forall d c, wf_doc d = true -> wf (tree c) = true -> text d = flat c -> d = Doc [] (tree c) [].
Proof. exact MadeParser.flat_unique. Qed.
Print Assumptions C79_one_document.

Theorem C79_parser_refuted : ~ C79_statement /\
  exists p p', Parse (b "{}") = Ok p /\ P_AddKeyValueString (fun _ => false) p (b "k") (b "5") [] = PRet p' None /\ p_json p' = b "{,""k"":5}".
Proof.
  split.
  - intro H. destruct (H (fun _ => false) [CAdd (b "k") (b "5")] []) as (p & p' & E1 & E2 & E3).
    + repeat constructor.
    + repeat constructor; try discriminate.
    + intros k v [E|[]]. discriminate E.
    + vm_compute in E1. injection E1 as <-. vm_compute in E2. injection E2 as <-. vm_compute in E3. discriminate E3.
  - eexists. eexists. split; [vm_compute; reflexivity|]. split; vm_compute; reflexivity.
Qed.
Print Assumptions C79_parser_refuted.

Definition ex79_pf (s : bytes) : bool := bytes_eqb s (b "1.5").
Definition ex79_ps : list (bytes * bytes) := [(b "a", b "x y"); (b "k", b "1.5"); (b "n", [])].
Definition ex79_cs : list cmd :=
  [CSet (b "k") (b "true"); CAdd (b "a") (b "2"); CAdd (b "q") (b "[x"); CRename (b "n") (b "m{"); CDelete (b "a"); CDelete (b "a"); CRename (b "k") (b "q"); CSet (b "q") (b "07"); CRename (b "z") (b "q")].
Example C79_example :
  sheet ex79_pf ex79_ps /\ Forall (fit ex79_pf) (map snd ex79_ps) /\ p_goes ex79_pf ex79_cs ex79_ps /\ p_steps ex79_cs ex79_ps = [(b "k", b "true"); (b "m{", []); (b "q", b "07")] /\
  exists p p', Parse (b "{""a"":""x y"",""k"":1.5,""n"":""""}") = Ok p /\ p_run_calls ex79_pf ex79_cs p = Some p' /\ p_json p' = b "{""k"":true,""m{"":"""",""q"":""07""}" /\
    P_Get p' [b "m{"] = Ok [] /\ P_Get p' [b "a"] = Err (EKeyNotFound (b "a")) /\
    do_p_cmd ex79_pf (CRename (b "k") (b "q")) p' = PRet p' (Some (EKeyAlreadyExist (b "q"))) /\
    do_p_cmd ex79_pf (CRename (b "z") (b "q")) p' = PRet p' (Some (EKeyNotFound (b "z"))).
Proof.
  assert (F : forall s, str_ok s && (negb (ex79_pf s) || scalar_ok s) && negb (fenced s) = true -> fit ex79_pf s).
  { intros s H. apply andb_prop in H. destruct H as [H H3]. apply andb_prop in H. destruct H as [H1 H2]. split; [exact H1|]. split; [|destruct (fenced s); [discriminate|reflexivity]].
    intro Hp. rewrite Hp in H2. exact H2. }
  assert (Z : forall t, (Z.of_nat (length t) <=? int64_max)%Z = true -> fits t) by (intros t H; apply Z.leb_le, H).
  split; [split; [split; [repeat constructor; cbn; intuition discriminate|repeat constructor; discriminate]|repeat (apply Forall_cons || apply Forall_nil); left; apply F; vm_compute; reflexivity]|].
  split; [repeat (apply Forall_cons || apply Forall_nil); apply F; vm_compute; reflexivity|].
  split.
  { assert (G : forall c cs ps ps', cmd_ok ex79_pf c -> p_able ex79_pf c ps -> fits (MakeJsonWithMap ex79_pf (nonnil ps)) ->
               match p_step c ps with inl x => x | inr _ => ps end = ps' -> p_goes ex79_pf cs ps' -> p_goes ex79_pf (c :: cs) ps).
    { intros c cs ps ps' H1 H2 H3 <- H5. cbn [p_goes]. auto. }
    unfold ex79_cs. do 9 (eapply G; [cbn [cmd_ok]; repeat match goal with |- _ /\ _ => split | |- True => exact I | |- _ <> [] => discriminate | |- item _ _ => left | |- fit _ _ => apply F; vm_compute; reflexivity | |- _ => reflexivity end|
      cbn [p_able]; repeat match goal with |- _ /\ _ => split | |- True => exact I | |- _ <> [] => discriminate | |- item _ _ => left | |- fit _ _ => apply F; vm_compute; reflexivity | |- _ => reflexivity end|
      apply Z; vm_compute; reflexivity|vm_compute; reflexivity|]).
    apply Z. vm_compute. reflexivity. }
  split; [vm_compute; reflexivity|]. eexists. eexists. split; [vm_compute; reflexivity|]. split; [vm_compute; reflexivity|]. repeat split; vm_compute; reflexivity.
Qed.
