(** Property C81: nested Go values made, changed and read by the functions as written in Go.  Statements only; the proofs are in [DeepGo]. *)
From Coq Require Import String.
From Verif Require Import GoStd Json Spec Domains Errors SpecTyped SpecParser GoLang AsWritten SpecMade SpecDeep SpecDeepGo.
From Verif Require Import SplitGo ListGo WalkGo Pointers ParserGo.
From Verif Require P_Deep DeepGo.

Local Open Scope N_scope.

(** ** C81

    As C80, for the programs of statements that follow the Go functions (C62 to C73): [make_go] makes the text of a nested value, [do_mcmd_go]
    is a call and [run_mcmds_go] a sequence of them.  What is changed in the value is changed in the text.
    Full statement: for all calls that apply.  False, [C81_new_key_refuted], as C80. *)
Definition C81_statement : Prop := forall pf m c m', good pf m -> filled m -> m_octets m -> mcmd_octets c -> mcmd_easy pf c -> m_effect c m = Some m' ->
  eventually (fun fuel => after (make_go pf m) (do_mcmd_go fuel pf c) = Ret (make pf m', None)).

Theorem C81_histories_partial : forall pf cs m m', good pf m -> filled m -> m_octets m -> Forall mcmd_octets cs -> m_goes pf cs m m' ->
  eventually (fun fuel => after (make_go pf m) (run_mcmds_go fuel pf cs) = Ret (make pf m', None)) /\ make_go pf m' = Ret (make pf m') /\ good pf m' /\ filled m' /\ octets (make pf m').
Proof. exact DeepGo.deep_written. Qed.
Print Assumptions C81_histories_partial.

Theorem C81_reads : forall pf m p x, good pf m -> filled m -> octets (make pf m) -> m_at m p = Some x ->
  eventually (fun fuel =>
    (p <> [] -> Get_go fuel (make pf m) p = Ret (make pf x, None)) /\
    match x with
    | MStr _ => True
    | MMap ps => ps <> [] -> GetKeys_go fuel (make pf m) p = Ret (map fst ps, None) /\ GetValues_go fuel (make pf m) p = Ret (map (fun kv => make pf (snd kv)) ps, None) /\
        Length_go fuel (make pf m) p = Ret (Z.of_nat (length ps), None)
    | MList ms => ms <> [] -> GetStringArray_go fuel (make pf m) p = Ret (map (make pf) ms, None) /\
        (p <> [] \/ (2 <= length ms)%nat -> Length_go fuel (make pf m) p = Ret (Z.of_nat (length ms), None))
    end /\
    IsArray_go fuel (make pf m) p = Ret (match x with MList _ => true | _ => false end, None) /\
    IsValue_go fuel (make pf m) p = Ret (match x with MStr _ => true | _ => false end, None)).
Proof. exact DeepGo.deep_reads_written. Qed.
Print Assumptions C81_reads.

Theorem C81_walk : forall pf (St : Type) pf' m (cb : St -> bytes -> bytes -> list bytes -> St * (bool * option err)) s,
  good pf m -> filled m -> octets (make pf m) -> m_full m -> fits (make pf m) -> (forall s k v p, snd (snd (cb s k v p)) = None) ->
  eventually (fun fuel => Walk_go pf' fuel (make pf m) cb (S (S (length (make pf m)))) s =
    Ret (fold_left (fun s l => fst (cb s (last (fst l) []) (snd l) (fst l))) (m_leaves [] m) s, None)).
Proof. exact DeepGo.deep_walk_written. Qed.
Print Assumptions C81_walk.

Theorem C81_parser_partial : forall pf m, good pf m -> filled m -> octets (make pf m) ->
  exists p, eventually (fun fuel => Parse_go (as_written fuel) (make pf m) = Ret (Some p, None)) /\ q_json p = make pf m /\
    forall q x, q <> [] -> m_at m q = Some x -> m_straight m q -> eventually (fun fuel => Get_p (as_written fuel) p q = Ret (make pf x, None)).
Proof. exact DeepGo.deep_parser_written. Qed.
Print Assumptions C81_parser_partial.

(** AddKeyValue as written, with any bound on its loops from 100 on *)
Definition ex81_r : made := MList [MMap [(b "a", MStr (b "1"))]; MMap [(b "k", MStr (b "2")); (b "j", MStr (b "3"))]].
Theorem C81_new_key_refuted : ~ C81_statement.
Proof.
  intro H. set (m := ex81_r).
  assert (F : forall s, P_Deep.ex80_pf s = false -> str_ok s = true -> fenced s = false -> fit P_Deep.ex80_pf s) by (intros s H1 H2 H3; split; [exact H2|]; split; [rewrite H1; discriminate|exact H3]).
  assert (G : good P_Deep.ex80_pf m) by (cbn [good m ex81_r fold_right fst snd]; repeat match goal with |- _ /\ _ => split | |- True => exact I | |- fit _ _ => apply F; vm_compute; reflexivity | |- _ => reflexivity end).
  destruct (m_effect (MAddKey [b "0"] (b "j") (MStr (b "5"))) m) as [m'|] eqn:Em; [|vm_compute in Em; discriminate Em].
  assert (O : m_octets m) by (cbn [m_octets m ex81_r fold_right fst snd]; repeat match goal with |- _ /\ _ => split | |- True => exact I | |- octets _ => repeat (constructor; [reflexivity|]); constructor end).
  apply (H P_Deep.ex80_pf) in Em; [|exact G|exact I|exact O|split; [repeat (constructor; [reflexivity|]); constructor|repeat (constructor; [reflexivity|]); constructor]|split; [discriminate|split; [reflexivity|apply F; vm_compute; reflexivity]]].
  destruct Em as (n & Hn). specialize (Hn (n + 60)%nat (Nat.le_add_r n 60)). rewrite DeepGo.make_go_spec in Hn. cbn [after] in Hn.
  rewrite DeepGo.do_mcmd_spec in Hn; [|apply DeepGo.octets_make, O| |].
  - assert (E : Api.Fail (Some (make P_Deep.ex80_pf m)) (EKeyAlreadyExist (b "j")) = do_mcmd P_Deep.ex80_pf (MAddKey [b "0"] (b "j") (MStr (b "5"))) (make P_Deep.ex80_pf m)) by (vm_compute; reflexivity).
    rewrite <- E in Hn. discriminate Hn.
  - apply (Nat.lt_le_trans _ 60); [vm_compute; repeat constructor|rewrite Nat.add_comm; apply Nat.le_add_r].
  - apply (Nat.lt_le_trans _ 60); [vm_compute; repeat constructor|rewrite Nat.add_comm; apply Nat.le_add_r].
Qed.
Print Assumptions C81_new_key_refuted.

Example C81_example :
  good P_Deep.ex80_pf P_Deep.ex80_m /\ m_octets P_Deep.ex80_m /\ Forall mcmd_octets P_Deep.ex80_cs /\
  make_go P_Deep.ex80_pf P_Deep.ex80_m = Ret (b "{""a"":[""x y"",{""k"":1.5,""{"":""""}],""n"":{},""a"":true}") /\
  after (make_go P_Deep.ex80_pf P_Deep.ex80_m) (run_mcmds_go 100 P_Deep.ex80_pf P_Deep.ex80_cs) =
    Ret (b "{""a"":[{""k"":[8,7],""m"":""""},null],""n"":{""z"":""t""},""a"":true,""w"":{}}", None) /\
  (exists m', m_goes P_Deep.ex80_pf P_Deep.ex80_cs P_Deep.ex80_m m') /\
  after (make_go P_Deep.ex80_pf P_Deep.ex80_m) (fun t => Get_go 100 t [b "a"; b "1"; b "k"]) = Ret (b "1.5", None) /\
  after (make_go P_Deep.ex80_pf P_Deep.ex80_m) (fun t => Length_go 100 t [b "a"]) = Ret (2%Z, None) /\
  Walk_go P_Deep.ex80_pf 100 (make P_Deep.ex80_pf P_Deep.ex80_w) (fun s k v p => (s ++ [(k, v)], (true, None))) (S (S (length (make P_Deep.ex80_pf P_Deep.ex80_w)))) [] =
    Ret ([(b "0", b "x y"); (b "k", b "1.5"); (b "{", []); (b "0", b "7")], None) /\
  after (make_go P_Deep.ex80_pf ex81_r) (do_mcmd_go 100 P_Deep.ex80_pf (MAddKey [b "0"] (b "j") (MStr (b "5")))) =
    Ret (b "[{""a"":1},{""k"":2,""j"":3}]", Some (EKeyAlreadyExist (b "j"))).
Proof.
  destruct P_Deep.C80_example as (G & _ & _ & _ & _ & _ & _ & m' & Hm & _). split; [exact G|].
  split; [cbn [m_octets P_Deep.ex80_m fold_right fst snd]; repeat match goal with |- _ /\ _ => split | |- True => exact I | |- octets _ => repeat (constructor; [reflexivity|]); constructor end|].
  split; [unfold P_Deep.ex80_cs; repeat (apply Forall_cons; [cbn [mcmd_octets m_octets fold_right fst snd]; repeat match goal with |- _ /\ _ => split | |- True => exact I | |- octets _ => repeat (constructor; [reflexivity|]); constructor end|]); constructor|].
  split; [vm_compute; reflexivity|]. split; [vm_compute; reflexivity|]. split; [exists m'; exact Hm|]. repeat split; vm_compute; reflexivity.
Qed.
