(** Property C71: the Parser as written in Go computes what the models of it compute. *)
From Coq Require Import String.
From Verif Require Import GoStd Errors GoLang Core Api Iter Parser Tree SpecPtr Pointers AsWritten ParserGo ParserGoWritten ParserNil ParserNilGo.
From Verif Require PointerProofs.

Local Open Scope Z_scope.

(** ** C71

    The programs follow parse_utils.go, parse_get.go:15-46, parse_set.go:9-51 and 87-117, parse_delete.go:6-30 and
    parse_add.go:10-339 statement by statement, over the heap of nodes of Pointers.v, and call the programs of C62 to C68.
    [eventually]: with enough fuel for the loops of these. *)
Theorem C71_parse : forall json, octets json -> eventually (fun fuel =>
  Parse_go (as_written fuel) json = match Q_Parse json with Ok p => Ret (Some p, None) | Err e => Ret (None, Some e) | Panic => Pan end).
Proof. exact Parse_written. Qed.
Print Assumptions C71_parse.

Theorem C71_get : forall p path, eventually (fun fuel =>
  Get_p (as_written fuel) p path = match Q_Get p path with Ok v => Ret (v, None) | Err e => Ret ([], Some e) | Panic => Pan end).
Proof. exact Get_written. Qed.
Print Assumptions C71_get.

Theorem C71_set : forall p, octets (q_json p) -> forall newVal path, octets newVal -> eventually (fun fuel =>
  Set_p (as_written fuel) p newVal path = match Q_Set p newVal path with QRet q e => Ret (q, e) | QPanic => Pan end).
Proof. exact Set_written. Qed.
Print Assumptions C71_set.
Theorem C71_set_key : forall p, octets (q_json p) -> forall newKey path, octets newKey -> eventually (fun fuel =>
  SetKey_p (as_written fuel) p newKey path = match Q_SetKey p newKey path with QRet q e => Ret (q, e) | QPanic => Pan end).
Proof. exact SetKey_written. Qed.
Print Assumptions C71_set_key.
Theorem C71_delete : forall p, octets (q_json p) -> forall path, eventually (fun fuel =>
  Delete_p (as_written fuel) p path = match Q_Delete p path with QRet q e => Ret (q, e) | QPanic => Pan end).
Proof. exact Delete_written. Qed.
Print Assumptions C71_delete.
Theorem C71_add_key_value : forall p, octets (q_json p) -> forall key newVal path, octets key -> octets newVal -> eventually (fun fuel =>
  AddKeyValue_p (as_written fuel) p key newVal path = match Q_AddKeyValue p key newVal path with QRet q e => Ret (q, e) | QPanic => Pan end).
Proof. exact AddKeyValue_written. Qed.
Print Assumptions C71_add_key_value.
Theorem C71_add : forall p, octets (q_json p) -> forall newVal path, octets newVal -> eventually (fun fuel =>
  Add_p (as_written fuel) p newVal path = match Q_Add p newVal path with QRet q e => Ret (q, e) | QPanic => Pan end).
Proof. exact Add_written. Qed.
Print Assumptions C71_add.
Theorem C71_insert : forall p, octets (q_json p) -> forall newIndex newVal path, octets newVal -> eventually (fun fuel =>
  Insert_p (as_written fuel) p newIndex newVal path = match Q_Insert p newIndex newVal path with QRet q e => Ret (q, e) | QPanic => Pan end).
Proof. exact Insert_written. Qed.
Print Assumptions C71_insert.

(** AddKeyValue with a nil value, from nodes that stand for a parser of Parser.v (as after any history: C46_refines) *)
Theorem C71_add_key_value_nil : forall q p key path, octets (q_json q) -> octets key -> q_json q = p_json p -> stands (q_heap q) (q_root q) (p_core p) ->
  match P_AddKeyValue_nil p key path with
  | PRet p' e => exists q', eventually (fun fuel => AddKeyValue_nil_p fuel q key path = Ret (q', e)) /\ q_json q' = p_json p' /\
      stands (q_heap q') (q_root q') (p_core p') /\
      forall r, eventually (fun fuel => Get_p (as_written fuel) q' r = match P_Get p' r with Ok v => Ret (v, None) | Err e => Ret ([], Some e) | Panic => Pan end)
  | PPanic => eventually (fun fuel => AddKeyValue_nil_p fuel q key path = Pan)
  end.
Proof. exact nil_go. Qed.
Print Assumptions C71_add_key_value_nil.
Example C71_nil_example : let t := b "{""a"":{""c"":1}}" in
  octets t /\ exists q p q', Q_Parse t = Ok q /\ Parse t = Ok p /\ q_json q = p_json p /\ (exists n, stands (q_heap q) (q_root q) n) /\
    AddKeyValue_nil_p 60 q (b "k") [b "a"] = Ret (q', None) /\ q_json q' = b "{""a"":{""c"":1,""k"":null}}" /\ Get_p (as_written 60) q' [b "a"; b "k"] = Ret ([], None) /\
    AddKeyValue_nil_p 60 q (b "kk") [b "a"] = Pan /\ AddKeyValue_nil_p 60 q (b "a") [b "a"] = Ret (q, Some (EKeyAlreadyExist (b "a"))).
Proof.
  cbv zeta. split; [repeat constructor|]. do 3 eexists. split; [vm_compute; reflexivity|]. split; [vm_compute; reflexivity|]. split; [vm_compute; reflexivity|].
  split; [refine (PointerProofs.reached_tree (b "{""a"":{""c"":1}}") [] _ [] _); eexists; split; [vm_compute; reflexivity|reflexivity]|].
  do 4 (split; [vm_compute; reflexivity|]). vm_compute. reflexivity.
Qed.

(** ** Parse, any calls, and the readers at the end: the Go code over pointers and the model without pointers

    [levels] bounds the recursion of [dive] and of [createTree]: as many levels as there are nodes are enough. *)
Theorem C71_history : forall json cs, octets json -> Forall pcall_octets cs ->
  match Parse json with
  | Ok p => exists q, eventually (fun fuel => Parse_go (as_written fuel) json = Ret (Some q, None)) /\
      match p_calls cs p with
      | Some (p', es) => exists q', eventually (fun fuel => calls_p (as_written fuel) cs q = Ret (q', es)) /\ q_json q' = p_json p' /\
          (forall path, eventually (fun fuel => Get_p (as_written fuel) q' path = match P_Get p' path with Ok v => Ret (v, None) | Err e => Ret ([], Some e) | Panic => Pan end)) /\
          forall levels, (length (q_heap q') <= levels)%nat ->
            (forall path, eventually (fun fuel => GetNew_p (as_written fuel) levels q' path = match P_GetNew p' path with Ok v => Ret v | _ => Pan end)) /\
            Tree_p levels q' = Ret (P_Tree p') /\ TreeFull_p levels q' = Ret (P_TreeFull p')
      | None => eventually (fun fuel => calls_p (as_written fuel) cs q = Pan)
      end
  | Err e => eventually (fun fuel => Parse_go (as_written fuel) json = Ret (None, Some e))
  | Panic => eventually (fun fuel => Parse_go (as_written fuel) json = Pan)
  end.
Proof. exact history_written. Qed.
Print Assumptions C71_history.

(** All six updates, one of them failing; then a call that panics *)
Definition ex71 : bytes := b "{""a"":[1,2,{""x"":[[],{}]}],""b"":{""c"":{""d"":""e""}}}".
Definition ex71_calls : list pcall :=
  [CAdd (b "{""n"":[7]}") [b "a"]; CSet (b "[0,[1]]") [b "b"; b "c"]; CInsert 1 (b "9") [b "a"]; CDelete [b "nope"]; CSetKey (b "z") [b "a"; b "3"; b "x"];
   CAddKeyValue (b "kk") (b "{""q"":1}") [b "b"]; CDelete [b "b"; b "c"]; CAddKeyValue (b "m") (b "2") []; CInsert (-1) (b "9") [b "a"]].
Example C71_example :
  octets ex71 /\ Forall pcall_octets ex71_calls /\
  exists q q' es, Parse_go (as_written 120) ex71 = Ret (Some q, None) /\ calls_p (as_written 120) (removelast ex71_calls) q = Ret (q', es) /\
    es = [None; None; None; Some (EKeyNotFound (b "nope")); None; None; None; None] /\
    q_json q' = b "{""a"":[1,9,2,{""z"":[[],{}]},{""n"":[7]}],""b"":{""kk"":{""q"":1}},""m"":2}" /\
    Get_p (as_written 120) q' [b "b"; b "kk"] = Ret (b "{""q"":1}", None) /\ Get_p (as_written 120) q' [b "b"; b "c"] = Ret ([], Some (EKeyNotFound (b "c"))) /\
    GetNew_p (as_written 120) 40 q' [b "m"] = Ret (b "2") /\ GetNew_p (as_written 120) 40 q' [b "a"; b "2"] = Ret (b "2") /\
    (exists r, Parse_go (as_written 120) (b "{""a"":[1,2]}") = Ret (Some r, None) /\ Tree_p 9 r = Ret (dash ++ b " a" ++ [10%N; 9%N] ++ corner ++ b "  0" ++ [10%N; 9%N] ++ corner ++ b "  1" ++ [10%N])) /\
    calls_p (as_written 120) ex71_calls q = Pan.
Proof.
  split; [repeat constructor|]. split; [unfold ex71_calls; repeat (constructor; cbn [pcall_octets]); repeat constructor|].
  do 3 eexists. repeat (match goal with |- _ /\ _ => split | |- exists _, _ => eexists end; [vm_compute; reflexivity|..]); repeat split; try (eexists; split); vm_compute; reflexivity. Qed.
