(** Property C68: the updates as written in Go compute what the models of them compute. *)
From Coq Require Import String.
From Verif Require Import GoStd Errors GoLang Core Api UpdateGo UpdateGoProofs.

Local Open Scope Z_scope.

(** ** C68

    The programs follow utils.go:8-14, inter_set.go:11-106, inter_delete.go:6-54 and inter_add.go:8-230 statement by
    statement.  [outcome] reads the answer of a model as the text and the error that the function returns:
    [Done o] is o and nil, [Fail o e] is o and e, [UPanic] a panic. *)
Theorem C68_replace : forall json new s e,
  replace_go json new (Z.of_nat s) (Z.of_nat e) = match replace json new s e with Ok o => Ret o | _ => Pan end.
Proof. exact replace_go_spec. Qed.
Print Assumptions C68_replace.

Theorem C68_outcome :
  (forall o, outcome (Done o) = Ret (o, None)) /\ (forall o e, outcome (Fail (Some o) e) = Ret (o, Some e)) /\
  (forall e, outcome (Fail None e) = Ret ([], Some e)) /\ outcome UPanic = Pan.
Proof. exact (conj (fun _ => eq_refl) (conj (fun _ _ => eq_refl) (conj (fun _ => eq_refl) eq_refl))). Qed.
Print Assumptions C68_outcome.

Theorem C68_set : forall fuel json new path,
  Forall (fun c => (c < 256)%N) json -> (length json < fuel)%nat -> (length path < fuel)%nat ->
  Set_go fuel json new path = outcome (Set_ json new path).
Proof. exact (fun fuel json new path Hb Hj Hp => Set_go_spec fuel json Hb Hj new path Hp). Qed.
Print Assumptions C68_set.

Theorem C68_set_key : forall fuel json key path,
  Forall (fun c => (c < 256)%N) json -> (length json < fuel)%nat -> (length path < fuel)%nat ->
  SetKey_go fuel json key path = outcome (SetKey json key path).
Proof. exact (fun fuel json key path Hb Hj Hp => SetKey_go_spec fuel json Hb Hj key path Hp). Qed.
Print Assumptions C68_set_key.

Theorem C68_delete : forall fuel json path,
  Forall (fun c => (c < 256)%N) json -> (length json < fuel)%nat -> (length path < fuel)%nat ->
  Delete_go fuel json path = outcome (Delete json path).
Proof. exact (fun fuel json path Hb Hj Hp => Delete_go_spec fuel json Hb Hj path Hp). Qed.
Print Assumptions C68_delete.

(** No value is Go's nil *)
Theorem C68_add_key_value : forall fuel json key value path,
  Forall (fun c => (c < 256)%N) json -> (length json < fuel)%nat -> (S (length path) < fuel)%nat ->
  AddKeyValue_go fuel json key value path = outcome (AddKeyValue json key value path).
Proof. exact (fun fuel json key value path Hb Hj Hp => AddKeyValue_go_spec fuel json Hb Hj key value path Hp). Qed.
Print Assumptions C68_add_key_value.

Theorem C68_add : forall fuel json value path,
  Forall (fun c => (c < 256)%N) json -> (length json < fuel)%nat -> (length path < fuel)%nat ->
  Add_go fuel json value path = outcome (Add_ json value path).
Proof. exact (fun fuel json value path Hb Hj Hp => Add_go_spec fuel json Hb Hj value path Hp). Qed.
Print Assumptions C68_add.

Theorem C68_insert : forall fuel json index value path,
  Forall (fun c => (c < 256)%N) json -> (length json < fuel)%nat -> (S (length path) < fuel)%nat ->
  Insert_go fuel json index value path = outcome (Insert json index value path).
Proof. exact (fun fuel json index value path Hb Hj Hp => Insert_go_spec fuel json Hb Hj index value path Hp). Qed.
Print Assumptions C68_insert.

Theorem C68_store : forall fuel json key value path,
  Forall (fun c => (c < 256)%N) json -> (length json < fuel)%nat -> (S (length path) < fuel)%nat ->
  Store_go fuel json key value path = outcome (Store json key value path).
Proof. exact (fun fuel json key value path Hb Hj Hp => Store_go_spec fuel json Hb Hj key value path Hp). Qed.
Print Assumptions C68_store.

(** A text with blanks, its updates computed by the program; updates without their key, without a place in an object, and
    in a text that ends too early *)
Definition exU : bytes := b "{""k"" : [1 , 2] ,""x"":{""a"":""z"" }}".
Example C68_example :
  Forall (fun c => (c < 256)%N) exU /\ (length exU < 40)%nat /\
  Set_go 40 exU (b "7") [b "x"; b "a"] = Ret (b "{""k"" : [1 , 2] ,""x"":{""a"":7 }}", None) /\
  Set_go 40 exU (b "7") [b "x"; b "b"] = Ret (exU, Some (EKeyNotFound (b "b"))) /\
  SetKey_go 40 exU (b "K") [b "k"] = Ret (b "{""K"" : [1 , 2] ,""x"":{""a"":""z"" }}", None) /\
  SetKey_go 40 exU (b "K") [b "k"; b "0"] = Ret (exU, Some EIndexExpected) /\
  Delete_go 40 exU [b "k"] = Ret (b "{""x"":{""a"":""z"" }}", None) /\
  Delete_go 40 exU [b "k"; b "0"] = Ret (b "{""k"" : [ 2] ,""x"":{""a"":""z"" }}", None) /\
  Add_go 40 exU (b "3") [b "k"] = Ret (b "{""k"" : [1 , 2,3] ,""x"":{""a"":""z"" }}", None) /\
  Insert_go 40 exU 0 (b "3") [b "k"] = Ret (b "{""k"" : [3,1 , 2] ,""x"":{""a"":""z"" }}", None) /\
  AddKeyValue_go 40 exU (b "y") None [] = Ret (b "{""k"" : [1 , 2] ,""x"":{""a"":""z"" },""y"":null}", None) /\
  Store_go 40 exU (b "a") (Some (b "5")) [b "x"] = Ret (b "{""k"" : [1 , 2] ,""x"":{""a"":5 }}", None) /\
  Delete_go 40 (b "{""a"":1") [b "a"] = Ret (b "{""a"":1", Some (EBadJSON 5)).
Proof.
  split; [repeat constructor|]. split; [vm_compute; repeat constructor|].
  repeat (match goal with |- _ /\ _ => split end; [vm_compute; reflexivity|]). vm_compute. reflexivity.
Qed.
