(** Property C65: the listings, the type tests and Length as written in Go compute what the models of them compute. *)
From Coq Require Import String.
From Verif Require Import GoStd Errors GoLang Core Iter ListGo ListGoProofs.

Local Open Scope Z_scope.

(** ** C65

    The programs follow inter_get.go, inter_type.go, utils.go and others.go statement by statement.  With an error the
    functions return empty lists, [false] or -1. *)
Theorem C65_get_keys : forall fuel json path,
  Forall (fun c => (c < 256)%N) json -> (length json < fuel)%nat -> (length path < fuel)%nat ->
  GetKeys_go fuel json path = match GetKeys json path with Ok l => Ret (l, None) | Err e => Ret ([], Some e) | Panic => Pan end.
Proof. exact (fun fuel json path Hb Hj Hp => GetKeys_go_spec fuel json path Hb Hj Hp). Qed.
Print Assumptions C65_get_keys.

Theorem C65_get_values : forall fuel json path,
  Forall (fun c => (c < 256)%N) json -> (length json < fuel)%nat -> (length path < fuel)%nat ->
  GetValues_go fuel json path = match GetValues json path with Ok l => Ret (l, None) | Err e => Ret ([], Some e) | Panic => Pan end.
Proof. exact (fun fuel json path Hb Hj Hp => GetValues_go_spec fuel json path Hb Hj Hp). Qed.
Print Assumptions C65_get_values.

Theorem C65_get_keys_values : forall fuel json path,
  Forall (fun c => (c < 256)%N) json -> (length json < fuel)%nat -> (length path < fuel)%nat ->
  GetKeysValues_go fuel json path =
  match GetKeysValues json path with Ok l => Ret (l, None) | Err e => Ret (([], []), Some e) | Panic => Pan end.
Proof. exact (fun fuel json path Hb Hj Hp => GetKeysValues_go_spec fuel json path Hb Hj Hp). Qed.
Print Assumptions C65_get_keys_values.

(** *** Types and positions *)
Theorem C65_type_control : forall fuel json path control equal,
  Forall (fun c => (c < 256)%N) json -> (length json < fuel)%nat -> (length path < fuel)%nat ->
  typeControlCore_go fuel json path control equal =
  match typeControlCore json control equal path with Ok (r, start) => Ret (r, Z.of_nat start, None) | Err e => Ret (false, -1, Some e) | Panic => Pan end.
Proof. exact (fun fuel json path control equal Hb Hj Hp => typeControlCore_go_spec fuel json path Hb Hj Hp control equal). Qed.
Print Assumptions C65_type_control.

Theorem C65_start_end : forall fuel json path,
  Forall (fun c => (c < 256)%N) json -> (length json < fuel)%nat -> (length path < fuel)%nat ->
  getStartEnd_go fuel json path =
  match getStartEnd json path with Ok (s, e) => Ret (Z.of_nat s, Z.of_nat e, None) | Err e => Ret (-1, -1, Some e) | Panic => Pan end.
Proof. exact (fun fuel json path Hb Hj Hp => getStartEnd_go_spec fuel json path Hb Hj Hp). Qed.
Print Assumptions C65_start_end.

Theorem C65_is_empty : forall fuel json path,
  Forall (fun c => (c < 256)%N) json -> (length json < fuel)%nat -> (length path < fuel)%nat ->
  IsEmpty_go fuel json path = match IsEmpty json path with Ok r => Ret (r, None) | Err e => Ret (false, Some e) | Panic => Pan end.
Proof. exact (fun fuel json path Hb Hj Hp => IsEmpty_go_spec fuel json path Hb Hj Hp). Qed.
Print Assumptions C65_is_empty.

Theorem C65_length : forall fuel json path,
  Forall (fun c => (c < 256)%N) json -> (length json < fuel)%nat -> (length path < fuel)%nat ->
  Length_go fuel json path = match Length json path with Ok n => Ret (Z.of_nat n, None) | Err e => Ret (-1, Some e) | Panic => Pan end.
Proof. exact (fun fuel json path Hb Hj Hp => Length_go_spec fuel json path Hb Hj Hp). Qed.
Print Assumptions C65_length.

Definition ex65 : bytes := b " {""a"" : [ 1 ,""x, \"" ]"",[2,[3]] , {""y"":4}, """" ] , ""b"":{  } ,""c:"":""]""} ".
Example C65_example :
  Forall (fun c => (c < 256)%N) ex65 /\ (length ex65 < 80)%nat /\
  GetKeys_go 80 ex65 [] = Ret ([b "a"; b "b"; b "c:"], None) /\
  GetValues_go 80 ex65 [] = Ret ([b "[ 1 ,""x, \"" ]"",[2,[3]] , {""y"":4}, """" ]"; b "{  }"; b "]"], None) /\
  GetKeysValues_go 80 ex65 [b "a"; b "3"] = Ret ([b "y"], [b "4"], None) /\
  GetKeys_go 80 ex65 [b "a"] = Ret ([], Some EObjectExpected) /\ GetKeys_go 80 (b "{}") [] = Ret ([], Some EEmpty) /\
  GetKeys_go 80 (b "  ") [] = Pan /\
  typeControlCore_go 80 ex65 [b "a"] [91; 123]%N true = Ret (true, 8, None) /\ typeControlCore_go 80 ex65 [b "b"] [91]%N false = Ret (true, 53, None) /\
  getStartEnd_go 80 ex65 [] = Ret (1, 67, None) /\ getStartEnd_go 80 ex65 [b "b"] = Ret (53, 57, None) /\
  getStartEnd_go 80 ex65 [b "x"] = Ret (-1, -1, Some (EKeyNotFound (b "x"))) /\
  IsEmpty_go 80 ex65 [b "b"] = Ret (true, None) /\ IsEmpty_go 80 ex65 [] = Ret (false, None) /\ IsEmpty_go 80 ex65 [b "c:"] = Ret (false, Some EObjectExpected) /\
  Length_go 80 ex65 [b "a"] = Ret (5, None) /\ Length_go 80 ex65 [b "b"] = Ret (0, None) /\ Length_go 80 ex65 [] = Ret (3, None) /\
  (* with too little fuel a loop does not come to its end *)
  Length_go 9 ex65 [] = Out.
Proof.
  split; [repeat constructor|]. split; [vm_compute; lia|].
  repeat (match goal with |- _ /\ _ => split end; [vm_compute; reflexivity|]). vm_compute. reflexivity.
Qed.
