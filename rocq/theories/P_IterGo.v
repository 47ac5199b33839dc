(** Property C63: the iterators and the trimming as written in Go compute what the models of them compute. *)
From Coq Require Import String.
From Verif Require Import GoStd Errors GoLang Core Iter IterGo IterGoProofs.

Local Open Scope Z_scope.

(** ** C63

    [IterateArray_go] and [IterateKeyValue_go] follow inter_iter.go statement by statement, [cleanValue_go] and
    [cleanValueString_go] utils.go, as [core_go] follows inter_core.go (C62).  A callback takes a state to a new one and
    returns whether to go on, and an error. *)
Theorem C63_iterate_array : forall (St : Type) fuel json cb path (s : St),
  Forall (fun c => (c < 256)%N) json -> (length json < fuel)%nat -> (length path < fuel)%nat ->
  IterateArray_go fuel json cb path s = match IterateArray json cb path s with IDone s' e => Ret (s', e) | IPanic => Pan end.
Proof. exact (fun St fuel json cb path s Hb Hj Hp => IterateArray_go_spec fuel json path Hb Hj Hp cb s). Qed.
Print Assumptions C63_iterate_array.

Theorem C63_iterate_key_value : forall (St : Type) fuel json cb path (s : St),
  Forall (fun c => (c < 256)%N) json -> (length json < fuel)%nat -> (length path < fuel)%nat ->
  IterateKeyValue_go fuel json cb path s = match IterateKeyValue json cb path s with IDone s' e => Ret (s', e) | IPanic => Pan end.
Proof. exact (fun St fuel json cb path s Hb Hj Hp => IterateKeyValue_go_spec fuel json path Hb Hj Hp cb s). Qed.
Print Assumptions C63_iterate_key_value.

(** *** Trimming and unquoting *)
Theorem C63_clean_value : forall fuel str, (length str < fuel)%nat ->
  cleanValue_go fuel str = match cleanValue str with Ok v => Ret v | _ => Pan end.
Proof. exact cleanValue_go_spec. Qed.
Print Assumptions C63_clean_value.

Theorem C63_clean_value_string : forall fuel str, (length str < fuel)%nat ->
  cleanValueString_go fuel str = match cleanValueString str with Ok v => Ret v | _ => Pan end.
Proof. exact cleanValueString_go_spec. Qed.
Print Assumptions C63_clean_value_string.

Definition ex63 : bytes := b "{""a"" : [ 1 ,""x, \"" ]"",[2,[3]] , {""y"":4}, """" ] , ""b"":{} ,""c"":""]""}".
Definition ex63_all (st : list bytes) (v : bytes) : list bytes * (bool * option err) := (st ++ [v], (true, None)).
Definition ex63_two (st : list bytes) (v : bytes) : list bytes * (bool * option err) := (st ++ [v], ((length st <? 1)%nat, None)).
Definition ex63_err (st : list bytes) (v : bytes) : list bytes * (bool * option err) := (st ++ [v], (false, Some EEmpty)).
Definition ex63_pairs (st : list (bytes * bytes)) (k v : bytes) : list (bytes * bytes) * (bool * option err) := (st ++ [(k, v)], (true, None)).
Example C63_example :
  Forall (fun c => (c < 256)%N) ex63 /\ (length ex63 < 80)%nat /\
  IterateArray_go 80 ex63 ex63_all [b "a"] [] = Ret ([b "1"; b "x, \"" ]"; b "[2,[3]]"; b "{""y"":4}"; b ""], None) /\
  IterateArray_go 80 ex63 ex63_two [b "a"] [] = Ret ([b "1"; b "x, \"" ]"], None) /\
  IterateArray_go 80 ex63 ex63_err [b "a"] [] = Ret ([b "1"], Some EEmpty) /\
  IterateArray_go 80 ex63 ex63_all [b "c"] [] = Ret ([], Some EArrayExpected) /\
  IterateKeyValue_go 80 ex63 ex63_pairs [] [] = Ret ([(b "a", b "[ 1 ,""x, \"" ]"",[2,[3]] , {""y"":4}, """" ]"); (b "b", b "{}"); (b "c", b "]")], None) /\
  IterateKeyValue_go 80 ex63 ex63_pairs [b "a"; b "3"] [] = Ret ([(b "y", b "4")], None) /\
  cleanValue_go 9 (b " ""a"" ") = Ret (b "a") /\ cleanValue_go 9 (b " """) = Pan /\ cleanValueString_go 9 (b " "" ") = Pan /\
  (* with too little fuel a loop does not come to its end *)
  IterateArray_go 9 ex63 ex63_all [b "a"] [] = Out.
Proof. split; [repeat constructor|]. split; [vm_compute; lia|]. repeat split; vm_compute; reflexivity. Qed.
