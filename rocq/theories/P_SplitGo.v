(** Property C66: the readers of one value or an array as written in Go compute what the models of them compute. *)
From Coq Require Import String.
From Verif Require Import GoStd Errors GoLang Core Api Iter SplitGo SplitGoProofs.

Local Open Scope Z_scope.

(** ** C66

    The programs follow inter_get.go:12-308 and others.go:185-238 statement by statement.  With an error the functions
    return an empty text, -1, [false] or nil, which is the empty list here. *)
Theorem C66_get : forall fuel json path,
  Forall (fun c => (c < 256)%N) json -> (length json < fuel)%nat -> (length path < fuel)%nat ->
  Get_go fuel json path = match Get json path with Ok v => Ret (v, None) | Err e => Ret ([], Some e) | Panic => Pan end.
Proof. exact (fun fuel json path Hb Hj Hp => Get_go_spec fuel json path Hb Hj Hp). Qed.
Print Assumptions C66_get.

Theorem C66_get_string : forall fuel json path,
  Forall (fun c => (c < 256)%N) json -> (length json < fuel)%nat -> (length path < fuel)%nat ->
  GetString_go fuel json path = match GetString json path with Ok v => Ret (v, None) | Err e => Ret ([], Some e) | Panic => Pan end.
Proof. exact (fun fuel json path Hb Hj Hp => GetString_go_spec fuel json path Hb Hj Hp). Qed.
Print Assumptions C66_get_string.

Theorem C66_get_int : forall fuel json path,
  Forall (fun c => (c < 256)%N) json -> (length json < fuel)%nat -> (length path < fuel)%nat ->
  GetInt_go fuel json path = match GetInt json path with Ok v => Ret (v, None) | Err e => Ret (-1, Some e) | Panic => Pan end.
Proof. exact (fun fuel json path Hb Hj Hp => GetInt_go_spec fuel json path Hb Hj Hp). Qed.
Print Assumptions C66_get_int.

(** [pf] is strconv.ParseFloat, [minus1] the number -1.0 *)
Theorem C66_get_float : forall (F : Type) (pf : bytes -> option F) minus1 fuel json path,
  Forall (fun c => (c < 256)%N) json -> (length json < fuel)%nat -> (length path < fuel)%nat ->
  GetFloat_go fuel pf minus1 json path = match GetFloat pf json path with Ok v => Ret (v, None) | Err e => Ret (minus1, Some e) | Panic => Pan end.
Proof. exact (fun F pf minus1 fuel json path Hb Hj Hp => GetFloat_go_spec fuel json path Hb Hj Hp pf minus1). Qed.
Print Assumptions C66_get_float.

Theorem C66_get_bool : forall fuel json path,
  Forall (fun c => (c < 256)%N) json -> (length json < fuel)%nat -> (length path < fuel)%nat ->
  GetBool_go fuel json path = match GetBool json path with Ok v => Ret (v, None) | Err e => Ret (false, Some e) | Panic => Pan end.
Proof. exact (fun fuel json path Hb Hj Hp => GetBool_go_spec fuel json path Hb Hj Hp). Qed.
Print Assumptions C66_get_bool.

(** *** Arrays *)
Theorem C66_parse_array : forall fuel arr, (length arr < fuel)%nat ->
  ParseArray_go fuel arr = match ParseArray arr with Ok r => Ret r | _ => Pan end.
Proof. exact ParseArray_go_spec. Qed.
Print Assumptions C66_parse_array.

Theorem C66_get_string_array : forall fuel json path,
  Forall (fun c => (c < 256)%N) json -> (length json < fuel)%nat -> (length path < fuel)%nat ->
  GetStringArray_go fuel json path = match GetStringArray json path with Ok v => Ret (v, None) | Err e => Ret ([], Some e) | Panic => Pan end.
Proof. exact (fun fuel json path Hb Hj Hp => GetStringArray_go_spec fuel json path Hb Hj Hp). Qed.
Print Assumptions C66_get_string_array.

Theorem C66_get_int_array : forall fuel json path,
  Forall (fun c => (c < 256)%N) json -> (length json < fuel)%nat -> (length path < fuel)%nat ->
  GetIntArray_go fuel json path = match GetIntArray json path with Ok v => Ret (v, None) | Err e => Ret ([], Some e) | Panic => Pan end.
Proof. exact (fun fuel json path Hb Hj Hp => GetIntArray_go_spec fuel json path Hb Hj Hp). Qed.
Print Assumptions C66_get_int_array.

Theorem C66_get_float_array : forall (F : Type) (pf : bytes -> option F) fuel json path,
  Forall (fun c => (c < 256)%N) json -> (length json < fuel)%nat -> (length path < fuel)%nat ->
  GetFloatArray_go fuel pf json path = match GetFloatArray pf json path with Ok v => Ret (v, None) | Err e => Ret ([], Some e) | Panic => Pan end.
Proof. exact (fun F pf fuel json path Hb Hj Hp => GetFloatArray_go_spec fuel json path Hb Hj Hp pf). Qed.
Print Assumptions C66_get_float_array.

Theorem C66_get_bool_array : forall fuel json path,
  Forall (fun c => (c < 256)%N) json -> (length json < fuel)%nat -> (length path < fuel)%nat ->
  GetBoolArray_go fuel json path = match GetBoolArray json path with Ok v => Ret (v, None) | Err e => Ret ([], Some e) | Panic => Pan end.
Proof. exact (fun fuel json path Hb Hj Hp => GetBoolArray_go_spec fuel json path Hb Hj Hp). Qed.
Print Assumptions C66_get_bool_array.

Definition ex66 : bytes := b "{""a"":[ 1 ,""2"", -3],""s"":[""x, \"" ]"",[2,[3]], {""y"":4} ],""t"":[true , false],""u"":[true,""no""],""e"":[],""n"":12,""v"":true}".
Example C66_example :
  Forall (fun c => (c < 256)%N) ex66 /\ (length ex66 < 130)%nat /\
  Get_go 130 ex66 [b "n"] = Ret (b "12", None) /\ GetInt_go 130 ex66 [b "n"] = Ret (12, None) /\ GetInt_go 130 ex66 [b "v"] = Ret (-1, Some (EIntegerParse (b "true"))) /\
  GetFloat_go 130 atoi (-1) ex66 [b "n"] = Ret (12, None) /\ GetBool_go 130 ex66 [b "v"] = Ret (true, None) /\ GetString_go 130 ex66 [b "e"] = Ret (b "[]", None) /\
  GetIntArray_go 130 ex66 [b "a"] = Ret ([1; 2; -3], None) /\ GetIntArray_go 130 ex66 [b "s"] = Ret ([], Some (EIntegerParse (b "x, \"" ]"))) /\
  GetFloatArray_go 130 atoi ex66 [b "a"] = Ret ([1; 2; -3], None) /\
  GetStringArray_go 130 ex66 [b "s"] = Ret ([b "x, \"" ]"; b "[2,[3]]"; b "{""y"":4}"], None) /\ GetStringArray_go 130 ex66 [b "e"] = Ret ([], None) /\
  GetBoolArray_go 130 ex66 [b "t"] = Ret ([true; false], None) /\ GetBoolArray_go 130 ex66 [b "u"] = Ret ([], Some (EBoolParse (b "no"))) /\
  GetIntArray_go 130 ex66 [b "e"] = Pan /\ GetIntArray_go 130 ex66 [b "n"] = Ret ([], Some (EIntegerArrayParse (b "12"))) /\
  GetIntArray_go 130 ex66 [b "x"] = Ret ([], Some (EKeyNotFound (b "x"))) /\
  ParseArray_go 9 (b "[a]") = Ret (Some [b "a"]) /\ ParseArray_go 9 (b "{}") = Ret None /\ ParseArray_go 9 (b "[a,]") = Pan /\
  (* with too little fuel a loop does not come to its end *)
  ParseArray_go 3 (b "[1,2,3]") = Out.
Proof.
  split; [repeat constructor|]. split; [vm_compute; lia|].
  repeat (match goal with |- _ /\ _ => split end; [vm_compute; reflexivity|]). vm_compute. reflexivity.
Qed.
