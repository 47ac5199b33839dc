(** Property C69: formatType, the Make functions and the Scheme methods as written in Go compute what the models of them
    compute. *)
From Coq Require Import String.
From Verif Require Import GoStd Errors GoLang Core Api Iter Typed Make MakeGo MakeGoProofs.

Local Open Scope Z_scope.

(** ** C69

    The programs follow utils.go:54-102, make.go:37-107, 171-294 and 304-367 and inter_add.go:234-239 statement by
    statement.  [pf] is the set of texts strconv.ParseFloat accepts. *)
Theorem C69_format_type : forall pf val, formatType_go pf val = Ret (formatType pf val).
Proof. exact formatType_go_spec. Qed.
Print Assumptions C69_format_type.

(** *** Make: a nil slice is [None] *)
Theorem C69_make_array : forall pf es, MakeArray_go pf es = Ret (MakeArray pf es).
Proof. exact MakeArray_go_spec. Qed.
Print Assumptions C69_make_array.
Theorem C69_make_array_string : forall pf vs, MakeArrayString_go pf vs = Ret (MakeArrayString pf vs).
Proof. exact MakeArrayString_go_spec. Qed.
Print Assumptions C69_make_array_string.
Theorem C69_make_array_int : forall vs, MakeArrayInt_go vs = Ret (MakeArrayInt vs).
Proof. exact MakeArrayInt_go_spec. Qed.
Print Assumptions C69_make_array_int.
Theorem C69_make_array_bool : forall vs, MakeArrayBool_go vs = Ret (MakeArrayBool vs).
Proof. exact MakeArrayBool_go_spec. Qed.
Print Assumptions C69_make_array_bool.
Theorem C69_make_array_bytes : forall vs, MakeArrayBytes_go vs = Ret (MakeArrayBytes vs).
Proof. exact MakeArrayBytes_go_spec. Qed.
Print Assumptions C69_make_array_bytes.
Theorem C69_make_array_float : forall fuel nums,
  Forall (fun num => (length num < fuel)%nat) (match nums with None => [] | Some l => l end) ->
  MakeArrayFloat_go fuel nums = match MakeArrayFloat nums with Ok js => Ret js | _ => Pan end.
Proof. exact MakeArrayFloat_go_spec. Qed.
Print Assumptions C69_make_array_float.
Theorem C69_make_json : forall pf ks vs, MakeJsonString_go pf ks vs = Ret (MakeJsonString pf ks vs) /\ MakeJson_go pf ks vs = Ret (MakeJson pf ks vs).
Proof. exact (fun pf ks vs => conj (MakeJsonString_go_spec pf ks vs) (MakeJsonString_go_spec pf ks vs)). Qed.
Print Assumptions C69_make_json.
Theorem C69_make_json_with_map : forall pf m, MakeJsonWithMap_go pf m = Ret (MakeJsonWithMap pf m).
Proof. exact MakeJsonWithMap_go_spec. Qed.
Print Assumptions C69_make_json_with_map.

(** *** Scheme: the texts that Mutate builds grow, so no fuel is named that is enough for them *)
Theorem C69_check : forall fuel keys json,
  Forall (fun c => (c < 256)%N) json -> (length json < fuel)%nat -> (1 < fuel)%nat ->
  Check_go fuel keys json = match Check keys json with Ok r => Ret r | _ => Pan end.
Proof. exact (fun fuel keys json Hb Hj H1 => Check_go_spec json Hb fuel keys Hj H1). Qed.
Print Assumptions C69_check.
Theorem C69_check_abs : forall fuel keys json,
  Forall (fun c => (c < 256)%N) json -> (length json < fuel)%nat -> (length keys < fuel)%nat -> (1 < fuel)%nat ->
  CheckAbs_go fuel keys json = match CheckAbs keys json with Ok r => Ret r | _ => Pan end.
Proof. exact (fun fuel keys json Hb Hj Hk H1 => CheckAbs_go_spec json Hb fuel keys Hj Hk H1). Qed.
Print Assumptions C69_check_abs.
Theorem C69_mutate : forall pf keys json,
  Forall (fun c => (c < 256)%N) json -> Forall (Forall (fun c => (c < 256)%N)) keys ->
  exists n, forall fuel, (n <= fuel)%nat -> MutateJson_go pf fuel keys json =
    match MutateJson pf keys json with Ok j => Ret (j, None) | Err e => Ret (None, Some e) | Panic => Pan end.
Proof. exact (fun pf keys json Hb Hk => MutateJson_go_spec pf json Hb keys Hk). Qed.
Print Assumptions C69_mutate.
Theorem C69_mutate_abs : forall pf keys json,
  Forall (fun c => (c < 256)%N) json -> Forall (Forall (fun c => (c < 256)%N)) keys ->
  exists n, forall fuel, (n <= fuel)%nat -> MutateJsonAbs_go pf fuel keys json =
    match MutateJsonAbs pf keys json with Ok j => Ret (Some j, None) | Err e => Ret (None, Some e) | Panic => Pan end.
Proof. exact (fun pf keys json Hb Hk => MutateJsonAbs_go_spec pf json Hb keys Hk). Qed.
Print Assumptions C69_mutate_abs.

(** Values of all kinds, an array of floats that panics, and a scheme against a document with and without all its keys *)
Definition ex69 : bytes := b "{""a"":1 ,""b"":""x y"",""c"":[true]}".
Definition ex69_pf (s : bytes) : bool := bytes_eqb s (b "1.5").
Example C69_example :
  Forall (fun c => (c < 256)%N) ex69 /\ (length ex69 < 60)%nat /\
  MakeArrayString_go ex69_pf (Some [b "1"; b "007"; b "1.5"; b "true"; b "null"; b "x"; b "[1]"; b ""]) = Ret (b "[1,""007"",1.5,true,null,""x"",[1],""""]") /\
  MakeArrayString_go ex69_pf (Some []) = Ret (b "]") /\ MakeArrayInt_go None = Ret (b "[]") /\
  MakeArrayFloat_go 9 (Some [b "10"]) = Ret (b "[]") /\ MakeArrayFloat_go 9 (Some [b "1"]) = Pan /\
  MakeJsonString_go ex69_pf (Some [b "k"; b "l"]) (Some [b "1"; b "x"]) = Ret (Some (b "{""k"":1,""l"":""x""}")) /\
  MakeJsonString_go ex69_pf (Some [b "k"]) None = Ret None /\
  Check_go 60 [b "a"; b "c"] ex69 = Ret true /\ CheckAbs_go 60 [b "a"; b "c"] ex69 = Ret false /\ CheckAbs_go 60 [b "c"; b "b"; b "a"] ex69 = Ret true /\
  MutateJson_go ex69_pf 60 [b "b"; b "z"; b "a"] ex69 = Ret (Some (b "{""b"":""x y"",""z"":"""",""a"":1}"), None) /\
  MutateJsonAbs_go ex69_pf 60 [b "b"; b "z"; b "a"] ex69 = Ret (None, Some (EKeyNotFound (b "z"))).
Proof.
  split; [repeat constructor|]. split; [vm_compute; repeat constructor|].
  repeat (match goal with |- _ /\ _ => split end; [vm_compute; reflexivity|]). vm_compute. reflexivity.
Qed.
