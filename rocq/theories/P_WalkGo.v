(** Property C70: the type tests, the maps and walk as written in Go compute what the models of them compute. *)
From Coq Require Import String.
From Verif Require Import GoStd Errors GoLang Core Api Iter Walk WalkGo WalkGoProofs.

Local Open Scope Z_scope.

(** ** C70

    The programs follow inter_type.go:17-81, inter_get.go:593-657 and walk.go:10-63 statement by statement.  [pf] is the
    set of texts strconv.ParseFloat accepts. *)
Theorem C70_is : forall fuel json path,
  Forall (fun c => (c < 256)%N) json -> (length json < fuel)%nat -> (length path < fuel)%nat ->
  let says (r : res bool) := match r with Ok v => Ret (v, None) | Err e => Ret (false, Some e) | Panic => Pan end in
  IsObject_go fuel json path = says (IsObject json path) /\ IsArray_go fuel json path = says (IsArray json path) /\
  IsValue_go fuel json path = says (IsValue json path).
Proof. exact (fun fuel json path Hb Hj Hp => conj (IsObject_go_spec fuel json path Hb Hj Hp) (conj (IsArray_go_spec fuel json path Hb Hj Hp) (IsValue_go_spec fuel json path Hb Hj Hp))). Qed.
Print Assumptions C70_is.

Theorem C70_get_type : forall pf fuel json path,
  Forall (fun c => (c < 256)%N) json -> (length json < fuel)%nat -> (length path < fuel)%nat ->
  GetType_go fuel json path pf =
  match GetType pf json path with
  | Ok TArray => Ret (b "array", None) | Ok TObject => Ret (b "object", None) | Ok TString => Ret (b "string", None)
  | Ok TBoolean => Ret (b "boolean", None) | Ok TNull => Ret (b "null", None) | Ok TNumber => Ret (b "number", None)
  | Err e => Ret ([], Some e) | Panic => Pan
  end.
Proof. exact (fun pf fuel json path Hb Hj Hp => eq_trans (GetType_go_spec fuel json path Hb Hj Hp pf) (match GetType pf json path as r return match r with Ok t => Ret (type_name t, None) | Err e => Ret ([], Some e) | Panic => Pan end = match r with Ok TArray => Ret (b "array", None) | Ok TObject => Ret (b "object", None) | Ok TString => Ret (b "string", None) | Ok TBoolean => Ret (b "boolean", None) | Ok TNull => Ret (b "null", None) | Ok TNumber => Ret (b "number", None) | Err e => Ret ([], Some e) | Panic => Pan end with Ok TArray | Ok TObject | Ok TString | Ok TBoolean | Ok TNull | Ok TNumber => eq_refl | Err e => eq_refl | Panic => eq_refl end)). Qed.
Print Assumptions C70_get_type.

(** The nil map is [None] *)
Theorem C70_get_map : forall fuel json path,
  Forall (fun c => (c < 256)%N) json -> (length json < fuel)%nat -> (length path < fuel)%nat ->
  GetMap_go fuel json path = match GetMap json path with Ok m => Ret (m, None) | Err e => Ret (None, Some e) | Panic => Pan end.
Proof. exact (fun fuel json path Hb Hj Hp => GetMap_go_spec fuel json path Hb Hj Hp). Qed.
Print Assumptions C70_get_map.

Theorem C70_get_all : forall fuel json path keys,
  Forall (fun c => (c < 256)%N) json -> (length json < fuel)%nat -> (S (length path) < fuel)%nat ->
  GetAll_go fuel json path keys = match GetAll json keys path with Ok l => Ret (l, None) | Err e => Ret ([], Some e) | Panic => Pan end.
Proof. exact (fun fuel json path keys Hb Hj Hp => GetAll_go_spec fuel json path Hb Hj (Nat.lt_trans _ _ _ (Nat.lt_succ_diag_r _) Hp) keys Hp). Qed.
Print Assumptions C70_get_all.

Theorem C70_get_all_map : forall fuel json path keys,
  Forall (fun c => (c < 256)%N) json -> (length json < fuel)%nat -> (S (length path) < fuel)%nat ->
  GetAllMap_go fuel json path keys = match GetAllMap json keys path with Ok m => Ret (Some m, None) | Err e => Ret (None, Some e) | Panic => Pan end.
Proof. exact (fun fuel json path keys Hb Hj Hp => all_map fuel json path Hb Hj (Nat.lt_trans _ _ _ (Nat.lt_succ_diag_r _) Hp) keys Hp). Qed.
Print Assumptions C70_get_all_map.

(** [depth] bounds the recursion; at two more than the length of the text it never ends a walk (C35_terminates) *)
Theorem C70_walk : forall (St : Type) pf fuel json (cb : St -> bytes -> bytes -> list bytes -> St * (bool * option err)) depth path s,
  Forall (fun c => (c < 256)%N) json -> (length json < fuel)%nat -> (length path + depth < fuel)%nat ->
  walk_go pf fuel json cb depth path s = match walk pf depth json path cb s with WDone s' e => Ret (s', e) | WPanic => Pan | WFuel => Out end.
Proof. exact (fun St pf fuel json cb depth path s Hb Hj Hp => walk_go_spec pf fuel json cb Hb Hj depth path s Hp). Qed.
Print Assumptions C70_walk.

(** A text with all kinds of values; a walk that collects them, one that a callback ends with an error, and the last
    member of an object, whose error is lost *)
Definition ex70 : bytes := b "{""a"":[1 ,""x"",{}],""b"":{""c"":null,""d"":true},""e"":[[2]]}".
Definition ex70_pf (s : bytes) : bool := bytes_eqb s (b "1.5").
Definition ex70_all (st : list (bytes * bytes * list bytes)) (k v : bytes) (p : list bytes) : list (bytes * bytes * list bytes) * (bool * option err) :=
  (st ++ [(k, v, p)], (true, if bytes_eqb v (b "null") then Some EEmpty else None)).
Example C70_example :
  Forall (fun c => (c < 256)%N) ex70 /\ (length ex70 + 60 < 200)%nat /\
  IsObject_go 200 ex70 [b "a"] = Ret (true, None) /\ IsArray_go 200 ex70 [b "b"] = Ret (false, None) /\ IsValue_go 200 ex70 [b "b"; b "c"] = Ret (true, None) /\
  GetType_go 200 ex70 [b "b"; b "d"] ex70_pf = Ret (b "boolean", None) /\ GetType_go 200 ex70 [b "a"; b "0"] ex70_pf = Ret (b "number", None) /\
  GetMap_go 200 (b "{""c"":null,""d"":[1]}") [] = Ret (Some [(b "c", b "null"); (b "d", b "[1]")], None) /\
  GetMap_go 200 (b "[7,8]") [] = Ret (Some [(b "0", b "7"); (b "1", b "8")], None) /\ GetMap_go 200 ex70 [b "b"] = Ret (None, Some (EBadJSON 21)) /\
  GetAll_go 200 ex70 [b "b"] [b "d"; b "c"] = Ret ([b "true"; b "null"], None) /\
  GetAllMap_go 200 ex70 [b "b"] [b "d"; b "x"] = Ret (None, Some (EKeyNotFound (b "x"))) /\
  walk_go ex70_pf 200 ex70 ex70_all 60 [b "e"] [] = Ret ([(b "0", b "2", [b "e"; b "0"; b "0"])], None) /\
  walk_go ex70_pf 200 ex70 ex70_all 60 [b "b"] [] = Ret ([(b "c", b "null", [b "b"; b "c"])], Some EEmpty) /\
  walk_go ex70_pf 200 (b "{""a"":1,""b"":null}") ex70_all 60 [] [] = Ret ([(b "a", b "1", [b "a"]); (b "b", b "null", [b "b"])], None) /\
  walk_go ex70_pf 200 ex70 ex70_all 1 [] [] = Out.
Proof.
  split; [repeat constructor|]. split; [vm_compute; lia|].
  repeat (match goal with |- _ /\ _ => split end; [vm_compute; reflexivity|]). vm_compute. reflexivity.
Qed.
