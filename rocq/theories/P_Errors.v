(** Properties C32 (interpreter functions on bytes) and C33: errors. *)
From Coq Require Import String.
From Verif Require Import GoStd Errors Api Updates.

Local Open Scope N_scope.

(** ** C32: any bytes whatever, any path. *)
Theorem C32_set : forall json new p o e, Set_ json new p = Fail o e -> o = Some json.
Proof. exact set_fail. Qed.
Theorem C32_setkey : forall json k p o e, SetKey json k p = Fail o e -> o = Some json.
Proof. exact setkey_fail. Qed.
Theorem C32_delete : forall json p o e, Delete json p = Fail o e -> o = Some json.
Proof. exact delete_fail. Qed.
Theorem C32_add : forall json v p o e, Add_ json v p = Fail o e -> o = Some json.
Proof. exact add_fail. Qed.
Theorem C32_add_key_value : forall json k v p o e, AddKeyValue json k v p = Fail o e -> o = Some json.
Proof. exact addkv_fail. Qed.
Theorem C32_insert : forall json z v p o e, Insert json z v p = Fail o e -> o = Some json.
Proof. exact insert_fail. Qed.
Theorem C32_store : forall json k v p o e, Store json k v p = Fail o e -> o = Some json.
Proof. exact store_fail. Qed.
Print Assumptions C32_set.
Print Assumptions C32_setkey.
Print Assumptions C32_delete.
Print Assumptions C32_add.
Print Assumptions C32_add_key_value.
Print Assumptions C32_insert.
Print Assumptions C32_store.

Example C32_example :
  Set_ (b "{""a"":1") (b "2") [b "b"] = Fail (Some (b "{""a"":1")) (EKeyNotFound (b "b")) /\
  SetKey (b "[1]") (b "k") [b "0"] = Fail (Some (b "[1]")) EIndexExpected /\
  Delete (b "[1]") [b "x"] = Fail (Some (b "[1]")) EIndexExpected /\
  Add_ (b "{}") (b "2") [] = Fail (Some (b "{}")) EArrayExpected /\
  AddKeyValue (b "[]") (b "k") None [] = Fail (Some (b "[]")) EObjectExpected /\
  Insert (b "[1]") 7 (b "2") [] = Fail (Some (b "[1]")) EIndexOutOfRange /\
  Store (b "[]") (b "k") (Some (b "2")) [] = Fail (Some (b "[]")) EIndexExpected.
Proof. vm_compute. repeat split. Qed.

(** ** C33 *)
Theorem C33_error_codes : forall e code, is_lib_error e = true -> err_equal (Some e) code = (err_code e =? code)%Z.
Proof. exact err_equal_spec. Qed.
Print Assumptions C33_error_codes.

Theorem C33_no_error : forall code, err_equal None code = false.
Proof. exact err_equal_nil. Qed.
Print Assumptions C33_no_error.

Example C33_example :
  is_lib_error (EKeyNotFound (b " error_code: 07")) = true /\
  err_equal (Some (EKeyNotFound (b " error_code: 07"))) 8 = true /\
  err_equal (Some (EKeyNotFound (b " error_code: 07"))) 7 = false /\
  err_equal (Some (EKeyAlreadyExist (b "x"))) 11 = true /\ err_equal (Some (EKeyAlreadyExist (b "x"))) 1 = false /\
  err_equal (Some (EBadJSON 9)) 9 = true /\ err_equal (Some ENullPath) 0 = true.
Proof. vm_compute. repeat split. Qed.
