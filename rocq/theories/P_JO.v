(** Property C40 (JO). *)
From Coq Require Import String.
From Verif Require Import GoStd Json Spec Parse Domains Core Errors Api Typed Iter Walk Ops History JO SpecJO JOProofs.

Local Open Scope N_scope.

(** ** C40

    Full statement: false, see [C40_store_string_refuted]. *)
Definition C40_statement : Prop := forall pf body c, as_pair (jo_call pf body c) = returned (func pf body c).

(** Every method on every body, except StoreString on texts that need quotes. *)
Theorem C40_methods_partial : forall pf body c, plain_store pf c -> as_pair (jo_call pf body c) = returned (func pf body c).
Proof. exact jo_call_func. Qed.
Print Assumptions C40_methods_partial.

Theorem C40_history_partial : forall pf cs, Forall (plain_store pf) cs -> forall body, jo_run pf body cs = SpecJO.history pf body cs.
Proof. exact jo_run_history. Qed.
Print Assumptions C40_history_partial.

(** The reading methods. *)
Theorem C40_getters : forall (F St : Type) (pf : bytes -> bool) (ff : bytes -> option F) body keys path
    (cb1 : St -> bytes -> St * (bool * option err)) (cb2 : St -> bytes -> bytes -> St * (bool * option err))
    (cb3 : St -> bytes -> bytes -> list bytes -> St * (bool * option err)) s,
  JO_Get body path = Get body path /\ JO_GetString body path = GetString body path /\
  JO_GetStringArray body path = GetStringArray body path /\ JO_GetType pf body path = GetType pf body path /\
  JO_GetBool body path = GetBool body path /\ JO_GetBoolArray body path = GetBoolArray body path /\
  JO_GetInt body path = GetInt body path /\ JO_GetIntArray body path = GetIntArray body path /\
  JO_GetFloat ff body path = GetFloat ff body path /\ JO_GetFloatArray ff body path = GetFloatArray ff body path /\
  JO_GetKeys body path = GetKeys body path /\ JO_GetValues body path = GetValues body path /\
  JO_GetKeysValues body path = GetKeysValues body path /\ JO_GetMap body path = GetMap body path /\
  JO_GetAll body keys path = GetAll body keys path /\ JO_GetAllMap body keys path = GetAllMap body keys path /\
  JO_IterateArray body cb1 path s = IterateArray body cb1 path s /\ JO_IterateKeyValue body cb2 path s = IterateKeyValue body cb2 path s /\
  JO_IsObject body path = IsObject body path /\ JO_IsArray body path = IsArray body path /\
  JO_IsValue body path = IsValue body path /\ JO_IsEmpty body path = IsEmpty body path /\
  JO_Walk pf body cb3 s = Walk pf body cb3 s /\ JO_JSON (New body) = body /\ JO_String (New body) = body.
Proof. repeat split. Qed.
Print Assumptions C40_getters.

(** Together with C36: a JO holds the document its calls mean. *)
Theorem C40_documents_partial : forall pf d ops c', wf_doc d = true -> lawful d ops c' ->
  exists d' es, jo_run pf (text d) (map as_call ops) = Some (text d', es) /\ wf_doc d' = true /\ content (d_val d') = c'.
Proof. exact jo_history. Qed.
Print Assumptions C40_documents_partial.

(** Failing methods keep the body, whatever it is. *)
Theorem C40_failure_partial : forall pf body c body' e, keeps_body c -> jo_call pf body c = JRet body' (Some e) -> body' = body.
Proof. exact jo_fail. Qed.
Print Assumptions C40_failure_partial.

(** AddKeyValueString with an empty key empties the JO. *)
Theorem C40_failure_refuted : ~ forall pf body c body' e, jo_call pf body c = JRet body' (Some e) -> body' = body.
Proof.
  intro H. specialize (H (fun _ => false) (b "{""a"":1}") (CAddKeyValueString [] (b "x") []) [] ENullKey eq_refl). discriminate H.
Qed.
Print Assumptions C40_failure_refuted.

(** The method StoreString writes its text without quotes: the body is not JSON any more. *)
Theorem C40_store_string_refuted : ~ C40_statement /\
  jo_call (fun _ => false) (b "{""a"":1}") (CStoreString (b "k") (b "x") []) = JRet (b "{""a"":1,""k"":x}") None.
Proof.
  split; [|vm_compute; reflexivity]. intro H. specialize (H (fun _ => false) (b "{""a"":1}") (CStoreString (b "k") (b "x") [])). vm_compute in H. discriminate H.
Qed.
Print Assumptions C40_store_string_refuted.

Definition ex40_pf (s : bytes) : bool := bytes_eqb s (b "2.5").
Definition ex40 : list jcall :=
  [CAddKeyValueString (b "s") (b "x y") []; CAddKeyValue (b "l") (Some (b "[]")) []; CAddInt 7 [b "l"]; CAddString (b "z") [b "l"];
   CAddBool true [b "l"]; CAddFloat (b "2.5") [b "l"]; CInsertInt 0 (-1) [b "l"]; CInsertString 1 (b "i") [b "l"]; CInsertBool 0 false [b "l"];
   CInsertFloat 0 (b "0.5") [b "l"]; CStore (b "s") (Some (b "{}")) []; CStore (b "t") None []; CStoreString (b "n") (b "12") [b "s"];
   CStoreInt (b "m") 3 [b "s"]; CStoreFloat (b "f") (b "2.5") [b "s"]; CStoreBool (b "b") true [b "s"]; CSet (b "0") [b "s"; b "n"];
   CSetString (b "q") [b "s"; b "m"]; CSetInt 4 [b "s"; b "f"]; CSetBool false [b "s"; b "b"]; CSetKey (b "r") [b "s"; b "n"];
   CDelete [b "l"; b "0"]; CDelete [b "none"]; CAdd (b "8") [b "l"; b "9"]; CInsert 99 (b "8") [b "l"];
   CAddKeyValueInt (b "i") 5 [b "s"]; CAddKeyValueFloat (b "h") (b "0.5") [b "s"]; CAddKeyValueBool (b "j") false [b "s"]; CSetFloat (b "1.5") [b "s"; b "i"]].
Example C40_example :
  Forall (plain_store ex40_pf) ex40 /\ Forall keeps_body ex40 /\
  jo_run ex40_pf NewJSON ex40 = Some
    (b "{""s"":{""r"":0,""m"":""q"",""f"":4,""b"":false,""i"":1.5,""h"":0.5,""j"":false},""l"":[false,-1,""i"",7,""z"",true,2.5],""t"":null}",
     repeat None 22 ++ [Some (EKeyNotFound (b "none")); Some EIndexOutOfRange; Some EIndexOutOfRange] ++ repeat None 4).
Proof.
  split; [repeat constructor; vm_compute; reflexivity|]. split; [repeat constructor; discriminate|]. vm_compute. reflexivity.
Qed.
