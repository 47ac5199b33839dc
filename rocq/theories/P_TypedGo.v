(** Property C73: the typed writers, JO and the typed methods of Parser as written in Go compute what the models of them compute. *)
From Coq Require Import String.
From Verif Require Import GoStd Json Spec Parse Domains Errors GoLang Core Api Iter Typed Parser SpecPtr Pointers AsWritten UpdateGoProofs SplitGo TypedGo ParserGo ParserTypedGo.
From Verif Require JO UpdateGo TypedGoProofs ParserTypedGoProofs SplitGoProofs.

Local Open Scope Z_scope.

(** ** C73

    The programs follow inter_set.go:27-50 and 110-133, inter_add.go:234-455, jin_object_add.go, jin_object_set.go,
    jin_object_others.go:4-8, parse_get.go:50-333, parse_set.go:55-81 and parse_add.go:343-444 statement by statement and call
    the programs of C62 to C71.  [outcome] is that of C68. *)
Theorem C73_set : forall fuel pf json path, octets json -> (length json < fuel)%nat -> (S (length path) < fuel)%nat ->
  (forall v, SetString_t fuel pf json v path = outcome (SetString pf json v path)) /\ (forall v, SetInt_t fuel json v path = outcome (SetInt json v path)) /\
  (forall v, SetFloat_t fuel json v path = outcome (SetFloat json v path)) /\ (forall v, SetBool_t fuel json v path = outcome (SetBool json v path)).
Proof. exact TypedGoProofs.set_t_spec. Qed.
Print Assumptions C73_set.
Theorem C73_store : forall fuel pf json path, octets json -> (length json < fuel)%nat -> (S (length path) < fuel)%nat ->
  (forall k v, StoreString_t fuel pf json k v path = outcome (StoreString pf json k v path)) /\ (forall k v, StoreInt_t fuel json k v path = outcome (StoreInt json k v path)) /\
  (forall k v, StoreFloat_t fuel json k v path = outcome (StoreFloat json k v path)) /\ (forall k v, StoreBool_t fuel json k v path = outcome (StoreBool json k v path)).
Proof. exact TypedGoProofs.store_t_spec. Qed.
Print Assumptions C73_store.
Theorem C73_add_key_value : forall fuel pf json path, octets json -> (length json < fuel)%nat -> (S (length path) < fuel)%nat ->
  (forall k v, AddKeyValueString_t fuel pf json k v path = outcome (AddKeyValueString pf json k v path)) /\ (forall k v, AddKeyValueInt_t fuel json k v path = outcome (AddKeyValueInt json k v path)) /\
  (forall k v, AddKeyValueUint_t fuel json k v path = outcome (AddKeyValueUint json k v path)) /\ (forall k v, AddKeyValueInt32_t fuel json k v path = outcome (AddKeyValueInt32 json k v path)) /\
  (forall k v, AddKeyValueInt64_t fuel json k v path = outcome (AddKeyValueInt64 json k v path)) /\ (forall k v, AddKeyValueUint32_t fuel json k v path = outcome (AddKeyValueUint32 json k v path)) /\
  (forall k v, AddKeyValueUint64_t fuel json k v path = outcome (AddKeyValueUint64 json k v path)) /\ (forall k v, AddKeyValueFloat_t fuel json k v path = outcome (AddKeyValueFloat json k v path)) /\
  (forall k v, AddKeyValueBool_t fuel json k v path = outcome (AddKeyValueBool json k v path)).
Proof. exact TypedGoProofs.add_key_value_t_spec. Qed.
Print Assumptions C73_add_key_value.
Theorem C73_add : forall fuel pf json path, octets json -> (length json < fuel)%nat -> (S (length path) < fuel)%nat ->
  (forall v, AddString_t fuel pf json v path = outcome (AddString pf json v path)) /\ (forall v, AddInt_t fuel json v path = outcome (AddInt json v path)) /\
  (forall v, AddInt32_t fuel json v path = outcome (AddInt32 json v path)) /\ (forall v, AddInt64_t fuel json v path = outcome (AddInt64 json v path)) /\
  (forall v, AddUint_t fuel json v path = outcome (AddUint json v path)) /\ (forall v, AddUint32_t fuel json v path = outcome (AddUint32 json v path)) /\
  (forall v, AddUint64_t fuel json v path = outcome (AddUint64 json v path)) /\ (forall v, AddFloat_t fuel json v path = outcome (AddFloat json v path)) /\
  (forall v, AddBool_t fuel json v path = outcome (AddBool json v path)).
Proof. exact TypedGoProofs.add_t_spec. Qed.
Print Assumptions C73_add.
Theorem C73_insert : forall fuel pf json path, octets json -> (length json < fuel)%nat -> (S (length path) < fuel)%nat ->
  (forall i v, InsertString_t fuel pf json i v path = outcome (InsertString pf json i v path)) /\ (forall i v, InsertInt_t fuel json i v path = outcome (InsertInt json i v path)) /\
  (forall i v, InsertInt32_t fuel json i v path = outcome (InsertInt32 json i v path)) /\ (forall i v, InsertInt64_t fuel json i v path = outcome (InsertInt64 json i v path)) /\
  (forall i v, InsertUint_t fuel json i v path = outcome (InsertUint json i v path)) /\ (forall i v, InsertUint32_t fuel json i v path = outcome (InsertUint32 json i v path)) /\
  (forall i v, InsertUint64_t fuel json i v path = outcome (InsertUint64 json i v path)) /\ (forall i v, InsertFloat_t fuel json i v path = outcome (InsertFloat json i v path)) /\
  (forall i v, InsertBool_t fuel json i v path = outcome (InsertBool json i v path)).
Proof. exact TypedGoProofs.insert_t_spec. Qed.
Print Assumptions C73_insert.

(** *** A JO used for a while: the body at the end and the errors returned, or a panic *)
Theorem C73_jo : forall pf cs body, octets body -> Forall jcall_octets cs ->
  eventually (fun fuel => calls_j fuel pf cs body = match JO.jo_run pf body cs with Some r => Ret r | None => Pan end).
Proof. exact TypedGoProofs.calls_j_spec. Qed.
Print Assumptions C73_jo.

(** *** Parse and any calls, typed or not; then the readers *)
Theorem C73_parser : forall pf json cs, octets json -> Forall tcall_octets cs ->
  match Parse json with
  | Ok p => exists q, eventually (fun fuel => Parse_go (as_written fuel) json = Ret (Some q, None)) /\
      match t_calls pf cs p with
      | Some (p', es) => exists q', eventually (fun fuel => calls_t (as_written fuel) pf cs q = Ret (q', es)) /\ q_json q' = p_json p' /\ forall path, Q_Get q' path = P_Get p' path
      | None => eventually (fun fuel => calls_t (as_written fuel) pf cs q = Pan)
      end
  | Err e => eventually (fun fuel => Parse_go (as_written fuel) json = Ret (None, Some e))
  | Panic => eventually (fun fuel => Parse_go (as_written fuel) json = Pan)
  end.
Proof. exact ParserTypedGoProofs.typed_history_written. Qed.
Print Assumptions C73_parser.

(** With an error the readers return an empty text, -1, [false] or nil. *)
Definition answer {A : Type} (none : A) (r : res A) : flow unit (A * option err) :=
  match r with Ok v => Ret (v, None) | Err e => Ret (none, Some e) | Panic => Pan end.
Theorem C73_parser_readers : forall q p, (forall path, Q_Get q path = P_Get p path) -> forall path,
  eventually (fun fuel => GetString_p (as_written fuel) q path = answer [] (P_GetString p path)) /\
  eventually (fun fuel => GetInt_p (as_written fuel) q path = answer (-1) (P_GetInt p path)) /\
  eventually (fun fuel => GetBool_p (as_written fuel) q path = answer false (P_GetBool p path)) /\
  (forall (F : Type) (pf : bytes -> option F) minus1, eventually (fun fuel => GetFloat_p (as_written fuel) q path pf minus1 = answer minus1 (P_GetFloat pf p path))) /\
  eventually (fun fuel => GetStringArray_p fuel (as_written fuel) q path = answer [] (P_GetStringArray p path)) /\
  eventually (fun fuel => GetIntArray_p fuel (as_written fuel) q path = answer [] (P_GetIntArray p path)) /\
  eventually (fun fuel => GetBoolArray_p fuel (as_written fuel) q path = answer [] (P_GetBoolArray p path)) /\
  (forall (F : Type) (pf : bytes -> option F), eventually (fun fuel => GetFloatArray_p fuel (as_written fuel) q path pf = answer [] (P_GetFloatArray pf p path))).
Proof. exact ParserTypedGoProofs.readers_written. Qed.
Print Assumptions C73_parser_readers.

(** *** On documents: what the programs write, the programs read *)
Theorem C73_int_partial : forall d, wf_doc d = true -> octets (text d) -> forall z, in_int64 z = true ->
  (forall p, p <> [] -> lookup (d_val d) p <> None -> exists out,
     eventually (fun fuel => SetInt_t fuel (text d) z p = Ret (out, None) /\ GetInt_go fuel out p = Ret (z, None))) /\
  (forall p w els, lookup (d_val d) p = Some (JArr w els) -> in_int64 (Z.of_nat (length els)) = true -> exists out,
     eventually (fun fuel => AddInt_t fuel (text d) z p = Ret (out, None) /\ GetInt_go fuel out (p ++ [itoa (Z.of_nat (length els))]) = Ret (z, None))) /\
  (forall p k w ms out, octets k -> str_ok k = true -> lookup (d_val d) p = Some (JObj w ms) -> eventually (fun fuel => AddKeyValueInt_t fuel (text d) k z p = Ret (out, None)) ->
     eventually (fun fuel => GetInt_go fuel out (p ++ [k]) = Ret (z, None))) /\
  (forall p k w ms, octets k -> str_ok k = true -> lookup (d_val d) p = Some (JObj w ms) -> d_lookup (content (d_val d)) (p ++ [k]) <> None \/ seen_absent d p k -> exists out,
     eventually (fun fuel => StoreInt_t fuel (text d) k z p = Ret (out, None) /\ GetInt_go fuel out (p ++ [k]) = Ret (z, None))) /\
  (forall p i w els, (i <= int64_max)%Z -> lookup (d_val d) p = Some (JArr w els) -> insert_layout els i -> nth_z els i <> None -> exists out,
     eventually (fun fuel => InsertInt_t fuel (text d) i z p = Ret (out, None) /\ GetInt_go fuel out (p ++ [itoa i]) = Ret (z, None))).
Proof. exact TypedGoProofs.ints_written. Qed.
Print Assumptions C73_int_partial.
Theorem C73_bool_partial : forall d, wf_doc d = true -> octets (text d) -> forall v,
  (forall p, p <> [] -> lookup (d_val d) p <> None -> exists out,
     eventually (fun fuel => SetBool_t fuel (text d) v p = Ret (out, None) /\ GetBool_go fuel out p = Ret (v, None))) /\
  (forall p w els, lookup (d_val d) p = Some (JArr w els) -> in_int64 (Z.of_nat (length els)) = true -> exists out,
     eventually (fun fuel => AddBool_t fuel (text d) v p = Ret (out, None) /\ GetBool_go fuel out (p ++ [itoa (Z.of_nat (length els))]) = Ret (v, None))) /\
  (forall p k w ms, octets k -> str_ok k = true -> lookup (d_val d) p = Some (JObj w ms) -> d_lookup (content (d_val d)) (p ++ [k]) <> None \/ seen_absent d p k -> exists out,
     eventually (fun fuel => StoreBool_t fuel (text d) k v p = Ret (out, None) /\ GetBool_go fuel out (p ++ [k]) = Ret (v, None))) /\
  (forall p i w els, (i <= int64_max)%Z -> lookup (d_val d) p = Some (JArr w els) -> insert_layout els i -> nth_z els i <> None -> exists out,
     eventually (fun fuel => InsertBool_t fuel (text d) i v p = Ret (out, None) /\ GetBool_go fuel out (p ++ [itoa i]) = Ret (v, None))).
Proof. exact TypedGoProofs.bools_written. Qed.
Print Assumptions C73_bool_partial.
(** Of whatever path the writer takes: false, as in C24. *)
Definition C73_statement : Prop := forall d p z fuel out, wf_doc d = true -> octets (text d) -> in_int64 z = true ->
  SetInt_t fuel (text d) z p = Ret (out, None) -> eventually (fun fuel => GetInt_go fuel out p = Ret (z, None)).
Theorem C73_int_refuted : ~ C73_statement /\
  SetInt_t 40 (b "{""a"":""["","""":1}") 7 [b "a"; b "0"] = Ret (b "{""a"":""[7"":1}", None) /\
  GetInt_go 40 (b "{""a"":""[7"":1}") [b "a"; b "0"] = Ret (-1, Some (EIntegerParse (b "7"":1"))).
Proof.
  split; [|split; vm_compute; reflexivity]. intro H.
  destruct (H (doc_of (b "{""a"":""["","""":1}")) [b "a"; b "0"] 7 40%nat (b "{""a"":""[7"":1}")) as [n Hn]; [reflexivity|repeat constructor|reflexivity|vm_compute; reflexivity|].
  specialize (Hn (n + 40)%nat (Nat.le_add_r n 40)). rewrite SplitGoProofs.GetInt_go_spec in Hn; [|repeat constructor|apply Nat.lt_lt_add_l; vm_compute; repeat constructor..].
  vm_compute in Hn. discriminate Hn.
Qed.
Print Assumptions C73_int_refuted.
(** strconv.FormatInt and FormatUint are called with base 64. *)
Theorem C73_64bit_writers_panic : forall fuel json z n path k i, k <> [] -> 0 <= i ->
  AddInt64_t fuel json z path = Pan /\ AddUint_t fuel json n path = Pan /\ AddUint64_t fuel json n path = Pan /\
  AddKeyValueInt64_t fuel json k z path = Pan /\ AddKeyValueUint_t fuel json k n path = Pan /\ AddKeyValueUint64_t fuel json k n path = Pan /\
  InsertInt64_t fuel json i z path = Pan /\ InsertUint_t fuel json i n path = Pan /\ InsertUint64_t fuel json i n path = Pan.
Proof. exact TypedGoProofs.wide_written. Qed.
Print Assumptions C73_64bit_writers_panic.

(** *** On every document and every path the typed writers for int, float64, bool and string answer *)
Theorem C73_answer : forall d (pf : bytes -> bool) key v index z flag path, wf_doc d = true -> octets (text d) ->
  answered (fun fuel => SetString_t fuel pf (text d) v path) /\ answered (fun fuel => SetInt_t fuel (text d) z path) /\
  answered (fun fuel => SetFloat_t fuel (text d) v path) /\ answered (fun fuel => SetBool_t fuel (text d) flag path) /\
  answered (fun fuel => StoreString_t fuel pf (text d) key v path) /\ answered (fun fuel => StoreInt_t fuel (text d) key z path) /\
  answered (fun fuel => StoreFloat_t fuel (text d) key v path) /\ answered (fun fuel => StoreBool_t fuel (text d) key flag path) /\
  answered (fun fuel => AddKeyValueString_t fuel pf (text d) key v path) /\ answered (fun fuel => AddKeyValueInt_t fuel (text d) key z path) /\
  answered (fun fuel => AddKeyValueFloat_t fuel (text d) key v path) /\ answered (fun fuel => AddKeyValueBool_t fuel (text d) key flag path) /\
  answered (fun fuel => AddString_t fuel pf (text d) v path) /\ answered (fun fuel => AddInt_t fuel (text d) z path) /\
  answered (fun fuel => AddFloat_t fuel (text d) v path) /\ answered (fun fuel => AddBool_t fuel (text d) flag path) /\
  answered (fun fuel => InsertString_t fuel pf (text d) index v path) /\ answered (fun fuel => InsertInt_t fuel (text d) index z path) /\
  answered (fun fuel => InsertFloat_t fuel (text d) index v path) /\ answered (fun fuel => InsertBool_t fuel (text d) index flag path).
Proof. exact TypedGoProofs.typed_updates_answer. Qed.
Print Assumptions C73_answer.

(** The program computes: typed writers with and without an error, a JO (whose body is gone after AddKeyValueString without a
    key), a Parser (whose SetString panics on an empty string) *)
Definition ex73 : bytes := b "{""a"":[1,2],""o"":{""s"":""x""}}".
Definition ex73_pf (v : bytes) : bool := match atoi v with Some _ => true | None => false end.
Definition ex73_jo : list JO.jcall :=
  [JO.CAddInt 3 [b "a"]; JO.CStore (b "s") (Some (b "4")) [b "o"]; JO.CStore (b "t") None [b "o"]; JO.CStoreBool (b "u") true []; JO.CSetString (b "y z") [b "a"; b "0"]; JO.CDelete [b "nope"];
   JO.CStoreString (b "u") (b "raw") []].
Definition ex73_parser : list tcall :=
  [TAddInt 3 [b "a"]; TSetString (b "y z") [b "o"; b "s"]; TAddKeyValueBool (b "t") false [b "o"]; TInsertInt (-1) 5 [b "a"]; TAddKeyValueInt [] 5 []; TInsertInt 0 9 [b "a"]; TCall (CDelete [b "a"; b "3"])].
Example C73_example :
  octets ex73 /\ Forall jcall_octets ex73_jo /\ Forall tcall_octets ex73_parser /\
  SetInt_t 40 ex73 (-7) [b "o"; b "s"] = Ret (b "{""a"":[1,2],""o"":{""s"":-7}}", None) /\
  SetString_t 40 ex73_pf ex73 (b "hi") [b "a"; b "1"] = Ret (b "{""a"":[1,""hi""],""o"":{""s"":""x""}}", None) /\
  AddInt32_t 40 ex73 100 [b "a"] = Ret (b "{""a"":[1,2,34],""o"":{""s"":""x""}}", None) /\
  InsertBool_t 40 ex73 0 false [b "a"] = Ret (b "{""a"":[false,1,2],""o"":{""s"":""x""}}", None) /\
  InsertString_t 40 ex73_pf ex73 (-1) (b "x") [b "a"] = Ret ([], Some EIndexOutOfRange) /\ InsertFloat_t 40 ex73 (-1) (b "1.5") [b "a"] = Ret (ex73, Some EIndexOutOfRange) /\
  AddKeyValueString_t 40 ex73_pf ex73 [] (b "x") [] = Ret ([], Some ENullKey) /\ AddKeyValueFloat_t 40 ex73 [] (b "1.5") [] = Ret (ex73, Some ENullKey) /\
  calls_j 90 ex73_pf ex73_jo ex73 = Ret (b "{""a"":[""y z"",2,3],""o"":{""s"":4,""t"":null},""u"":raw}", [None; None; None; None; None; Some (EKeyNotFound (b "nope")); None]) /\
  calls_j 90 ex73_pf [JO.CAddKeyValueString [] (b "x") []] ex73 = Ret ([], [Some ENullKey]) /\
  (exists q q', Parse_go (as_written 90) ex73 = Ret (Some q, None) /\
    calls_t (as_written 90) ex73_pf ex73_parser q = Ret (q', [None; None; None; Some EIndexOutOfRange; Some ENullKey; None; None]) /\
    q_json q' = b "{""a"":[9,1,2],""o"":{""s"":""y z"",""t"":false}}" /\ GetBool_p (as_written 90) q' [b "o"; b "t"] = Ret (false, None) /\
    GetIntArray_p 90 (as_written 90) q' [b "a"] = Ret ([9; 1; 2], None) /\ GetInt_p (as_written 90) q' [b "o"; b "s"] = Ret (-1, Some (EIntegerParse (b "y z"))) /\
    calls_t (as_written 90) ex73_pf [TSetString [] [b "a"]] q = Pan).
Proof.
  split; [repeat constructor|]. split; [unfold ex73_jo; repeat (constructor; cbn [jcall_octets]); repeat constructor|]. split; [unfold ex73_parser; repeat (constructor; cbn [tcall_octets]); repeat constructor|].
  do 8 (split; [vm_compute; reflexivity|]). split; [vm_compute; reflexivity|]. split; [vm_compute; reflexivity|].
  do 2 eexists. split; [vm_compute; reflexivity|]. split; [vm_compute; reflexivity|]. do 4 (split; [vm_compute; reflexivity|]). vm_compute. reflexivity.
Qed.
