(** Properties C24, C25, C26, C28 and C41, and the typed part of C32. *)
From Coq Require Import String.
From Verif Require Import GoStd Json Spec Parse Domains Errors Core Api Rfc RfcProofs Typed TypedProofs.

Local Open Scope N_scope.

(** ** C24

    Full statement: false when the path does not resolve but the scanner finds something all the same, see
    [C24_int_refuted].  The theorems below are about positions that exist in the document; for StoreInt the
    key must be present or visibly absent, and InsertInt needs the layout of C10. *)
Definition C24_statement : Prop := forall d p z out,
  wf_doc d = true -> in_int64 z = true -> SetInt (text d) z p = Done out -> GetInt out p = Ok z.

Theorem C24_set_int_partial : forall d p z,
  wf_doc d = true -> in_int64 z = true -> p <> [] -> lookup (d_val d) p <> None ->
  exists out, SetInt (text d) z p = Done out /\ GetInt out p = Ok z.
Proof. exact set_int. Qed.
Print Assumptions C24_set_int_partial.

Theorem C24_add_int_partial : forall d p z w els,
  wf_doc d = true -> in_int64 z = true -> lookup (d_val d) p = Some (JArr w els) ->
  in_int64 (Z.of_nat (length els)) = true ->
  exists out, AddInt (text d) z p = Done out /\ GetInt out (p ++ [itoa (Z.of_nat (length els))]) = Ok z.
Proof. exact add_int. Qed.
Print Assumptions C24_add_int_partial.

Theorem C24_add_key_value_int_partial : forall d p k z w ms out,
  wf_doc d = true -> in_int64 z = true -> str_ok k = true -> lookup (d_val d) p = Some (JObj w ms) ->
  AddKeyValueInt (text d) k z p = Done out -> GetInt out (p ++ [k]) = Ok z.
Proof. exact add_kv_int. Qed.
Print Assumptions C24_add_key_value_int_partial.

Theorem C24_store_int_partial : forall d p k z w ms,
  wf_doc d = true -> in_int64 z = true -> str_ok k = true -> lookup (d_val d) p = Some (JObj w ms) ->
  (d_lookup (content (d_val d)) (p ++ [k]) <> None \/ seen_absent d p k) ->
  exists out, StoreInt (text d) k z p = Done out /\ GetInt out (p ++ [k]) = Ok z.
Proof. exact store_int. Qed.
Print Assumptions C24_store_int_partial.

Theorem C24_insert_int_partial : forall d p i z w els,
  wf_doc d = true -> in_int64 z = true -> (i <= int64_max)%Z ->
  lookup (d_val d) p = Some (JArr w els) -> insert_layout els i -> nth_z els i <> None ->
  exists out, InsertInt (text d) i z p = Done out /\ GetInt out (p ++ [itoa i]) = Ok z.
Proof. exact insert_int. Qed.
Print Assumptions C24_insert_int_partial.

Theorem C24_int_refuted :
  ~ C24_statement /\
  SetInt (b "{""a"":""["","""":1}") 7 [b "a"; b "0"] = Done (b "{""a"":""[7"":1}") /\
  GetInt (b "{""a"":""[7"":1}") [b "a"; b "0"] = Err (EIntegerParse (b "7"":1")) /\
  wf_doc (doc_of (b "{"","":[""c""],""}"":{"","":1,""}"":""a:b[1""}}")) = true /\
  StoreInt (b "{"","":[""c""],""}"":{"","":1,""}"":""a:b[1""}}") (b ":") 7 [] = Done (b "{"","":[""c""],""}"":{"","":1,""}"":""a:7}}") /\
  wf_doc (doc_of (b "[""{}""]")) = true /\
  AddKeyValueInt (b "[""{}""]") (b "0") 7 [b "0"] = Done (b "[""{""0"":7}""]") /\
  GetInt (b "[""{""0"":7}""]") [b "0"; b "0"] = Err EIndexOutOfRange.
Proof.
  split; [|vm_compute; repeat split]. intro H.
  specialize (H (doc_of (b "{""a"":""["","""":1}")) [b "a"; b "0"] 7%Z (b "{""a"":""[7"":1}") eq_refl eq_refl eq_refl).
  vm_compute in H. discriminate H.
Qed.
Print Assumptions C24_int_refuted.

Definition ex24 : bytes := b " { ""a"" : [ ""x"" , {""k"":-3} ] , ""e"" : [ ] } ".
Example C24_example :
  let d := doc_of ex24 in
  wf_doc d = true /\ lookup (d_val d) [b "a"; b "1"; b "k"] <> None /\ in_int64 (-9223372036854775808) = true /\
  SetInt ex24 (-9223372036854775808) [b "a"; b "1"; b "k"] = Done (b " { ""a"" : [ ""x"" , {""k"":-9223372036854775808} ] , ""e"" : [ ] } ") /\
  GetInt (b " { ""a"" : [ ""x"" , {""k"":-9223372036854775808} ] , ""e"" : [ ] } ") [b "a"; b "1"; b "k"] = Ok (-9223372036854775808)%Z /\
  AddInt ex24 205 [b "a"] = Done (b " { ""a"" : [ ""x"" , {""k"":-3} ,205] , ""e"" : [ ] } ") /\
  AddInt ex24 205 [b "e"] = Done (b " { ""a"" : [ ""x"" , {""k"":-3} ] , ""e"" : [ 205] } ") /\
  AddKeyValueInt ex24 (b "n") 205 [b "a"; b "1"] = Done (b " { ""a"" : [ ""x"" , {""k"":-3,""n"":205} ] , ""e"" : [ ] } ") /\
  AddKeyValueInt ex24 [] 205 [b "a"; b "1"] = Fail (Some ex24) ENullKey /\
  d_lookup (content (d_val d)) ([b "a"; b "1"] ++ [b "k"]) <> None /\
  StoreInt ex24 (b "k") 205 [b "a"; b "1"] = Done (b " { ""a"" : [ ""x"" , {""k"":205} ] , ""e"" : [ ] } ") /\
  InsertInt ex24 0 205 [b "a"] = Done (b " { ""a"" : [ 205,""x"" , {""k"":-3} ] , ""e"" : [ ] } ") /\
  InsertInt ex24 (-1) 205 [b "a"] = Fail (Some ex24) EIndexOutOfRange.
Proof. vm_compute. repeat split; discriminate. Qed.

(** ** C25

    Full statement: false when the path does not resolve, as in C24, see [C25_bool_refuted]. *)
Definition C25_statement : Prop := forall d p v out,
  wf_doc d = true -> SetBool (text d) v p = Done out -> GetBool out p = Ok v.

Theorem C25_set_bool : forall d p v, wf_doc d = true -> p <> [] -> lookup (d_val d) p <> None ->
  exists out, SetBool (text d) v p = Done out /\ GetBool out p = Ok v.
Proof. exact set_bool. Qed.
Print Assumptions C25_set_bool.

Theorem C25_add_bool : forall d p v w els, wf_doc d = true -> lookup (d_val d) p = Some (JArr w els) ->
  in_int64 (Z.of_nat (length els)) = true ->
  exists out, AddBool (text d) v p = Done out /\ GetBool out (p ++ [itoa (Z.of_nat (length els))]) = Ok v.
Proof. exact add_bool. Qed.
Print Assumptions C25_add_bool.

Theorem C25_add_key_value_bool : forall d p k v w ms out, wf_doc d = true -> str_ok k = true ->
  lookup (d_val d) p = Some (JObj w ms) -> AddKeyValueBool (text d) k v p = Done out -> GetBool out (p ++ [k]) = Ok v.
Proof. exact add_kv_bool. Qed.
Print Assumptions C25_add_key_value_bool.

Theorem C25_store_bool_partial : forall d p k v w ms, wf_doc d = true -> str_ok k = true ->
  lookup (d_val d) p = Some (JObj w ms) ->
  (d_lookup (content (d_val d)) (p ++ [k]) <> None \/ seen_absent d p k) ->
  exists out, StoreBool (text d) k v p = Done out /\ GetBool out (p ++ [k]) = Ok v.
Proof. exact store_bool. Qed.
Print Assumptions C25_store_bool_partial.

Theorem C25_insert_bool_partial : forall d p i v w els, wf_doc d = true -> (i <= int64_max)%Z ->
  lookup (d_val d) p = Some (JArr w els) -> insert_layout els i -> nth_z els i <> None ->
  exists out, InsertBool (text d) i v p = Done out /\ GetBool out (p ++ [itoa i]) = Ok v.
Proof. exact insert_bool. Qed.
Print Assumptions C25_insert_bool_partial.

Theorem C25_bool_refuted :
  ~ C25_statement /\
  SetBool (b "{""a"":""["","""":1}") true [b "a"; b "0"] = Done (b "{""a"":""[true"":1}") /\
  GetBool (b "{""a"":""[true"":1}") [b "a"; b "0"] = Err (EBoolParse (b "true"":1")) /\
  wf_doc (doc_of (b "{"","":[""c""],""}"":{"","":1,""}"":""a:b[1""}}")) = true /\
  StoreBool (b "{"","":[""c""],""}"":{"","":1,""}"":""a:b[1""}}") (b ":") true [] = Done (b "{"","":[""c""],""}"":{"","":1,""}"":""a:true}}").
Proof.
  split; [|vm_compute; repeat split]. intro H.
  specialize (H (doc_of (b "{""a"":""["","""":1}")) [b "a"; b "0"] true (b "{""a"":""[true"":1}") eq_refl eq_refl).
  vm_compute in H. discriminate H.
Qed.
Print Assumptions C25_bool_refuted.

Example C25_example :
  let d := doc_of ex24 in
  wf_doc d = true /\ lookup (d_val d) [b "a"; b "0"] <> None /\
  SetBool ex24 false [b "a"; b "0"] = Done (b " { ""a"" : [ false , {""k"":-3} ] , ""e"" : [ ] } ") /\
  GetBool (b " { ""a"" : [ false , {""k"":-3} ] , ""e"" : [ ] } ") [b "a"; b "0"] = Ok false /\
  SetBool ex24 true [b "e"] = Done (b " { ""a"" : [ ""x"" , {""k"":-3} ] , ""e"" : true } ") /\
  GetBool (b " { ""a"" : [ ""x"" , {""k"":-3} ] , ""e"" : true } ") [b "e"] = Ok true /\
  GetBool ex24 [b "a"; b "0"] = Err (EBoolParse (b "x")) /\
  AddBool ex24 true [b "e"] = Done (b " { ""a"" : [ ""x"" , {""k"":-3} ] , ""e"" : [ true] } ") /\
  AddKeyValueBool ex24 (b "n") false [] = Done (b " { ""a"" : [ ""x"" , {""k"":-3} ] , ""e"" : [ ] ,""n"":false} ") /\
  StoreBool ex24 (b "e") true [] = Done (b " { ""a"" : [ ""x"" , {""k"":-3} ] , ""e"" : true } ") /\
  InsertBool ex24 0 true [b "a"] = Done (b " { ""a"" : [ true,""x"" , {""k"":-3} ] , ""e"" : [ ] } ").
Proof. vm_compute. repeat split; discriminate. Qed.

(** ** C26

    Full statement: false; the functions for 32-bit types write base 32 and those for 64-bit types ask
    strconv for base 64, which panics ([C26_sized_integers_refuted]).  What does hold is proved for every
    argument: the base-32 text is the decimal one exactly for one-digit numbers. *)
Definition C26_statement : Prop := forall json z n p,
  AddInt32 json z p = Add_ json (itoa z) p /\ AddInt64 json z p = Add_ json (itoa z) p /\
  AddUint json n p = Add_ json (itoa_N n) p.

Theorem C26_32bit_text_is_decimal_for_one_digit_partial : forall z,
  (-10 < z < 10)%Z <-> FormatInt z 32 = Ok (itoa z).
Proof. exact (fun z => iff_sym (base32_int z)). Qed.
Print Assumptions C26_32bit_text_is_decimal_for_one_digit_partial.

Theorem C26_32bit_unsigned_text_partial : forall n, n < 10 <-> FormatUint n 32 = Ok (itoa_N n).
Proof. exact (fun n => iff_sym (base32_is_decimal n)). Qed.
Print Assumptions C26_32bit_unsigned_text_partial.

Theorem C26_32bit_writers_partial : forall json z p k i, (-10 < z < 10)%Z ->
  AddInt32 json z p = AddInt json z p /\ AddKeyValueInt32 json k z p = AddKeyValueInt json k z p /\
  InsertInt32 json i z p = InsertInt json i z p /\
  ((0 <= z)%Z -> AddUint32 json (Z.to_N z) p = AddInt json z p /\
                 AddKeyValueUint32 json k (Z.to_N z) p = AddKeyValueInt json k z p /\
                 InsertUint32 json i (Z.to_N z) p = InsertInt json i z p).
Proof. exact sized_small. Qed.
Print Assumptions C26_32bit_writers_partial.

Theorem C26_digits_denote_the_number : forall n base s, FormatUint n base = Ok s -> denote base 0 s = n.
Proof. exact FormatUint_denotes. Qed.
Print Assumptions C26_digits_denote_the_number.

Theorem C26_64bit_writers_panic : forall json z n p k i, k <> [] -> (0 <= i)%Z ->
  AddInt64 json z p = UPanic /\ AddUint json n p = UPanic /\ AddUint64 json n p = UPanic /\
  AddKeyValueInt64 json k z p = UPanic /\ AddKeyValueUint json k n p = UPanic /\ AddKeyValueUint64 json k n p = UPanic /\
  InsertInt64 json i z p = UPanic /\ InsertUint json i n p = UPanic /\ InsertUint64 json i n p = UPanic.
Proof. exact sized_panics. Qed.
Print Assumptions C26_64bit_writers_panic.

Theorem C26_sized_integers_refuted :
  ~ C26_statement /\ AddInt32 (b "[]") 100 [] = Done (b "[34]") /\ AddInt32 (b "[]") (-42) [] = Done (b "[-1a]") /\
  AddUint32 (b "[]") 10 [] = Done (b "[a]") /\ AddInt64 (b "[]") 1 [] = UPanic.
Proof.
  split; [|vm_compute; repeat split]. intro H. destruct (H (b "[]") 100%Z 0 []) as [H1 _]. vm_compute in H1. discriminate H1.
Qed.
Print Assumptions C26_sized_integers_refuted.

Example C26_example :
  FormatInt (-7) 32 = Ok (itoa (-7)) /\ FormatUint 32 32 = Ok (b "10") /\ FormatInt 31 32 = Ok (b "v") /\ FormatInt (-2147483648) 32 = Ok (b "-2000000") /\
  FormatUint 4294967295 32 = Ok (b "3vvvvvv") /\ denote 32 0 (b "3vvvvvv") = 4294967295 /\
  AddInt32 (b "{""a"":[1]}") (-7) [b "a"] = Done (b "{""a"":[1,-7]}") /\
  AddKeyValueInt32 (b "{""a"":[1]}") (b "k") 5 [] = Done (b "{""a"":[1],""k"":5}") /\
  InsertUint32 (b "{""a"":[1]}") 0 5 [b "a"] = Done (b "{""a"":[5,1]}").
Proof. vm_compute. repeat split. Qed.

(** ** C28

    Full statement: false, see [C28_strings_refuted]: nothing is escaped, and texts that strconv takes for
    numbers or that stand between brackets are written as they are. *)
Definition C28_statement (pf : bytes -> bool) : Prop := forall s, value (formatType pf s).

Theorem C28_string_partial : forall pf s, chars s = true ->
  (isInt s = true -> number_ok s = true \/ (hd 0 s = 48 /\ (1 < length s)%nat)) ->
  (isInt s = false -> pf s = true -> number_ok s = true) ->
  (fenced s = true -> value s) ->
  value (formatType pf s).
Proof. exact formatType_valid. Qed.
Print Assumptions C28_string_partial.

Theorem C28_json_value_given_as_string : forall pf s, value s -> value (formatType pf s).
Proof. exact formatType_of_value. Qed.
Print Assumptions C28_json_value_given_as_string.

Theorem C28_strings_refuted : forall pf,
  ~ C28_statement pf /\ ~ value (formatType pf (b "a""b")) /\ ~ value (formatType pf (b "+5")) /\
  ~ value (formatType pf (b "-01")) /\ ~ value (formatType pf (b "[x]")) /\ ~ value (formatType pf (b """")) /\
  ~ value (formatType pf [10]).
Proof. exact formatType_bad. Qed.
Print Assumptions C28_strings_refuted.

Definition ex_pf (s : bytes) : bool := bytes_eqb s (b "1e5") || bytes_eqb s (b "-0.5").
Example C28_example :
  map (formatType ex_pf) [b "abc"; b "1e5"; b "-0.5"; b "007"; b "2147483648"; b "12"; b "true"; b "null"; []; b "{""a"":[1]}"; b """x"""; b "[1"; b "nul"] =
    [b """abc"""; b "1e5"; b "-0.5"; b """007"""; b """2147483648"""; b "12"; b "true"; b "null"; b """"""; b "{""a"":[1]}"; b """x"""; b """[1"""; b """nul"""] /\
  chars (b "aé\n c") = true /\ isInt (b "12") = true /\ number_ok (b "12") = true /\ fenced (b "[1") = false /\
  forallb valid [b """abc"""; b "1e5"; b "-0.5"; b """007"""; b """2147483648"""; b """"""; b "{""a"":[1]}"] = true.
Proof. vm_compute. repeat split. Qed.

(** ** C41: string write/read round trip, for strings that need no escaping and are not fenced by brackets
    (numbers and literals included, although they are stored without quotes).  [pf s = true -> scalar_ok s]
    says that ParseFloat accepts no text with structural characters.

    Full statement: false when the path does not resolve, as in C24, and for strings fenced by brackets, see [C41_string_refuted]. *)
Definition C41_statement : Prop := forall pf d p s out,
  wf_doc d = true -> str_ok s = true -> (pf s = true -> scalar_ok s = true) -> SetString pf (text d) s p = Done out -> GetString out p = Ok s.

Theorem C41_set_string : forall pf d p s,
  wf_doc d = true -> str_ok s = true -> (pf s = true -> scalar_ok s = true) -> fenced s = false ->
  p <> [] -> lookup (d_val d) p <> None ->
  exists out, SetString pf (text d) s p = Done out /\ GetString out p = Ok s.
Proof. exact set_string. Qed.
Print Assumptions C41_set_string.

Theorem C41_add_string : forall pf d p s,
  wf_doc d = true -> str_ok s = true -> (pf s = true -> scalar_ok s = true) -> fenced s = false ->
  forall w els, lookup (d_val d) p = Some (JArr w els) -> in_int64 (Z.of_nat (length els)) = true ->
  exists out, AddString pf (text d) s p = Done out /\ GetString out (p ++ [itoa (Z.of_nat (length els))]) = Ok s.
Proof. exact add_string. Qed.
Print Assumptions C41_add_string.

Theorem C41_add_key_value_string : forall pf d p s,
  wf_doc d = true -> str_ok s = true -> (pf s = true -> scalar_ok s = true) -> fenced s = false ->
  forall k w ms out, str_ok k = true -> lookup (d_val d) p = Some (JObj w ms) ->
  AddKeyValueString pf (text d) k s p = Done out -> GetString out (p ++ [k]) = Ok s.
Proof. exact add_kv_string. Qed.
Print Assumptions C41_add_key_value_string.

Theorem C41_insert_string_partial : forall pf d p s,
  wf_doc d = true -> str_ok s = true -> (pf s = true -> scalar_ok s = true) -> fenced s = false ->
  forall i w els, (i <= int64_max)%Z -> lookup (d_val d) p = Some (JArr w els) -> insert_layout els i -> nth_z els i <> None ->
  exists out, InsertString pf (text d) i s p = Done out /\ GetString out (p ++ [itoa i]) = Ok s.
Proof. exact insert_string. Qed.
Print Assumptions C41_insert_string_partial.

Theorem C41_store_string_partial : forall pf d p s,
  wf_doc d = true -> str_ok s = true -> (pf s = true -> scalar_ok s = true) -> fenced s = false ->
  forall k w ms, str_ok k = true -> lookup (d_val d) p = Some (JObj w ms) ->
  (d_lookup (content (d_val d)) (p ++ [k]) <> None \/ seen_absent d p k) ->
  exists out, StoreString pf (text d) k s p = Done out /\ GetString out (p ++ [k]) = Ok s.
Proof. exact store_string. Qed.
Print Assumptions C41_store_string_partial.

Theorem C41_string_refuted :
  ~ C41_statement /\
  SetString ex_pf (b "{""a"":""["","""":1}") (b "7") [b "a"; b "0"] = Done (b "{""a"":""[7"":1}") /\
  GetString (b "{""a"":""[7"":1}") [b "a"; b "0"] = Ok (b "7"":1") /\
  SetString ex_pf (b "[1,2]") (b "[ ] ]") [b "0"] = Done (b "[[ ] ],2]") /\ GetString (b "[[ ] ],2]") [b "0"] = Ok (b "[ ]").
Proof.
  split; [|vm_compute; repeat split]. intro H.
  specialize (H ex_pf (doc_of (b "{""a"":""["","""":1}")) [b "a"; b "0"] (b "7") (b "{""a"":""[7"":1}") eq_refl eq_refl (fun _ => eq_refl) eq_refl).
  vm_compute in H. discriminate H.
Qed.
Print Assumptions C41_string_refuted.

Example C41_example :
  let d := doc_of ex24 in
  wf_doc d = true /\ lookup (d_val d) [b "a"; b "0"] <> None /\ str_ok (b "q\""[") = true /\ fenced (b "q\""[") = false /\
  SetString ex_pf ex24 (b "q\""[") [b "a"; b "0"] = Done (b " { ""a"" : [ ""q\""["" , {""k"":-3} ] , ""e"" : [ ] } ") /\
  Get (b " { ""a"" : [ ""q\""["" , {""k"":-3} ] , ""e"" : [ ] } ") [b "a"; b "0"] = Ok (b "q\""[") /\
  scalar_ok (b "1e5") = true /\
  SetString ex_pf ex24 (b "1e5") [b "e"] = Done (b " { ""a"" : [ ""x"" , {""k"":-3} ] , ""e"" : 1e5 } ") /\
  Get (b " { ""a"" : [ ""x"" , {""k"":-3} ] , ""e"" : 1e5 } ") [b "e"] = Ok (b "1e5") /\
  AddString ex_pf ex24 (b "007") [b "a"] = Done (b " { ""a"" : [ ""x"" , {""k"":-3} ,""007""] , ""e"" : [ ] } ") /\
  AddKeyValueString ex_pf ex24 (b "n") [] [] = Done (b " { ""a"" : [ ""x"" , {""k"":-3} ] , ""e"" : [ ] ,""n"":""""} ") /\
  InsertString ex_pf ex24 0 (b "null") [b "a"] = Done (b " { ""a"" : [ null,""x"" , {""k"":-3} ] , ""e"" : [ ] } ") /\
  StoreString ex_pf ex24 (b "k") (b "y") [b "a"; b "1"] = Done (b " { ""a"" : [ ""x"" , {""k"":""y""} ] , ""e"" : [ ] } ").
Proof. vm_compute. repeat split; discriminate. Qed.

(** ** C32 for the typed functions: all of them except AddKeyValueString with an empty key and InsertString with
    a negative index, which return nil ([C32_typed_refuted]). *)
Definition C32_statement : Prop := forall pf json k s i p o e,
  (AddKeyValueString pf json k s p = Fail o e -> o = Some json) /\
  (InsertString pf json i s p = Fail o e -> o = Some json).

Theorem C32_typed : forall f json o e, typed_update f -> f json = Fail o e -> o = Some json.
Proof. exact typed_fail. Qed.
Print Assumptions C32_typed.

Theorem C32_typed_refuted :
  ~ C32_statement /\ (forall pf json s p, AddKeyValueString pf json [] s p = Fail None ENullKey) /\
  (forall pf json i s p, (i < 0)%Z -> InsertString pf json i s p = Fail None EIndexOutOfRange).
Proof. exact typed_nil. Qed.
Print Assumptions C32_typed_refuted.

Example C32_typed_example :
  typed_update (fun json => AddKeyValueString ex_pf json (b "k") (b "v") [b "x"]) /\
  AddKeyValueString ex_pf (b "{""a"":1}") (b "k") (b "v") [b "x"] = Fail (Some (b "{""a"":1}")) (EKeyNotFound (b "x")) /\
  InsertBool (b "[1]") (-1) true [] = Fail (Some (b "[1]")) EIndexOutOfRange /\
  AddKeyValueFloat (b "[1]") [] (b "1.5") [] = Fail (Some (b "[1]")) ENullKey.
Proof. split; [constructor|vm_compute; repeat split]. Qed.
