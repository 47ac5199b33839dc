(** Properties C17, C18, C22 and C23: type tests, emptiness and array getters. *)
From Coq Require Import String.
From Verif Require Import GoStd Json Spec SpecIter SpecList Parse Focus Errors Core Api Iter IterMisc Split ListExact TypeExact.

Local Open Scope N_scope.

(** ** C17

    Full statement: false for IsObject (true on arrays) and for GetType of a root number or literal with
    whitespace around it, see [C17_types_refuted]. *)
Definition kind (pf : bytes -> bool) (v : jv) : jtype :=
  match v with
  | JArr _ _ => TArray | JObj _ _ => TObject | JString _ => TString
  | JScalar s => if bytes_eqb s (b "true") || bytes_eqb s (b "false") then TBoolean
                 else if bytes_eqb s (b "null") then TNull
                 else TNumber
  end.
(** [pf] says which texts strconv.ParseFloat accepts; the tokens of a JSON document other than the three
    literals are numbers. *)
Definition numbers_ok (pf : bytes -> bool) (v : jv) : Prop :=
  match v with
  | JScalar s => s = b "true" \/ s = b "false" \/ s = b "null" \/ pf s = true
  | _ => True
  end.
Definition C17_statement : Prop := forall pf d p v,
  wf_doc d = true -> lookup (d_val d) p = Some v -> numbers_ok pf v ->
  IsArray (text d) p = Ok (is_arr v) /\ IsObject (text d) p = Ok (is_obj v) /\
  IsValue (text d) p = Ok (negb (container v)) /\ GetType pf (text d) p = Ok (kind pf v).

Theorem C17_is_array : forall d p v,
  wf_doc d = true -> lookup (d_val d) p = Some v -> IsArray (text d) p = Ok (is_arr v).
Proof. exact is_array. Qed.
Print Assumptions C17_is_array.

Theorem C17_is_value : forall d p v,
  wf_doc d = true -> lookup (d_val d) p = Some v -> IsValue (text d) p = Ok (negb (container v)).
Proof. exact is_value. Qed.
Print Assumptions C17_is_value.

Theorem C17_is_object_partial : forall d p v,
  wf_doc d = true -> lookup (d_val d) p = Some v -> is_arr v = false -> IsObject (text d) p = Ok (is_obj v).
Proof. exact is_object_not_arr. Qed.
Print Assumptions C17_is_object_partial.

Theorem C17_is_object_exact : forall d p v,
  wf_doc d = true -> lookup (d_val d) p = Some v -> IsObject (text d) p = Ok (container v).
Proof. exact is_object. Qed.
Print Assumptions C17_is_object_exact.

Theorem C17_get_type_partial : forall pf d p v,
  wf_doc d = true -> lookup (d_val d) p = Some v -> numbers_ok pf v ->
  p <> [] \/ is_str v = true \/ container v = true \/ (d_pre d = [] /\ d_post d = []) ->
  GetType pf (text d) p = Ok (kind pf v).
Proof. exact get_type_kind. Qed.
Print Assumptions C17_get_type_partial.

Definition ex_pf (s : bytes) : bool := bytes_eqb s (b "-1.5e3") || bytes_eqb s (b "7").
Theorem C17_types_refuted :
  ~ C17_statement /\ IsObject (b "[1]") [] = Ok true /\ GetType ex_pf (b " true") [] = Ok TString /\
  GetType ex_pf (b "true ") [] = Ok TString.
Proof.
  split; [|vm_compute; repeat split]. intro H.
  destruct (H ex_pf (doc_of (b "[1]")) [] _ eq_refl eq_refl I) as (_ & H1 & _). vm_compute in H1. discriminate H1.
Qed.
Print Assumptions C17_types_refuted.

Definition ex17 : bytes := b " {""a"":[ ""[x"" ,true, false,null, 7 ,-1.5e3,{ },[]],""s"":""5"",""n"":{""k"":[1]}} ".
Example C17_example :
  let d := doc_of ex17 in
  wf_doc d = true /\ text d = ex17 /\ lookup (d_val d) [b "a"; b "5"] = Some (JScalar (b "-1.5e3")) /\
  map (GetType ex_pf ex17) [[]; [b "a"]; [b "a"; b "0"]; [b "a"; b "1"]; [b "a"; b "2"]; [b "a"; b "3"]; [b "a"; b "4"]; [b "a"; b "5"];
                            [b "a"; b "6"]; [b "a"; b "7"]; [b "s"]] =
    map Ok [TObject; TArray; TString; TBoolean; TBoolean; TNull; TNumber; TNumber; TObject; TArray; TString] /\
  map (IsArray ex17) [[]; [b "a"]; [b "a"; b "0"]; [b "a"; b "7"]; [b "n"]] = map Ok [false; true; false; true; false] /\
  map (IsValue ex17) [[]; [b "a"]; [b "a"; b "0"]; [b "a"; b "7"]; [b "s"]] = map Ok [false; false; true; false; true] /\
  map (IsObject ex17) [[]; [b "a"; b "0"]; [b "a"; b "6"]; [b "s"]] = map Ok [true; false; true; false] /\
  GetType ex_pf (b "false") [] = Ok TBoolean.
Proof. vm_compute. repeat split. Qed.

(** ** C18

    Full statement: false for an array holding one one-byte element directly before its closing bracket and
    for strings below the root that read like a container, see [C18_is_empty_refuted]; these are the only exceptions. *)
Definition C18_statement : Prop := forall d p v,
  wf_doc d = true -> lookup (d_val d) p = Some v ->
  IsEmpty (text d) p = if container v then Ok (size v =? 0)%nat else Err EObjectExpected.

Theorem C18_is_empty_partial : forall d p v,
  wf_doc d = true -> lookup (d_val d) p = Some v -> container v = true -> lone v = false ->
  IsEmpty (text d) p = Ok (size v =? 0)%nat.
Proof. exact is_empty_not_lone. Qed.
Print Assumptions C18_is_empty_partial.

Theorem C18_is_empty_exact : forall d p v,
  wf_doc d = true -> lookup (d_val d) p = Some v -> container v = true ->
  IsEmpty (text d) p = Ok ((size v =? 0)%nat || lone v).
Proof. exact is_empty_container. Qed.
Print Assumptions C18_is_empty_exact.

Theorem C18_is_empty_of_a_number_or_literal : forall d p s,
  wf_doc d = true -> lookup (d_val d) p = Some (JScalar s) -> IsEmpty (text d) p = Err EObjectExpected.
Proof. exact is_empty_scalar. Qed.
Print Assumptions C18_is_empty_of_a_number_or_literal.

Theorem C18_is_empty_of_a_string_partial : forall d p s,
  wf_doc d = true -> lookup (d_val d) p = Some (JString s) ->
  (p <> [] -> match s with c :: _ => ((c =? 91) || (c =? 123)) = false | [] => True end) ->
  IsEmpty (text d) p = Err EObjectExpected.
Proof. exact is_empty_string. Qed.
Print Assumptions C18_is_empty_of_a_string_partial.

(** The other strings: those below the root that open like a container. *)
Theorem C18_is_empty_of_a_string_exact : forall d p pre c s post,
  wf_doc d = true -> p <> [] -> focus (d_val d) p pre (JString (c :: s)) post -> ((c =? 91) || (c =? 123)) = true ->
  IsEmpty (text d) p =
    if last (c :: s) 0 =? c + 2 then Ok (forallb space (firstn (length s - 2) s)) else Err (EBadJSON (length (d_pre d ++ pre) + length (c :: s))).
Proof. exact is_empty_string_exact. Qed.
Print Assumptions C18_is_empty_of_a_string_exact.
Example C18_string_example :
  let d := doc_of (b "[""[ 1 ]"",""{x}"",""[}"",""[""]") in
  wf_doc d = true /\ lookup (d_val d) [b "0"] = Some (JString (b "[ 1 ]")) /\
  IsEmpty (text d) [b "0"] = Ok false /\ IsEmpty (text d) [b "1"] = Ok true /\ IsEmpty (text d) [b "2"] = Err (EBadJSON 17) /\ IsEmpty (text d) [b "3"] = Err (EBadJSON 21).
Proof. vm_compute. repeat split. Qed.

Theorem C18_is_empty_refuted :
  ~ C18_statement /\ IsEmpty (b "[1]") [] = Ok true /\ IsEmpty (b "{""a"":[1]}") [b "a"] = Ok true /\
  IsEmpty (b "{""a"":""[]""}") [b "a"] = Ok true.
Proof.
  split; [|vm_compute; repeat split]. intro H.
  specialize (H (doc_of (b "[1]")) [] _ eq_refl eq_refl). vm_compute in H. discriminate H.
Qed.
Print Assumptions C18_is_empty_refuted.

Example C18_example :
  let d := doc_of ex17 in
  wf_doc d = true /\ (exists v, lookup (d_val d) [b "a"; b "6"] = Some v /\ container v = true /\ lone v = false /\ size v = 0%nat) /\
  (exists v, lookup (d_val d) [b "n"] = Some v /\ container v = true /\ lone v = false /\ size v = 1%nat) /\
  map (IsEmpty ex17) [[]; [b "a"]; [b "a"; b "6"]; [b "a"; b "7"]; [b "n"]] = map Ok [false; false; true; true; false] /\
  IsEmpty ex17 [b "s"] = Err EObjectExpected /\ IsEmpty ex17 [b "a"; b "4"] = Err EObjectExpected /\
  IsEmpty (b " [  ] ") [] = Ok true /\ IsEmpty (b "[12]") [] = Ok false /\ IsEmpty (b "[1 ]") [] = Ok false.
Proof. vm_compute. repeat split; eexists; repeat split. Qed.

(** ** C22

    Full statement: false for arrays of whitespace only and for a one-byte element with whitespace after but not
    before it, and GetStringArray fails on a root array with whitespace around it, see [C22_parse_array_refuted]. *)
Definition C22_statement : Prop :=
  (forall w els, wf (JArr w els) = true -> ParseArray (render (JArr w els)) = Ok (Some (items els))) /\
  (forall d p w els, wf_doc d = true -> lookup (d_val d) p = Some (JArr w els) -> GetStringArray (text d) p = Ok (items els)).

Theorem C22_parse_array_partial : forall w els,
  wf (JArr w els) = true -> els <> [] -> tight_e w els ->
  ParseArray (render (JArr w els)) = Ok (Some (items els)).
Proof. exact parse_array. Qed.
Print Assumptions C22_parse_array_partial.

Theorem C22_get_string_array_partial : forall d p w els,
  wf_doc d = true -> whole d p -> lookup (d_val d) p = Some (JArr w els) -> els <> [] -> tight_e w els ->
  GetStringArray (text d) p = Ok (items els).
Proof. exact get_string_array. Qed.
Print Assumptions C22_get_string_array_partial.

Theorem C22_get_string_array_empty_partial : forall d p,
  wf_doc d = true -> whole d p -> lookup (d_val d) p = Some (JArr [] []) -> GetStringArray (text d) p = Ok [].
Proof. exact get_string_array_empty. Qed.
Print Assumptions C22_get_string_array_empty_partial.

(** On every array: elements are listed as [trimmed] shows them, and an array of whitespace has one element, or
    makes the code panic if there are more than three bytes of it. *)
Theorem C22_parse_array_exact : forall w els,
  wf (JArr w els) = true ->
  ParseArray (render (JArr w els)) =
  match w, els with
  | [], [] => Ok (Some [])
  | _, _ => match listing w els with Some ts => Ok (Some ts) | None => Panic end
  end.
Proof. exact parse_array_exact. Qed.
Print Assumptions C22_parse_array_exact.

Theorem C22_get_string_array_exact : forall d p w els,
  wf_doc d = true -> lookup (d_val d) p = Some (JArr w els) ->
  (whole d p -> GetStringArray (text d) p =
     match w, els with
     | [], [] => Ok []
     | _, _ => match listing w els with Some ts => Ok ts | None => Panic end
     end) /\
  (~ whole d p -> GetStringArray (text d) p = Err (EStringArrayParse (text d))).
Proof. exact array_getters_exact. Qed.
Print Assumptions C22_get_string_array_exact.

(** The trimming itself, of any text. *)
Theorem C22_cleaning_exact : forall s,
  cleanValueString s = match cleaned s with Some t => Ok t | None => Panic end.
Proof. exact clean_exact. Qed.
Print Assumptions C22_cleaning_exact.

Theorem C22_parse_array_refuted :
  ~ C22_statement /\ ParseArray (b "[ ]") = Ok (Some [b " "]) /\ ParseArray (b "[    ]") = Panic /\
  ParseArray (b "[1 ,2]") = Ok (Some [b "1 "; b "2"]) /\
  GetStringArray (b " [1]") [] = Err (EStringArrayParse (b " [1]")).
Proof.
  split; [|vm_compute; repeat split]. intros [H _]. specialize (H (b " ") [] eq_refl). vm_compute in H. discriminate H.
Qed.
Print Assumptions C22_parse_array_refuted.

Definition ex22 : bytes := b "{""k"":[ 1 , "" ,]\\"" ,[ 2,3 ] , {""a"":[""]""]},null],""e"":[]}".
Example C22_example :
  let d := doc_of ex22 in
  wf_doc d = true /\ text d = ex22 /\
  (exists w els, lookup (d_val d) [b "k"] = Some (JArr w els) /\ els <> [] /\ tight_e w els) /\
  GetStringArray ex22 [b "k"] = Ok [b "1"; b " ,]\\"; b "[ 2,3 ]"; b "{""a"":[""]""]}"; b "null"] /\
  ParseArray (b "[ 1 , "" ,]\"""" ,[ 2,3 ]]") = Ok (Some [b "1"; b " ,]\"""; b "[ 2,3 ]"]) /\
  GetStringArray ex22 [b "e"] = Ok [].
Proof.
  vm_compute. repeat split. do 2 eexists. split; [reflexivity|]. split; [discriminate|].
  split; [left; discriminate|].
  repeat (apply Forall_cons; [first [left; discriminate | right; left; reflexivity | right; right; vm_compute; lia]|]). constructor.
Qed.

Definition ex22x : bytes := b "{""s"":[1 ,2,""  x"", 4 , """" ],""n"":[   ],""f"":[    ],""q"":""[1 ,2]""}".
Example C22_exact_example :
  let d := doc_of ex22x in
  wf_doc d = true /\ text d = ex22x /\
  (exists w els, lookup (d_val d) [b "s"] = Some (JArr w els) /\ listing w els = Some [b "1 "; b "2"; b "  x"; b "4"; b ""]) /\
  lookup (d_val d) [b "n"] = Some (JArr (b "   ") []) /\ lookup (d_val d) [b "f"] = Some (JArr (b "    ") []) /\
  GetStringArray ex22x [b "s"] = Ok [b "1 "; b "2"; b "  x"; b "4"; b ""] /\
  GetStringArray ex22x [b "n"] = Ok [b ""] /\ GetStringArray ex22x [b "f"] = Panic /\
  GetStringArray ex22x [b "q"] = Ok [b "1 "; b "2"] /\
  map cleaned [b ""; b " "; b "ab "; b "a b"; b " ""x"" "; b "x  "; b """"; b "    "] =
    [None; Some (b " "); Some (b "ab"); Some (b "a b"); Some (b "x"); Some (b "x "); None; None].
Proof. vm_compute. repeat split. do 2 eexists. repeat split. Qed.

(** ** C23

    Full statement: false: the empty array makes the integer and boolean getters panic, see
    [C23_typed_arrays_refuted]. *)
Definition C23_statement : Prop := forall d p w els,
  wf_doc d = true -> whole d p -> lookup (d_val d) p = Some (JArr w els) ->
  (forall zs, map atoi (items els) = map Some zs -> GetIntArray (text d) p = Ok zs) /\
  (forall bs, map unbool (items els) = map Some bs -> GetBoolArray (text d) p = Ok bs) /\
  GetIntArray (text d) p <> Panic /\ GetBoolArray (text d) p <> Panic.

Theorem C23_get_int_array_partial : forall d p w els zs,
  wf_doc d = true -> whole d p -> lookup (d_val d) p = Some (JArr w els) -> els <> [] -> tight_e w els ->
  map atoi (items els) = map Some zs -> GetIntArray (text d) p = Ok zs.
Proof. exact get_int_array. Qed.
Print Assumptions C23_get_int_array_partial.

Theorem C23_get_bool_array_partial : forall d p w els bs,
  wf_doc d = true -> whole d p -> lookup (d_val d) p = Some (JArr w els) -> els <> [] -> tight_e w els ->
  map unbool (items els) = map Some bs -> GetBoolArray (text d) p = Ok bs.
Proof. exact get_bool_array. Qed.
Print Assumptions C23_get_bool_array_partial.

(** [pf] is strconv.ParseFloat with results of any type [F]. *)
Theorem C23_get_float_array_partial : forall (F : Type) (pf : bytes -> option F) d p w els fs,
  wf_doc d = true -> whole d p -> lookup (d_val d) p = Some (JArr w els) -> els <> [] -> tight_e w els ->
  map pf (items els) = map Some fs -> GetFloatArray pf (text d) p = Ok fs.
Proof. exact (@get_float_array). Qed.
Print Assumptions C23_get_float_array_partial.

(** The first element that is not an integer is the one reported. *)
Theorem C23_get_int_array_error_partial : forall d p w els l1 t l2 zs,
  wf_doc d = true -> whole d p -> lookup (d_val d) p = Some (JArr w els) -> tight_e w els ->
  items els = l1 ++ t :: l2 -> map atoi l1 = map Some zs -> atoi t = None ->
  GetIntArray (text d) p = Err (EIntegerParse t).
Proof. exact get_int_array_err. Qed.
Print Assumptions C23_get_int_array_error_partial.

(** On every array: the texts [listing] shows are converted from left to right and the first one that fails is
    reported.  The boolean getter trims the text once more when it is the last one. *)
Theorem C23_get_int_array_exact : forall d p w els,
  wf_doc d = true -> lookup (d_val d) p = Some (JArr w els) ->
  (whole d p -> GetIntArray (text d) p =
     match listing w els with
     | None => Panic
     | Some ts => match conversions atoi ts with (l, None) => Ok l | (_, Some t) => Err (EIntegerParse t) end
     end) /\
  (~ whole d p -> GetIntArray (text d) p = Err (EIntegerArrayParse (text d))).
Proof. exact int_array_exact. Qed.
Print Assumptions C23_get_int_array_exact.

Theorem C23_get_float_array_exact : forall (F : Type) (pf : bytes -> option F) d p w els,
  wf_doc d = true -> lookup (d_val d) p = Some (JArr w els) ->
  (whole d p -> GetFloatArray pf (text d) p =
     match listing w els with
     | None => Panic
     | Some ts => match conversions pf ts with (l, None) => Ok l | (_, Some t) => Err (EFloatParse t) end
     end) /\
  (~ whole d p -> GetFloatArray pf (text d) p = Err (EFloatArrayParse (text d))).
Proof. exact (@float_array_exact). Qed.
Print Assumptions C23_get_float_array_exact.

Theorem C23_get_bool_array_exact : forall d p w els,
  wf_doc d = true -> lookup (d_val d) p = Some (JArr w els) ->
  (whole d p -> GetBoolArray (text d) p =
     match listing w els with
     | None => Panic
     | Some ts => match conversions unbool ts with
                  | (l, None) => Ok l
                  | (l, Some t) =>
                      if (S (length l) =? length ts)%nat
                      then match cleaned t with Some t' => Err (EBoolParse t') | None => Panic end
                      else Err (EBoolParse t)
                  end
     end) /\
  (~ whole d p -> GetBoolArray (text d) p = Err (EBoolArrayParse (text d))).
Proof. exact bool_array_exact. Qed.
Print Assumptions C23_get_bool_array_exact.

(** The array getters see only the text of the value: a string counts as the array its contents spell. *)
Theorem C23_array_in_string : forall d p v,
  wf_doc d = true -> p <> [] -> lookup (d_val d) p = Some v ->
  GetStringArray (text d) p = GetStringArray (bare v) [] /\ GetIntArray (text d) p = GetIntArray (bare v) [] /\
  GetBoolArray (text d) p = GetBoolArray (bare v) [] /\
  forall (F : Type) (pf : bytes -> option F), GetFloatArray pf (text d) p = GetFloatArray pf (bare v) [].
Proof. exact array_via_text. Qed.
Print Assumptions C23_array_in_string.

Theorem C23_not_an_array : forall t, hd 0 t <> 91 \/ last t 0 <> 93 ->
  GetStringArray t [] = Err (EStringArrayParse t) /\ GetIntArray t [] = Err (EIntegerArrayParse t) /\
  GetBoolArray t [] = Err (EBoolArrayParse t) /\
  forall (F : Type) (pf : bytes -> option F), GetFloatArray pf t [] = Err (EFloatArrayParse t).
Proof. exact array_unbracketed. Qed.
Print Assumptions C23_not_an_array.

Theorem C23_typed_arrays_refuted :
  ~ C23_statement /\ GetIntArray (b "[]") [] = Panic /\ GetBoolArray (b "[]") [] = Panic /\
  GetBoolArray (b "[""""]") [] = Panic /\ GetIntArray (b "[1 ,2]") [] = Err (EIntegerParse (b "1 ")).
Proof.
  split; [|vm_compute; repeat split]. intro H.
  destruct (H (doc_of (b "[]")) [] [] [] eq_refl ltac:(right; split; reflexivity) eq_refl) as (_ & _ & H1 & _).
  apply H1. reflexivity.
Qed.
Print Assumptions C23_typed_arrays_refuted.

Definition ex23 : bytes := b "{""i"":[ 12,-7 , ""+30"" , 0 ],""b"":[true, false ,""true""],""x"":[1,2,true,3]}".
Example C23_example :
  let d := doc_of ex23 in
  wf_doc d = true /\ text d = ex23 /\
  (exists w els, lookup (d_val d) [b "i"] = Some (JArr w els) /\ els <> [] /\ tight_e w els /\
     map atoi (items els) = map Some [12; -7; 30; 0]%Z) /\
  GetIntArray ex23 [b "i"] = Ok [12; -7; 30; 0]%Z /\ GetBoolArray ex23 [b "b"] = Ok [true; false; true] /\
  GetIntArray ex23 [b "x"] = Err (EIntegerParse (b "true")) /\
  GetBoolArray ex23 [b "x"] = Err (EBoolParse (b "1")) /\
  GetFloatArray atoi ex23 [b "i"] = Ok [12; -7; 30; 0]%Z.
Proof.
  intro d. do 2 (split; [vm_compute; reflexivity|]). split; [|vm_compute; repeat split].
  do 2 eexists. split; [vm_compute; reflexivity|]. split; [discriminate|].
  split; [|vm_compute; reflexivity]. split; [left; discriminate|].
  repeat (apply Forall_cons; [first [left; discriminate | right; left; reflexivity | right; right; vm_compute; lia]|]). constructor.
Qed.

Definition ex23x : bytes := b "{""i"":[12, 7 ,x,""y"",3],""t"":[true, ""  no ""],""m"":[""  no "",true],""p"":[true,""""],""n"":[ ],""z"":[],""q"":""[5,6]"",""o"":{}}".
Example C23_exact_example :
  let d := doc_of ex23x in
  wf_doc d = true /\ text d = ex23x /\
  (exists w els, lookup (d_val d) [b "i"] = Some (JArr w els) /\ listing w els = Some [b "12"; b "7"; b "x"; b "y"; b "3"] /\
     conversions atoi [b "12"; b "7"; b "x"; b "y"; b "3"] = ([12; 7]%Z, Some (b "x"))) /\
  GetIntArray ex23x [b "i"] = Err (EIntegerParse (b "x")) /\
  GetBoolArray ex23x [b "t"] = Err (EBoolParse (b "no")) /\ GetBoolArray ex23x [b "m"] = Err (EBoolParse (b "  no ")) /\
  GetBoolArray ex23x [b "p"] = Panic /\ GetIntArray ex23x [b "n"] = Err (EIntegerParse (b " ")) /\
  GetIntArray ex23x [b "z"] = Panic /\ GetIntArray ex23x [b "q"] = Ok [5; 6]%Z /\
  GetIntArray ex23x [b "o"] = Err (EIntegerArrayParse (b "{}")) /\
  GetFloatArray atoi (b "[1] ") [] = Err (EFloatArrayParse (b "[1] ")).
Proof. vm_compute. repeat split. do 2 eexists. repeat split. Qed.
