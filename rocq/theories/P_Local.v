(** Property C50 (a lookup reads no further than the value). *)
From Coq Require Import String.
From Verif Require Import GoStd Json Parse Focus Core Errors Api Iter SpecIter SpecList SpecLocal IterMisc LocalApi.

Local Open Scope N_scope.

(** ** C50

    Everywhere below the text is [before ++ render v ++ rest]: it agrees with the document [d] up to the end of the
    value [v] at [p], and then goes on as it likes; [over] asks that a number, true, false or null be followed by a
    blank, a comma or a closing bracket, since otherwise it would be another token.  All three bytes strings are
    arbitrary otherwise: the text may break off, be followed by another document or by garbage. *)
Theorem C50_get : forall d p v before rest, wf_doc d = true -> p <> [] -> opens d p v before -> over v rest ->
  Get (before ++ render v ++ rest) p = Ok (bare v).
Proof. exact get_over. Qed.
Print Assumptions C50_get.

(** The typed getters answer as on the document. *)
Theorem C50_typed : forall d p v before rest, wf_doc d = true -> p <> [] -> opens d p v before -> over v rest ->
  let J := before ++ render v ++ rest in
  GetString J p = GetString (text d) p /\ GetInt J p = GetInt (text d) p /\ GetBool J p = GetBool (text d) p /\
  GetStringArray J p = GetStringArray (text d) p /\ GetIntArray J p = GetIntArray (text d) p /\
  GetBoolArray J p = GetBoolArray (text d) p /\
  forall (F : Type) (pf : bytes -> option F),
    GetFloat pf J p = GetFloat pf (text d) p /\ GetFloatArray pf J p = GetFloatArray pf (text d) p.
Proof. exact typed_over. Qed.
Print Assumptions C50_typed.

(** Set replaces the value and nothing else. *)
Theorem C50_set : forall d p v before rest new, wf_doc d = true -> p <> [] -> opens d p v before -> over v rest ->
  Set_ (before ++ render v ++ rest) new p = Done (before ++ new ++ rest).
Proof. exact set_over. Qed.
Print Assumptions C50_set.

(** The type tests need no more than the first byte of the value, GetType of a token all of it. *)
Theorem C50_type_tests : forall d p v before rest, wf_doc d = true -> p <> [] -> opens d p v before ->
  IsArray (before ++ hd 0 (render v) :: rest) p = Ok (is_arr v) /\
  IsObject (before ++ hd 0 (render v) :: rest) p = Ok (container v) /\
  IsValue (before ++ hd 0 (render v) :: rest) p = Ok (negb (container v)).
Proof. exact is_array_over. Qed.
Print Assumptions C50_type_tests.

Theorem C50_get_type : forall pf d p v before rest, wf_doc d = true -> p <> [] -> opens d p v before -> over v rest ->
  GetType pf (before ++ render v ++ rest) p =
  Ok (match v with
      | JArr _ _ => TArray | JObj _ _ => TObject | JString _ => TString
      | JScalar s => token_type pf s
      end).
Proof. exact get_type_over. Qed.
Print Assumptions C50_get_type.

(** Length and IsEmpty (which takes a container with one byte inside for empty, see C19). *)
Theorem C50_length : forall d p v before rest, wf_doc d = true -> p <> [] -> opens d p v before -> container v = true ->
  Length (before ++ render v ++ rest) p = Ok (size v).
Proof. exact length_over. Qed.
Print Assumptions C50_length.

Theorem C50_is_empty : forall d p v before rest, wf_doc d = true -> p <> [] -> opens d p v before -> container v = true ->
  IsEmpty (before ++ render v ++ rest) p = Ok ((size v =? 0)%nat || lone v).
Proof. exact is_empty_over. Qed.
Print Assumptions C50_is_empty.

(** The listings (values trimmed and empty containers shown as in C13 to C15) and the iterations stop at the closing bracket. *)
Theorem C50_keys : forall d p w ms before rest, wf_doc d = true -> p <> [] -> opens d p (JObj w ms) before ->
  GetKeys (before ++ render (JObj w ms) ++ rest) p = Ok (keys ms).
Proof. exact get_keys_over. Qed.
Print Assumptions C50_keys.

Theorem C50_values : forall d p w ms before rest, wf_doc d = true -> p <> [] -> opens d p (JObj w ms) before ->
  GetValues (before ++ render (JObj w ms) ++ rest) p = Ok (match ms with [] => [123 :: firstn 1 w] | _ => listed_values ms end) /\
  GetKeysValues (before ++ render (JObj w ms) ++ rest) p =
    Ok (keys ms, match ms with [] => [123 :: firstn 1 w] | _ => listed_values ms end).
Proof. exact get_values_over. Qed.
Print Assumptions C50_values.

Theorem C50_iterate_key_value : forall (St : Type) (cb : St -> bytes -> bytes -> St * (bool * option err)) d p w ms before rest s,
  wf_doc d = true -> p <> [] -> opens d p (JObj w ms) before ->
  IterateKeyValue (before ++ render (JObj w ms) ++ rest) cb p s =
  IDone (fst (visit (uncurry2 cb) (object_pairs ms) s)) (snd (visit (uncurry2 cb) (removelast (object_pairs ms)) s)).
Proof. exact @iterate_kv_over. Qed.
Print Assumptions C50_iterate_key_value.

Theorem C50_iterate_array : forall (St : Type) (cb : St -> bytes -> St * (bool * option err)) d p w els before rest s,
  wf_doc d = true -> p <> [] -> opens d p (JArr w els) before ->
  IterateArray (before ++ render (JArr w els) ++ rest) cb p s =
  IDone (fst (visit cb (array_items w els) s)) (snd (visit cb (array_items w els) s)).
Proof. exact @iterate_array_over. Qed.
Print Assumptions C50_iterate_array.

(** A text that breaks off inside the value is an error of Get and of Set, which leaves it alone; the error names the
    place where the value begins. *)
Theorem C50_broken : forall d p v before q, wf_doc d = true -> p <> [] -> opens d p v before -> broken v q ->
  Get (before ++ q) p = Err (EBadJSON (length before)) /\
  forall new, Set_ (before ++ q) new p = Fail (Some (before ++ q)) (EBadJSON (length before)).
Proof. exact both_broken. Qed.
Print Assumptions C50_broken.

(** A document, the text before the array at a, and what may follow the array. *)
Definition ex50 : doc := doc_of (b "{ ""a"" : [ 1 , {""k"":""x]}y""} ], ""b"" : 2}").
Definition ex50_a : jv := match lookup (d_val ex50) [b "a"] with Some v => v | None => JString [] end.
Definition ex50_before : bytes := b "{ ""a"" : ".

Example C50_example :
  wf_doc ex50 = true /\ opens ex50 [b "a"] ex50_a ex50_before /\ render ex50_a = b "[ 1 , {""k"":""x]}y""} ]" /\
  (* nothing, another document, garbage *)
  over ex50_a [] /\ over ex50_a (b "}{""a"":7}") /\ over ex50_a (b """ ]]") /\
  Get (b "{ ""a"" : [ 1 , {""k"":""x]}y""} ]") [b "a"] = Ok (b "[ 1 , {""k"":""x]}y""} ]") /\
  Set_ (b "{ ""a"" : [ 1 , {""k"":""x]}y""} ]"" ]]") (b "0") [b "a"] = Done (b "{ ""a"" : 0"" ]]") /\
  Length (b "{ ""a"" : [ 1 , {""k"":""x]}y""} ]}{""a"":7}") [b "a"] = Ok 2%nat /\
  IsArray (b "{ ""a"" : [") [b "a"] = Ok true /\
  broken ex50_a (b "[ 1 , {""k"":""x]") /\
  Get (b "{ ""a"" : [ 1 , {""k"":""x]") [b "a"] = Err (EBadJSON 8).
Proof.
  split; [vm_compute; reflexivity|]. split.
  { exists (b "{ ""a"" : "), (b ", ""b"" : 2}"). split; [|reflexivity].
    vm_compute. exact (F_obj _ [] _ _ [] [] _ [] (Forall_nil _) (F_nil _)). }
  repeat (split; [vm_compute; reflexivity || exact I|]).
  split; [|vm_compute; reflexivity].
  split; [discriminate|]. exists (b "}y""} ]"). split; [vm_compute; reflexivity|vm_compute; discriminate].
Qed.

(** The number at b is not over where the text ends. *)
Example C50_token_example :
  broken (JScalar (b "2")) (b "2") /\ Get (b "{ ""a"" : [], ""b"" : 2") [b "b"] = Err (EBadJSON 18) /\
  Get (b "{ ""a"" : [], ""b"" : 2 ") [b "b"] = Ok (b "2").
Proof.
  split; [|vm_compute; split; reflexivity]. split; [discriminate|]. exists []. split; [reflexivity|exact I].
Qed.
