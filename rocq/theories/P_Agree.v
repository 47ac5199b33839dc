(** Property C52: the reading functions agree with one another, on every text. *)
From Coq Require Import String.
From Verif Require Import GoStd Errors Core Api Iter GoFloat SpecAgree Agree.
From Verif Require Import Json Parse SpecIter TypeExact.

Local Open Scope N_scope.

(** ** C52

    No theorem of this file but [C52_length_on_documents] says anything about the text: it need not be JSON, and the calls may fail.

    Full statement: false in two places.  The length and the emptiness test do not look at the same bytes, so
    that the empty text is only one half of what they say ([C52_length_partial], [C52_length_refuted]), and the
    readers of numeric arrays panic on [[]], where the reader of strings answers with no strings. *)
Definition C52_length_statement : Prop := forall json path n, Length json path = Ok n ->
  forall e, IsEmpty json path = Ok e -> e = (n =? 0)%nat.

Theorem C52_keys_values : forall json path, zipped (GetKeysValues json path) (GetKeys json path) (GetValues json path).
Proof. exact keys_values_zipped. Qed.
Print Assumptions C52_keys_values.

Theorem C52_is_value : forall json path, IsValue json path = rmap negb (IsObject json path).
Proof. exact value_is_not_object. Qed.
Print Assumptions C52_is_value.

Theorem C52_types : forall pf json path t, GetType pf json path = Ok t ->
  IsArray json path = Ok (is_tarray t) /\ IsObject json path = Ok (is_container t) /\ IsValue json path = Ok (negb (is_container t)).
Proof. exact type_agrees. Qed.
Print Assumptions C52_types.

(** What the typed getters accept is of that type, or a string with that text. *)
Theorem C52_bool : forall pf json path x, GetBool json path = Ok x ->
  GetType pf json path = Ok TBoolean \/ (GetType pf json path = Ok TString /\ path <> []).
Proof. exact bool_type. Qed.
Print Assumptions C52_bool.

Theorem C52_int : forall pf json path z, GetInt json path = Ok z ->
  GetType pf json path = Ok TNumber \/ (GetType pf json path = Ok TString /\ path <> []).
Proof. exact int_type. Qed.
Print Assumptions C52_int.

Theorem C52_float : forall json path x, GetFloat ParseFloat json path = Ok x ->
  GetType float_ok json path = Ok TNumber \/ (GetType float_ok json path = Ok TString /\ path <> []).
Proof. exact float_type. Qed.
Print Assumptions C52_float.

(** The typed array getters are GetStringArray with every element parsed, except on the empty array. *)
Theorem C52_int_array : forall json path l, GetIntArray json path = Ok l <->
  Get json path <> Ok (b "[]") /\ exists ts, GetStringArray json path = Ok ts /\ read_as atoi ts l.
Proof. exact int_array_reads. Qed.
Print Assumptions C52_int_array.

Theorem C52_float_array : forall F (pf : bytes -> option F) json path l, GetFloatArray pf json path = Ok l <->
  Get json path <> Ok (b "[]") /\ exists ts, GetStringArray json path = Ok ts /\ read_as pf ts l.
Proof. exact float_array_reads. Qed.
Print Assumptions C52_float_array.

Theorem C52_bool_array : forall json path l, GetBoolArray json path = Ok l <->
  Get json path <> Ok (b "[]") /\ exists ts, GetStringArray json path = Ok ts /\ read_as bool_word ts l.
Proof. exact bool_array_reads. Qed.
Print Assumptions C52_bool_array.

Theorem C52_length_partial : forall json path, Length json path = Ok 0%nat -> IsEmpty json path <> Ok false.
Proof. exact length_zero_empty. Qed.
Print Assumptions C52_length_partial.

(** One byte between the brackets is not looked at, and both answer as for an empty array; with more bytes, Length looks at one byte
    more than IsEmpty. *)
Theorem C52_length_refuted : ~ C52_length_statement /\
  IsEmpty (b "{""a"":[1]}") [b "a"] = Ok true /\ Length (b "{""a"":[1]}") [b "a"] = Ok 1%nat /\
  IsEmpty (b "[,]") [] = Ok true /\ Length (b "[,]") [] = Ok 2%nat.
Proof.
  split; [|split; [|split; [|split]]]; [|vm_compute; reflexivity|vm_compute; reflexivity|vm_compute; reflexivity|vm_compute; reflexivity].
  intro H. specialize (H (b "{""a"":[1]}") [b "a"] 1%nat). assert (X := H eq_refl true eq_refl). discriminate X.
Qed.
Print Assumptions C52_length_refuted.

(** On documents they agree exactly at the root and where no single byte is the only element, right before the bracket. *)
Theorem C52_length_on_documents : forall d p v n e, wf_doc d = true -> lookup (d_val d) p = Some v -> container v = true ->
  Length (text d) p = Ok n -> IsEmpty (text d) p = Ok e -> (e = (n =? 0)%nat <-> p = [] \/ lone v = false).
Proof. exact length_empty. Qed.
Print Assumptions C52_length_on_documents.
Example C52_length_example :
  let d := doc_of (b "[[1],[1 ],{}]") in
  wf_doc d = true /\ lone (d_val d) = false /\ option_map lone (lookup (d_val d) [b "0"]) = Some true /\ option_map lone (lookup (d_val d) [b "1"]) = Some false /\
  map (Length (text d)) [[]; [b "0"]; [b "1"]; [b "2"]] = map Ok [3; 1; 1; 0]%nat /\
  map (IsEmpty (text d)) [[]; [b "0"]; [b "1"]; [b "2"]] = map Ok [false; true; false; true].
Proof. vm_compute. repeat split. Qed.

(** A text that is no JSON, a key of which stands twice. *)
Definition ex_agree : bytes := b " {""a"": ""12"" , ""b"":[1, ""2"",3],""a"":tru, ""c"":true,""d"":-4.5e1,""e"":[ ],""f"":[true,""false""]}}".
Example C52_example :
  GetKeys ex_agree [] = Ok [b "a"; b "b"; b "a"; b "c"; b "d"; b "e"; b "f"] /\
  GetKeysValues (b "{""a"":1]") [] = Ok ([b "a"], [b "1"]) /\
  GetInt ex_agree [b "a"] = Ok 12%Z /\ GetType float_ok ex_agree [b "a"] = Ok TString /\
  GetBool ex_agree [b "c"] = Ok true /\ GetType float_ok ex_agree [b "c"] = Ok TBoolean /\
  GetFloat ParseFloat ex_agree [b "d"] = Ok (Fin true 6333186975989760 1027) /\ GetType float_ok ex_agree [b "d"] = Ok TNumber /\
  GetIntArray ex_agree [b "b"] = Ok [1; 2; 3]%Z /\ GetStringArray ex_agree [b "b"] = Ok [b "1"; b "2"; b "3"] /\
  GetBoolArray ex_agree [b "f"] = Ok [true; false] /\
  GetIntArray (b "[]") [] = Panic /\ GetStringArray (b "[]") [] = Ok [] /\
  Length ex_agree [b "e"] = Ok 0%nat /\ IsEmpty ex_agree [b "e"] = Ok true.
Proof. vm_compute. repeat split. Qed.
