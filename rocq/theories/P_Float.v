(** Property C49: floating-point numbers.  And what C17, C24, C28 and C41 say when strconv.ParseFloat is the function of
    GoFloat.v instead of a parameter. *)
From Coq Require Import String.
From Verif Require Import GoStd Json Spec Parse Domains Errors Core Api Rfc RfcProofs Iter Typed TypedProofs SpecNumber GoFloat FloatProofs FloatApi TypeExact.

Local Open Scope N_scope.

(** ** C49

    Full statement: false for the infinities and NaN, for which something is written that is not JSON
    ([C49_infinity_refuted]), and as for the other writers when the path does not resolve but the scanner finds
    something all the same (C24).  The theorems below are about positions that exist in the document; for StoreFloat the key must
    be present or visibly absent, and InsertFloat needs the layout of C10. *)
Definition C49_statement : Prop := forall d p x t out,
  wf_doc d = true -> json_text (text d) -> formats x t -> SetFloat (text d) t p = Done out -> GetFloat ParseFloat out p = Ok x /\ json_text out.

(** Every finite float64 has a text, and it is a number of RFC 8259. *)
Theorem C49_every_float_is_written : forall neg m u, is_float64 m u -> exists t, formats (Fin neg m u) t.
Proof. exact (fun neg m u H => every_float neg m u (proj2 (finite_ok_iff m u) H)). Qed.
Print Assumptions C49_every_float_is_written.

Theorem C49_text_is_json : forall neg m u t, formats (Fin neg m u) t -> number_ok t = true.
Proof. exact formats_number. Qed.
Print Assumptions C49_text_is_json.

Theorem C49_set_float_partial : forall d p x t,
  wf_doc d = true -> formats x t -> p <> [] -> lookup (d_val d) p <> None ->
  exists out, SetFloat (text d) t p = Done out /\ GetFloat ParseFloat out p = Ok x.
Proof. exact set_float. Qed.
Print Assumptions C49_set_float_partial.

Theorem C49_add_float_partial : forall d p x t w els,
  wf_doc d = true -> formats x t -> lookup (d_val d) p = Some (JArr w els) -> in_int64 (Z.of_nat (length els)) = true ->
  exists out, AddFloat (text d) t p = Done out /\ GetFloat ParseFloat out (p ++ [itoa (Z.of_nat (length els))]) = Ok x.
Proof. exact add_float. Qed.
Print Assumptions C49_add_float_partial.

Theorem C49_add_key_value_float_partial : forall d p k x t w ms out,
  wf_doc d = true -> formats x t -> str_ok k = true -> lookup (d_val d) p = Some (JObj w ms) ->
  AddKeyValueFloat (text d) k t p = Done out -> GetFloat ParseFloat out (p ++ [k]) = Ok x.
Proof. exact add_kv_float. Qed.
Print Assumptions C49_add_key_value_float_partial.

Theorem C49_store_float_partial : forall d p k x t w ms,
  wf_doc d = true -> formats x t -> str_ok k = true -> lookup (d_val d) p = Some (JObj w ms) ->
  (d_lookup (content (d_val d)) (p ++ [k]) <> None \/ seen_absent d p k) ->
  exists out, StoreFloat (text d) k t p = Done out /\ GetFloat ParseFloat out (p ++ [k]) = Ok x.
Proof. exact store_float. Qed.
Print Assumptions C49_store_float_partial.

Theorem C49_insert_float_partial : forall d p i x t w els,
  wf_doc d = true -> formats x t -> (i <= int64_max)%Z ->
  lookup (d_val d) p = Some (JArr w els) -> insert_layout els i -> nth_z els i <> None ->
  exists out, InsertFloat (text d) i t p = Done out /\ GetFloat ParseFloat out (p ++ [itoa i]) = Ok x.
Proof. exact insert_float. Qed.
Print Assumptions C49_insert_float_partial.

(** A number in a document is read as the nearest float64, or refused when it is beyond the largest one.  (An exponent
    of six digits or more is cut by strconv.) *)
Theorem C49_get_float : forall d p x,
  wf_doc d = true -> p <> [] -> lookup (d_val d) p = Some (JScalar (number_text x)) ->
  number_wf x = true -> (Z.abs (exponent_of x) < 100000)%Z ->
  (too_large (numerator x) (denominator x) /\ GetFloat ParseFloat (text d) p = Err (EFloatParse (number_text x))) \/
  (~ too_large (numerator x) (denominator x) /\
   exists m u, nearest (numerator x) (denominator x) m u /\ GetFloat ParseFloat (text d) p = Ok (Fin (n_neg x) m u)).
Proof. exact read_float. Qed.
Print Assumptions C49_get_float.

(** [number_text] reaches every number of RFC 8259, and nothing else. *)
Theorem C49_numbers : forall s, number_ok s = true <-> exists x, number_wf x = true /\ number_text x = s.
Proof. exact (fun s => conj (number_parts s) (fun '(ex_intro _ x (conj H E)) => eq_ind _ (fun t => number_ok t = true) (number_valid x H) _ E)). Qed.
Print Assumptions C49_numbers.

(** The rounding of the model is the one of the documentation of strconv. *)
Theorem C49_rounding : forall n d, 0 < d -> match round64 n d with Some (m, u) => nearest n d m u | None => too_large n d end.
Proof. exact round64_spec. Qed.
Print Assumptions C49_rounding.

Theorem C49_infinity_refuted :
  ~ C49_statement /\ SetFloat (b "[1]") (b "+Inf") [b "0"] = Done (b "[+Inf]") /\ valid (b "[+Inf]") = false /\
  SetFloat (b "[1]") (b "NaN") [b "0"] = Done (b "[NaN]") /\ valid (b "[NaN]") = false /\
  GetFloat ParseFloat (b "[+Inf]") [b "0"] = Ok (Inf false) /\ GetFloat ParseFloat (b "[NaN]") [b "0"] = Ok NaN.
Proof.
  split; [|vm_compute; repeat split]. intro H.
  destruct (H (doc_of (b "[1]")) [b "0"] (Inf false) (b "+Inf") (b "[+Inf]") eq_refl (proj2 (valid_spec (b "[1]")) eq_refl) (conj eq_refl eq_refl) eq_refl) as [_ J].
  apply valid_spec in J. discriminate J.
Qed.
Print Assumptions C49_infinity_refuted.

Definition ex49 : bytes := b " { ""a"" : [ ""x"" , {""k"":-3.5E1} ] , ""e"" : [ ] , ""big"":1e309, ""m"":1.7976931348623157e308} ".
Definition ex49_tenth : number := Number false (b "0") (Some (b "1")) None.
Example C49_example :
  let d := doc_of ex49 in let x := Fin false 7205759403792794 1018 in
  wf_doc d = true /\ formats x (b "0.1") /\ formats (Fin true 1 0) (number_text (Number true (b "0") (Some (repeat 48 323 ++ b "5")) None)) /\
  formats (Fin true 0 0) (b "-0") /\ formats (Inf true) (b "-Inf") /\
  nearest (numerator ex49_tenth) (denominator ex49_tenth) 7205759403792794 1018 /\ ~ is_float64 1 1 /\
  SetFloat ex49 (b "0.1") [b "a"; b "1"; b "k"] = Done (b " { ""a"" : [ ""x"" , {""k"":0.1} ] , ""e"" : [ ] , ""big"":1e309, ""m"":1.7976931348623157e308} ") /\
  lookup (d_val d) [b "a"; b "1"; b "k"] = Some (JScalar (number_text (Number true (b "3") (Some (b "5")) (Some (69, [], b "1"))))) /\
  GetFloat ParseFloat ex49 [b "a"; b "1"; b "k"] = Ok (Fin true 4925812092436480 1027) /\
  GetFloat ParseFloat ex49 [b "m"] = Ok (Fin false (2 ^ 53 - 1) 2045) /\
  GetFloat ParseFloat ex49 [b "big"] = Err (EFloatParse (b "1e309")) /\
  AddFloat ex49 (b "-0") [b "e"] = Done (b " { ""a"" : [ ""x"" , {""k"":-3.5E1} ] , ""e"" : [ -0] , ""big"":1e309, ""m"":1.7976931348623157e308} ").
Proof.
  cbv zeta. split; [vm_compute; reflexivity|]. split; [split; [vm_compute; reflexivity|exists ex49_tenth; repeat split]|].
  split; [split; [vm_compute; reflexivity|exists (Number true (b "0") (Some (repeat 48 323 ++ b "5")) None); repeat split; vm_compute; reflexivity]|].
  split; [split; [vm_compute; reflexivity|exists (Number true (b "0") None None); repeat split]|].
  split; [split; vm_compute; reflexivity|].
  split; [exact (round64_spec (numerator ex49_tenth) (denominator ex49_tenth) eq_refl)|].
  split; [intros (_ & _ & [H|H]); [apply H; reflexivity|discriminate H]|].
  vm_compute. repeat split.
Qed.

(** ** C17: GetType of a number *)
Theorem C17_get_type_of_a_number : forall d p x,
  wf_doc d = true -> lookup (d_val d) p = Some (JScalar (number_text x)) ->
  number_wf x = true -> (Z.abs (exponent_of x) < 100000)%Z -> p <> [] \/ (d_pre d = [] /\ d_post d = []) ->
  (too_large (numerator x) (denominator x) /\ GetType float_ok (text d) p = Ok TString) \/
  (~ too_large (numerator x) (denominator x) /\ GetType float_ok (text d) p = Ok TNumber).
Proof. exact type_number. Qed.
Print Assumptions C17_get_type_of_a_number.

(** On every value of every document: a token is judged by its text, at the root with the blanks around it ... *)
Theorem C17_get_type_exact : forall pf d p v, wf_doc d = true -> lookup (d_val d) p = Some v ->
  GetType pf (text d) p = Ok (match v with
    | JArr _ _ => TArray | JObj _ _ => TObject | JString _ => TString
    | JScalar s => let t := match p with [] => text d | _ => s end in
        if bytes_eqb t (b "true") || bytes_eqb t (b "false") then TBoolean
        else if bytes_eqb t (b "null") then TNull
        else match atoi t with Some _ => TNumber | None => if pf t then TNumber else TString end
    end).
Proof. exact get_type_exact. Qed.
Print Assumptions C17_get_type_exact.
(** ... which make it a string. *)
Theorem C17_get_type_blanks : forall d s, wf_doc d = true -> d_val d = JScalar s -> d_pre d <> [] \/ d_post d <> [] ->
  GetType float_ok (text d) [] = Ok TString.
Proof. exact get_type_blanks. Qed.
Print Assumptions C17_get_type_blanks.
Example C17_blanks_example :
  let d := doc_of (b " 7 ") in
  wf_doc d = true /\ d_val d = JScalar (b "7") /\ d_pre d <> [] /\ lookup (d_val d) [] = Some (JScalar (b "7")) /\
  GetType float_ok (b " 7 ") [] = Ok TString /\ GetType float_ok (b "7") [] = Ok TNumber.
Proof. vm_compute. repeat split. discriminate. Qed.

Example C17_number_example :
  let d := doc_of ex49 in
  lookup (d_val d) [b "big"] = Some (JScalar (number_text (Number false (b "1") None (Some (101, [], b "309"))))) /\
  GetType float_ok ex49 [b "big"] = Ok TString /\ GetType float_ok ex49 [b "m"] = Ok TNumber /\
  GetType float_ok ex49 [b "a"; b "1"; b "k"] = Ok TNumber.
Proof. vm_compute. repeat split. Qed.

(** ** C24: the text of an integer is a number of RFC 8259 *)
Theorem C24_text_is_json : forall z, number_ok (itoa z) = true.
Proof. exact itoa_number. Qed.
Print Assumptions C24_text_is_json.

Example C24_text_example : itoa (-9223372036854775808) = b "-9223372036854775808" /\ itoa 0 = b "0" /\ number_ok (b "007") = false.
Proof. vm_compute. repeat split. Qed.

(** ** C28: which strings are written as JSON

    A string that may stand between quotes as it is: exactly the numerals of Go that are not JSON numbers, and the
    strings fenced by brackets that are not JSON, go wrong.  Any other string: exactly JSON values go right. *)
Theorem C28_string_exact : forall s, chars s = true ->
  (value (formatType float_ok s) <->
   (float_ok s = true -> number_ok s = true \/ zero_led s = true) /\ (fenced s = true -> value s)).
Proof. exact formatType_exact. Qed.
Print Assumptions C28_string_exact.

Theorem C28_other_strings : forall s, chars s = false -> (value (formatType float_ok s) <-> value s).
Proof. exact formatType_other. Qed.
Print Assumptions C28_other_strings.

Theorem C28_numerals_refuted :
  forallb (fun s => negb (valid (formatType float_ok s)))
    [b "nan"; b "Inf"; b "Infinity"; b "-inf"; b "+5"; b ".5"; b "5."; b "00.5"; b "0x1p-2"; b "0x_1p-2"; b "1_000.5"; b "1e5_0"] = true /\
  SetString float_ok (b "{""name"":""x""}") (b "Nan") [b "name"] = Done (b "{""name"":Nan}").
Proof. vm_compute. repeat split. Qed.
Print Assumptions C28_numerals_refuted.

Example C28_exact_example :
  map float_ok [b "1e309"; b "0x1"; b "1__0"; b "-nan"; b "007"; b "1e5"; b "abc"; b "-0.5"] = [false; false; false; false; true; true; false; true] /\
  map (formatType float_ok) [b "1e309"; b "0x1"; b "007"; b "1e5"; b "-nan"] = [b """1e309"""; b """0x1"""; b """007"""; b "1e5"; b """-nan"""] /\
  zero_led (b "007") = true /\ chars (b "0x1") = true /\ chars (b "a""") = false.
Proof. vm_compute. repeat split. Qed.
Example C28_underscores_example :
  map float_ok [b "1_0"; b "0x_1p0"; b "0x1_ap0"; b "1_e5"; b "1_.5"; b "1._5"; b "_1"; b "1_"; b "0x1_p0"; b "0x1p_0"; b "0_x1p0"; b "0b_1"] =
  [true; true; true; false; false; false; false; false; false; false; false; false].
Proof. vm_compute. reflexivity. Qed.

(** ** C41 without a condition on ParseFloat *)
Theorem C41_set_string_go : forall d p s,
  wf_doc d = true -> str_ok s = true -> fenced s = false -> p <> [] -> lookup (d_val d) p <> None ->
  exists out, SetString float_ok (text d) s p = Done out /\ GetString out p = Ok s.
Proof. exact (fun d p s Hw Hs Hf => set_string float_ok d p s Hw Hs (ParseFloat_token s) Hf). Qed.
Print Assumptions C41_set_string_go.

Theorem C41_add_string_go : forall d p s w els,
  wf_doc d = true -> str_ok s = true -> fenced s = false ->
  lookup (d_val d) p = Some (JArr w els) -> in_int64 (Z.of_nat (length els)) = true ->
  exists out, AddString float_ok (text d) s p = Done out /\ GetString out (p ++ [itoa (Z.of_nat (length els))]) = Ok s.
Proof. exact (fun d p s w els Hw Hs Hf => add_string float_ok d p s Hw Hs (ParseFloat_token s) Hf w els). Qed.
Print Assumptions C41_add_string_go.

Theorem C41_add_key_value_string_go : forall d p s k w ms out,
  wf_doc d = true -> str_ok s = true -> fenced s = false -> str_ok k = true -> lookup (d_val d) p = Some (JObj w ms) ->
  AddKeyValueString float_ok (text d) k s p = Done out -> GetString out (p ++ [k]) = Ok s.
Proof. exact (fun d p s k w ms out Hw Hs Hf => add_kv_string float_ok d p s Hw Hs (ParseFloat_token s) Hf k w ms out). Qed.
Print Assumptions C41_add_key_value_string_go.

Theorem C41_insert_string_go_partial : forall d p s i w els,
  wf_doc d = true -> str_ok s = true -> fenced s = false ->
  (i <= int64_max)%Z -> lookup (d_val d) p = Some (JArr w els) -> insert_layout els i -> nth_z els i <> None ->
  exists out, InsertString float_ok (text d) i s p = Done out /\ GetString out (p ++ [itoa i]) = Ok s.
Proof. exact (fun d p s i w els Hw Hs Hf => insert_string float_ok d p s Hw Hs (ParseFloat_token s) Hf i w els). Qed.
Print Assumptions C41_insert_string_go_partial.

Theorem C41_store_string_go_partial : forall d p s k w ms,
  wf_doc d = true -> str_ok s = true -> fenced s = false -> str_ok k = true -> lookup (d_val d) p = Some (JObj w ms) ->
  (d_lookup (content (d_val d)) (p ++ [k]) <> None \/ seen_absent d p k) ->
  exists out, StoreString float_ok (text d) k s p = Done out /\ GetString out (p ++ [k]) = Ok s.
Proof. exact (fun d p s k w ms Hw Hs Hf => store_string float_ok d p s Hw Hs (ParseFloat_token s) Hf k w ms). Qed.
Print Assumptions C41_store_string_go_partial.

Example C41_go_example :
  wf_doc (doc_of (b "{""a"":[1]}")) = true /\ str_ok (b "NaN") = true /\ fenced (b "NaN") = false /\
  AddString float_ok (b "{""a"":[1]}") (b "NaN") [b "a"] = Done (b "{""a"":[1,NaN]}") /\ GetString (b "{""a"":[1,NaN]}") [b "a"; b "1"] = Ok (b "NaN") /\
  SetString float_ok (b "{""a"":[1]}") (b "1e400") [b "a"] = Done (b "{""a"":""1e400""}").
Proof. vm_compute. repeat split. Qed.
