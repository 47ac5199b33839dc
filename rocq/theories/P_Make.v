(** Properties C27 (Make functions), C31 and C39 (Scheme). *)
From Coq Require Import String.
From Verif Require Import GoStd Json Spec Parse Domains Core Errors Api Iter SpecIter Rfc RfcProofs Typed TypedProofs Heap SpecScheme Scheme SchemeProofs
  Make MakeProofs.

Local Open Scope N_scope.

(** ** C27

    Full statement: false for empty slices that are not nil ([C27_make_refuted]), and for strings formatType does
    not write properly (C28).  MakeArrayFloat is wrong for most numbers ([C27_floats_refuted]). *)
Definition C27_statement (pf : bytes -> bool) : Prop :=
  (forall zs, denotes (MakeArrayInt (Some zs)) (DArr (map (fun z => DScalar (itoa z)) zs))) /\
  (forall ks vs, length ks = length vs -> Forall (fun k => str_ok k = true) ks -> Forall (fit pf) vs ->
     exists t cs, MakeJsonString pf (Some ks) (Some vs) = Some t /\ denotes t (DObj (combine ks cs)) /\ Forall2 written vs cs).

Theorem C27_make_array_int_partial : forall zs, zs <> [] ->
  denotes (MakeArrayInt (Some zs)) (DArr (map (fun z => DScalar (itoa z)) zs)).
Proof. exact make_array_int. Qed.
Print Assumptions C27_make_array_int_partial.

Theorem C27_make_array_bool_partial : forall vs, vs <> [] ->
  denotes (MakeArrayBool (Some vs)) (DArr (map (fun v => DScalar (bool_text v)) vs)).
Proof. exact make_array_bool. Qed.
Print Assumptions C27_make_array_bool_partial.

Theorem C27_make_array_bytes_partial : forall vs, Forall (fun v => wf v = true) vs -> vs <> [] ->
  denotes (MakeArrayBytes (Some (map render vs))) (DArr (map content vs)).
Proof. exact make_array_bytes. Qed.
Print Assumptions C27_make_array_bytes_partial.

Theorem C27_make_array_string_partial : forall pf ss, ss <> [] -> Forall (fit pf) ss ->
  exists cs, denotes (MakeArrayString pf (Some ss)) (DArr cs) /\ Forall2 written ss cs.
Proof. exact make_array_string. Qed.
Print Assumptions C27_make_array_string_partial.

Theorem C27_make_json_string_partial : forall pf ks vs,
  ks <> [] -> length ks = length vs -> Forall (fun k => str_ok k = true) ks -> Forall (fit pf) vs ->
  exists t cs, MakeJsonString pf (Some ks) (Some vs) = Some t /\ denotes t (DObj (combine ks cs)) /\ Forall2 written vs cs.
Proof. exact make_json_string. Qed.
Print Assumptions C27_make_json_string_partial.

Theorem C27_make_json_with_map_partial : forall pf ps,
  ps <> [] -> Forall (fun kv => str_ok (fst kv) = true /\ fit pf (snd kv)) ps ->
  exists cs, denotes (MakeJsonWithMap pf (Some ps)) (DObj (combine (map fst ps) cs)) /\ Forall2 written (map snd ps) cs.
Proof. exact make_json_with_map. Qed.
Print Assumptions C27_make_json_with_map_partial.

(** Reading back what was put in. *)
Theorem C27_get_from_made_object_partial : forall pf ks vs t k s,
  ks <> [] -> length ks = length vs -> NoDup ks -> Forall (fun k => str_ok k = true) ks -> Forall (fit pf) vs ->
  MakeJsonString pf (Some ks) (Some vs) = Some t -> In (k, s) (combine ks vs) -> Get t [k] = Ok s.
Proof. exact make_json_get. Qed.
Print Assumptions C27_get_from_made_object_partial.

Theorem C27_int_array_round_trip_partial : forall zs, zs <> [] -> Forall (fun z => in_int64 z = true) zs ->
  GetIntArray (MakeArrayInt (Some zs)) [] = Ok zs.
Proof. exact int_array_round_trip. Qed.
Print Assumptions C27_int_array_round_trip_partial.

Theorem C27_bool_array_round_trip_partial : forall bs, bs <> [] -> GetBoolArray (MakeArrayBool (Some bs)) [] = Ok bs.
Proof. exact bool_array_round_trip. Qed.
Print Assumptions C27_bool_array_round_trip_partial.

Theorem C27_string_array_round_trip_partial : forall pf ss, ss <> [] -> Forall (fit pf) ss ->
  GetStringArray (MakeArrayString pf (Some ss)) [] = Ok ss.
Proof. exact string_array_round_trip. Qed.
Print Assumptions C27_string_array_round_trip_partial.

(** RFC 8259 validity, for all strings formatType writes as values (see C28). *)
Theorem C27_made_array_is_valid_partial : forall pf ss, ss <> [] -> Forall (fun s => value (formatType pf s)) ss ->
  json_text (MakeArrayString pf (Some ss)).
Proof. exact make_array_valid. Qed.
Print Assumptions C27_made_array_is_valid_partial.

Theorem C27_made_object_is_valid_partial : forall pf ks vs t,
  ks <> [] -> Forall (fun k => chars k = true) ks -> Forall (fun s => value (formatType pf s)) vs ->
  MakeJsonString pf (Some ks) (Some vs) = Some t -> json_text t.
Proof. exact make_json_valid. Qed.
Print Assumptions C27_made_object_is_valid_partial.

Theorem C27_lengths_must_agree : forall pf ks vs, MakeJsonString pf ks vs = None <-> olen ks <> olen vs.
Proof. exact make_json_lengths. Qed.
Print Assumptions C27_lengths_must_agree.

(** MakeJson and MakeArray print their values with fmt.Sprintf("%v") and go on like the functions for strings; a Scheme uses
    its keys. *)
Theorem C27_printed_values : forall pf ks vs, MakeJson pf ks vs = MakeJsonString pf ks vs /\ MakeArray pf vs = MakeArrayString pf vs /\
  Scheme_MakeJson pf ks vs = MakeJsonString pf ks vs /\ Scheme_MakeJsonString pf ks vs = MakeJsonString pf ks vs.
Proof. exact printed_values. Qed.
Print Assumptions C27_printed_values.

Theorem C27_make_refuted : forall pf,
  ~ C27_statement pf /\
  MakeArrayInt (Some []) = b "]" /\ MakeArrayString pf (Some []) = b "]" /\ MakeArrayBool (Some []) = b "]" /\
  MakeArrayBytes (Some []) = b "]" /\ MakeJsonString pf (Some []) (Some []) = Some (b "}") /\ MakeJsonWithMap pf (Some []) = b "}" /\
  MakeArrayInt None = b "[]" /\ MakeJsonString pf None (Some []) = Some (b "{}").
Proof.
  intro pf. split; [|repeat split]. intros [H _]. destruct (H []) as (d & Hw & Ht & _).
  destruct (parse_doc_complete d Hw) as (d' & Hp & _). rewrite Ht in Hp. vm_compute in Hp. discriminate Hp.
Qed.
Print Assumptions C27_make_refuted.

(** What MakeArrayFloat writes for one number: nothing, or the number if its text after the first two bytes is an
    integer other than zero; it panics on one-byte numbers. *)
Theorem C27_float_text_exact : forall num, forallb (fun c => negb (c =? 101)) num = true ->
  float_item num =
  if (length num <? 2)%nat then Panic
  else match parse_signed (skipn 2 num) with
       | Some z => if (z =? 0)%Z then Ok [] else Ok num
       | None => Ok []
       end.
Proof. exact float_item_exact. Qed.
Print Assumptions C27_float_text_exact.

Theorem C27_floats_refuted :
  MakeArrayFloat (Some [b "1"]) = Panic /\ MakeArrayFloat (Some [b "10"; b "12.5"]) = Ok (b "[,]") /\
  MakeArrayFloat (Some [b "3.14"; b "-1.5"]) = Ok (b "[3.14,]").
Proof. vm_compute. repeat split. Qed.
Print Assumptions C27_floats_refuted.

Definition ex27_pf (s : bytes) : bool := bytes_eqb s (b "1e5") || bytes_eqb s (b "0.5").
Example C27_example :
  MakeArrayInt (Some [0; -1; 9223372036854775807]%Z) = b "[0,-1,9223372036854775807]" /\
  GetIntArray (b "[0,-1,9223372036854775807]") [] = Ok [0; -1; 9223372036854775807]%Z /\
  MakeArrayBool (Some [true; false]) = b "[true,false]" /\
  MakeArrayBytes (Some [b "{""a"":1}"; b """x"""]) = b "[{""a"":1},""x""]" /\
  Forall (fit ex27_pf) [b "1e5"; b "x,\"""; []; b "null"] /\
  MakeArrayString ex27_pf (Some [b "1e5"; b "x,\"""; []; b "null"]) = b "[1e5,""x,\"""","""",null]" /\
  GetStringArray (b "[1e5,""x,\"""","""",null]") [] = Ok [b "1e5"; b "x,\"""; []; b "null"] /\
  MakeJsonString ex27_pf (Some [b "k"; b "é"]) (Some [b "v"; b "-3"]) = Some (b "{""k"":""v"",""é"":-3}") /\
  Get (b "{""k"":""v"",""é"":-3}") [b "é"] = Ok (b "-3") /\ valid (b "{""k"":""v"",""é"":-3}") = true /\
  MakeJsonWithMap ex27_pf (Some [(b "k", b "0.5")]) = b "{""k"":0.5}" /\
  MakeJsonString ex27_pf (Some [b "k"]) (Some []) = None /\ MakeJsonString ex27_pf (Some [b "k"]) (Some [b "v"; b "w"]) = None.
Proof.
  do 4 (split; [reflexivity|]). split; [|vm_compute; repeat split].
  repeat (constructor; [split; [reflexivity|split; [vm_compute; congruence|reflexivity]]|]). constructor.
Qed.

(** ** C31 *)

(** Every call of any history shows, and leaves behind, what the plain lists of SpecScheme say; [grow] is Go's
    choice of capacities, [h] and [ks] the caller's memory and the slice given to MakeScheme. *)
Theorem C31_history : forall grow h ks ops h' s' xs, slc_ok h ks -> sch_run grow ops h (MakeScheme ks) = (h', s', xs) ->
  spec_run ops (view h ks, view h ks) = ((view h' (GetOriginalKeys s'), view h' (GetCurrentKeys s')), xs).
Proof. exact scheme_history. Qed.
Print Assumptions C31_history.

Theorem C31_restore_brings_back_the_saved_keys : forall ops o ks, Forall (fun op => op <> SSave) ops ->
  fst (spec_run (SSave :: ops ++ [SRestore]) (o, ks)) = (ks, ks).
Proof. exact restore_brings_back. Qed.
Print Assumptions C31_restore_brings_back_the_saved_keys.

Theorem C31_saved_keys_are_never_disturbed : forall grow h ks ops1 h1 s1 xs1 ops2 h2 s2 xs2, slc_ok h ks ->
  sch_run grow ops1 h (MakeScheme ks) = (h1, s1, xs1) -> sch_run grow ops2 h1 s1 = (h2, s2, xs2) ->
  view h2 (GetOriginalKeys s1) = view h1 (GetOriginalKeys s1).
Proof. exact saved_keys_stay. Qed.
Print Assumptions C31_saved_keys_are_never_disturbed.

Theorem C31_current_keys_stay_until_restore : forall grow h ks ops1 h1 s1 xs1 ops2 h2 s2 xs2, slc_ok h ks ->
  sch_run grow ops1 h (MakeScheme ks) = (h1, s1, xs1) -> sch_run grow ops2 h1 s1 = (h2, s2, xs2) -> ~ In SRestore ops2 ->
  view h2 (GetCurrentKeys s1) = view h1 (GetCurrentKeys s1).
Proof. exact current_keys_stay. Qed.
Print Assumptions C31_current_keys_stay_until_restore.

Theorem C31_callers_slices_are_left_alone : forall grow h ks ops h' s' xs t, slc_ok h ks -> slc_ok h t ->
  (s_arr t = s_arr ks -> s_end t <= s_end ks)%nat -> sch_run grow ops h (MakeScheme ks) = (h', s', xs) ->
  view h' t = view h t.
Proof. exact other_slices_stay. Qed.
Print Assumptions C31_callers_slices_are_left_alone.

(** Without the two conditions (no Restore; not beyond the given slice) lists do change under their owner. *)
Definition ex31_grow (n : nat) : nat := n.   (* doubling, as Go does for short slices *)
Definition ex31_heap : heap := [[b "a"; b "x"]].
Theorem C31_current_keys_refuted :
  (exists ops1 h1 s1 xs1 ops2 h2 s2 xs2,
     sch_run ex31_grow ops1 ex31_heap (MakeScheme (Slc 0 0 1 1)) = (h1, s1, xs1) /\
     sch_run ex31_grow ops2 h1 s1 = (h2, s2, xs2) /\
     view h1 (GetCurrentKeys s1) = [b "a"; b "b"; b "c"; b "d"] /\ view h2 (GetCurrentKeys s1) = [b "a"; b "b"; b "c"; b "e"]) /\
  (exists h2 s2 xs2, sch_run ex31_grow [SAdd (b "b")] ex31_heap (MakeScheme (Slc 0 0 1 2)) = (h2, s2, xs2) /\
     view ex31_heap (Slc 0 0 2 2) = [b "a"; b "x"] /\ view h2 (Slc 0 0 2 2) = [b "a"; b "b"]).
Proof.
  split.
  - exists [SAdd (b "b"); SAdd (b "c"); SSave; SAdd (b "d")]. do 3 eexists. exists [SRestore; SAdd (b "e")]. do 3 eexists.
    split; [vm_compute; reflexivity|]. split; [vm_compute; reflexivity|]. split; vm_compute; reflexivity.
  - do 3 eexists. split; [vm_compute; reflexivity|]. split; vm_compute; reflexivity.
Qed.
Print Assumptions C31_current_keys_refuted.

Definition ex31_ops : list sop :=
  [SAdd (b "b"); SAdd (b "b"); SAdd (b "a"); SAdd (b "c"); SSave; SRemove (b "a"); SRemove (b "z"); SAdd (b "d"); SCurrent; SRestore; SOriginal; SCurrent].
Example C31_example :
  slc_ok ex31_heap (Slc 0 0 1 2) /\
  snd (spec_run ex31_ops ([b "a"], [b "a"])) =
    [ShBool true; ShBool false; ShBool false; ShBool true; ShNone; ShBool true; ShBool false; ShBool true; ShKeys [b "b"; b "c"; b "d"]; ShNone;
     ShKeys [b "a"; b "b"; b "c"]; ShKeys [b "a"; b "b"; b "c"]] /\
  snd (sch_run ex31_grow ex31_ops ex31_heap (MakeScheme (Slc 0 0 1 2))) = snd (spec_run ex31_ops ([b "a"], [b "a"])).
Proof. split; [unfold slc_ok; cbn; lia|]. vm_compute. split; reflexivity. Qed.

(** ** C39

    Full statement about MutateJsonAbs: false, formatType turns strings that read as numbers or literals into
    numbers and literals ([C39_mutate_refuted]).  What is kept is what Get reads. *)
Definition C39_statement (pf : bytes -> bool) : Prop := forall d ks cs,
  wf_doc d = true -> usable ks -> Forall2 (fun k c => d_lookup (content (d_val d)) [k] = Some c) ks cs ->
  exists t, MutateJsonAbs pf ks (text d) = Ok t /\ denotes t (DObj (combine ks cs)).

Theorem C39_check : forall ks json, Check ks json = Ok true <-> Forall (fun k => exists v, Get json [k] = Ok v) ks.
Proof. exact check_spec. Qed.
Print Assumptions C39_check.

Theorem C39_check_present : forall d ks, wf_doc d = true -> Forall (fun k => lookup (d_val d) [k] <> None) ks ->
  Check ks (text d) = Ok true.
Proof. exact check_present. Qed.
Print Assumptions C39_check_present.

Theorem C39_check_absent_partial : forall d ks1 k ks2, wf_doc d = true ->
  Forall (fun k => lookup (d_val d) [k] <> None) ks1 -> seen_absent d [] k -> Check (ks1 ++ k :: ks2) (text d) = Ok false.
Proof. exact check_absent. Qed.
Print Assumptions C39_check_absent_partial.

Theorem C39_check_abs_partial : forall d w ms ks, wf_doc d = true -> d_val d = JObj w ms -> text d <> b "{}" ->
  exists r, CheckAbs ks (text d) = Ok r /\ (r = true <-> length ms = length ks /\ incl (keys ms) ks).
Proof. exact check_abs_spec. Qed.
Print Assumptions C39_check_abs_partial.

Theorem C39_check_abs_same_keys_partial : forall d w ms ks,
  wf_doc d = true -> d_val d = JObj w ms -> text d <> b "{}" -> NoDup (keys ms) ->
  (CheckAbs ks (text d) = Ok true <-> NoDup ks /\ forall k, In k (keys ms) <-> In k ks).
Proof. exact check_abs_set. Qed.
Print Assumptions C39_check_abs_same_keys_partial.

Theorem C39_check_abs_not_an_object : forall d v ks, wf_doc d = true -> d_val d = v -> is_obj v = false ->
  CheckAbs ks (text d) = Ok false.
Proof. exact check_abs_not_object. Qed.
Print Assumptions C39_check_abs_not_an_object.

Theorem C39_check_abs_two_bytes : forall ks, CheckAbs ks (b "{}") = Ok false.
Proof. exact (fun _ => eq_refl). Qed.
Print Assumptions C39_check_abs_two_bytes.

Theorem C39_mutate_abs_partial : forall pf d, wf_doc d = true -> forall ks vs, usable ks -> Forall2 (takes pf d) ks vs ->
  exists w ms, wf (JObj w ms) = true /\ MutateJsonAbs pf ks (text d) = Ok (render (JObj w ms)) /\ keys ms = ks /\ values ms = vs /\
    Forall2 (fun k v => Get (text d) [k] = Ok v) ks vs.
Proof. exact mutate_abs_ok. Qed.
Print Assumptions C39_mutate_abs_partial.

Theorem C39_mutate_abs_missing_key_partial : forall pf d, wf_doc d = true -> forall ks vs k r e,
  usable ks -> Forall2 (takes pf d) ks vs -> Get (text d) [k] = Err e -> MutateJsonAbs pf (ks ++ k :: r) (text d) = Err e.
Proof. exact mutate_abs_err. Qed.
Print Assumptions C39_mutate_abs_missing_key_partial.

Theorem C39_mutate_partial : forall pf d, wf_doc d = true -> forall ks vs, usable ks -> Forall2 (takes_or_empty pf d) ks vs ->
  exists w ms, wf (JObj w ms) = true /\ MutateJson pf ks (text d) = Ok (Some (render (JObj w ms))) /\ keys ms = ks /\ values ms = vs.
Proof. exact mutate_ok. Qed.
Print Assumptions C39_mutate_partial.

Theorem C39_format_type_is_idempotent : forall pf s, formatType pf (formatType pf s) = formatType pf s.
Proof. exact formatType_idem. Qed.
Print Assumptions C39_format_type_is_idempotent.

Theorem C39_mutate_refuted : forall pf,
  ~ C39_statement pf /\ MutateJsonAbs pf [b "a"] (b "{""a"":""5""}") = Ok (b "{""a"":5}") /\
  MutateJson pf [b "a"; b "a"] (b "{""a"":5}") = Ok None /\ CheckAbs [] (b "{}") = Ok false.
Proof.
  intro pf. split; [|repeat split]. intro H.
  destruct (H (doc_of (b "{""a"":""5""}")) [b "a"] [DString (b "5")] eq_refl) as (t & Ht & d & Hw & Hd & Hc).
  - split; [repeat constructor; intros []|]. repeat constructor. discriminate.
  - repeat constructor.
  - change (MutateJsonAbs pf [b "a"] (text (doc_of (b "{""a"":""5""}")))) with (Ok (b "{""a"":5}")) in Ht. injection Ht as <-.
    destruct (parse_doc_complete d Hw) as (d' & Hp & Hc'). rewrite Hd in Hp. vm_compute in Hp. injection Hp as <-.
    rewrite Hc in Hc'. discriminate Hc'.
Qed.
Print Assumptions C39_mutate_refuted.

Definition ex39 : bytes := b "{ ""a"" : ""x\"""" , ""b"":[1, 2 ], ""c"" : null,""d"":""z"" }".
Example C39_example :
  let d := doc_of ex39 in
  wf_doc d = true /\ text d = ex39 /\ usable [b "b"; b "a"] /\ Forall2 (takes ex27_pf d) [b "b"; b "a"] [b "[1, 2 ]"; b "x\"""] /\
  MutateJsonAbs ex27_pf [b "b"; b "a"] ex39 = Ok (b "{""b"":[1, 2 ],""a"":""x\""""}") /\
  Get ex39 [b "q"] = Err (EKeyNotFound (b "q")) /\ MutateJsonAbs ex27_pf [b "b"; b "q"; b "a"] ex39 = Err (EKeyNotFound (b "q")) /\
  seen_absent d [] (b "q") /\
  MutateJson ex27_pf [b "b"; b "q"; b "a"] ex39 = Ok (Some (b "{""b"":[1, 2 ],""q"":"""",""a"":""x\""""}")) /\
  Check [b "b"; b "d"] ex39 = Ok true /\ Check [b "b"; b "q"] ex39 = Ok false /\
  CheckAbs [b "d"; b "b"; b "a"; b "c"] ex39 = Ok true /\ CheckAbs [b "d"; b "b"; b "a"; b "q"] ex39 = Ok false /\
  CheckAbs [b "d"; b "b"; b "a"] ex39 = Ok false /\ CheckAbs [b "d"; b "b"; b "a"; b "c"; b "q"] ex39 = Ok false /\ CheckAbs [] (b "[]") = Ok false.
Proof.
  cbv zeta. split; [reflexivity|]. split; [reflexivity|].
  split; [split; repeat constructor; try discriminate; cbn; intuition discriminate|].
  split; [|split; [vm_compute; reflexivity|split; [vm_compute; reflexivity|split; [vm_compute; reflexivity|split; [apply seen_absent_b_sound; vm_compute; reflexivity|vm_compute; repeat split]]]]].
  repeat constructor.
  - apply (T_present ex27_pf (doc_of ex39) (b "b") (JArr [] [Elem [] (JScalar (b "1")) []; Elem (b " ") (JScalar (b "2")) (b " ")])); [reflexivity|exact I|reflexivity].
  - apply (T_present ex27_pf (doc_of ex39) (b "a") (JString (b "x\"""))); [reflexivity| |reflexivity]. split; [vm_compute; congruence|reflexivity].
Qed.
