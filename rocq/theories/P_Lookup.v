(** Properties C01 - C04: lookups. *)
From Coq Require Import String.
From Verif Require Import GoStd Json Spec Parse Focus Domains Core Api History ApiProofs Updates.

Local Open Scope N_scope.

(** ** C01 *)
Theorem C01_get_returns_addressed_value : forall d p v,
  wf_doc d = true -> p <> [] -> lookup (d_val d) p = Some v ->
  Get (text d) p = Ok (bare v).
Proof. exact get_present. Qed.
Print Assumptions C01_get_returns_addressed_value.

Definition ex1 : bytes := b " { ""a"" : [1, {""b\"""" : "" x,}\"" "" , ""c"":[ ]}, null ] ,""a"":2} ".
Example C01_example :
  wf_doc (doc_of ex1) = true /\ text (doc_of ex1) = ex1 /\
  lookup (d_val (doc_of ex1)) [b "a"; b "1"; b "b\"""] = Some (JString (b " x,}\"" ")) /\
  Get ex1 [b "a"; b "1"; b "b\"""] = Ok (b " x,}\"" ") /\
  lookup (d_val (doc_of ex1)) [b "a"; b "+1"] <> None /\
  Get ex1 [b "a"; b "+1"] = Ok (b "{""b\"""" : "" x,}\"" "" , ""c"":[ ]}").
Proof. vm_compute. repeat split; discriminate. Qed.

(** Every path of a rich document. *)
Definition ex_tab : bytes := [9; 10; 13; 32].
Definition ex1b : bytes :=
  ex_tab ++ b "{""ab"":1,""a"":{""x\\"":{""k"":[[],[ ""\\"",""["" , ""]"",[1 ,2]] ,{""q"":"",""}]}, ""y"":" ++ ex_tab ++ b "-1e5" ++
  ex_tab ++ b "},""b"":[{""ba"":{""b"":{""a"":""\"""",""c"":[true]}}},""\\\\"",[[[ null ]]]]}".
Example C01_example_all :
  let d := doc_of ex1b in
  wf_doc d = true /\ text d = ex1b /\ length (all_paths (d_val d)) = 28%nat /\
  forallb (fun p => match p, lookup (d_val d) p, Get ex1b p with
                    | [], _, _ => true
                    | _, Some v, Ok r => bytes_eqb r (bare v)
                    | _, _, _ => false
                    end) (all_paths (d_val d)) = true.
Proof. vm_compute. repeat split. Qed.

(** ** C02 *)
Theorem C02_bad_array_step : forall d q x rest w els,
  wf_doc d = true -> lookup (d_val d) q = Some (JArr w els) ->
  (atoi x = None -> Get (text d) (q ++ x :: rest) = Err EIndexExpected) /\
  (forall z, atoi x = Some z -> nth_z els z = None ->
     Get (text d) (q ++ x :: rest) =
     Err (match els, rest with
          | [], [] => if (z =? 0)%Z then EEmptyArray else EIndexOutOfRange
          | _, _ => EIndexOutOfRange
          end)).
Proof. exact get_bad_step. Qed.
Print Assumptions C02_bad_array_step.

Example C02_example :
  let d := doc_of (b "{""a"":[1, [] ,{""b"":2}]}") in
  wf_doc d = true /\ (exists w els, lookup (d_val d) [b "a"] = Some (JArr w els) /\
     nth_z els 3%Z = None /\ nth_z els (-1)%Z = None) /\
  (exists w, lookup (d_val d) [b "a"; b "1"] = Some (JArr w [])) /\
  atoi (b "-1") = Some (-1)%Z /\ atoi (b "b") = None /\
  Get (text d) [b "a"; b "-1"] = Err EIndexOutOfRange /\
  Get (text d) [b "a"; b "3"; b "b"] = Err EIndexOutOfRange /\
  Get (text d) [b "a"; b "1"; b "0"] = Err EEmptyArray /\
  Get (text d) [b "a"; b "b"] = Err EIndexExpected /\
  Get (b "[[1],[2,3],[4]]") [b "0"; b "1"] = Err EIndexOutOfRange /\
  Get (b "[[1],[2,3],[4]]") [b "1"; b "2"] = Err EIndexOutOfRange.
Proof. vm_compute. repeat split; eexists; try eexists; repeat split. Qed.

(** ** C03

    Full statement: false, see [C03_absent_key_refuted].  [C03_absent_key_exact] says which lookups fail as they should and which
    return the value of a member of another object, and of which.  Missing: texts in which there are brackets inside strings
    where the scanner reads on without recognising strings ([Unclear]), when the text ["x"] does occur in the document. *)
Definition C03_statement : Prop := forall d q x w ms,
  wf_doc d = true -> lookup (d_val d) q = Some (JObj w ms) -> find_mem x ms = None ->
  Get (text d) (q ++ [x]) = Err (EKeyNotFound x).

Theorem C03_absent_key_partial : forall d q x rest,
  wf_doc d = true -> seen_absent d q x -> Get (text d) (q ++ x :: rest) = Err (EKeyNotFound x).
Proof. exact get_seen_absent. Qed.
Print Assumptions C03_absent_key_partial.

Theorem C03_absent_key_exact : forall d q x w ms,
  wf_doc d = true -> lookup (d_val d) q = Some (JObj w ms) -> find_mem x ms = None ->
  match stray_at (d_val d) q x with
  | Nowhere => Get (text d) (q ++ [x]) = Err (EKeyNotFound x)
  | Stray v => Get (text d) (q ++ [x]) = Ok (bare v)
  | Unclear => True
  end.
Proof. exact get_absent. Qed.
Print Assumptions C03_absent_key_exact.

(** Set overwrites the value found there. *)
Theorem C03_set_stray : forall d q x w ms v,
  wf_doc d = true -> lookup (d_val d) q = Some (JObj w ms) -> find_mem x ms = None -> stray_at (d_val d) q x = Stray v ->
  forall new, exists A B, text d = A ++ render v ++ B /\ Set_ (text d) new (q ++ [x]) = Done (A ++ new ++ B).
Proof. exact set_strayed. Qed.
Print Assumptions C03_set_stray.

Definition ex3 : bytes := b "{""u"":[{""a"":1}, ""]"" , [""["",[2]], {""k"":3}, {""k"":4,""l"":[5],""k"":6}],""v"":{},""w"":{""z"":7}}".
Example C03_exact_example :
  let d := doc_of ex3 in
  wf_doc d = true /\ (exists w ms, lookup (d_val d) [b "u"; b "0"] = Some (JObj w ms) /\ find_mem (b "k") ms = None) /\
  stray_at (d_val d) [b "u"; b "0"] (b "k") = Stray (JScalar (b "3")) /\ Get ex3 [b "u"; b "0"; b "k"] = Ok (b "3") /\
  stray_at (d_val (doc_of (b "[{}, ""]"",1]"))) [b "0"] (b "k") = Unclear /\
  stray_at (d_val d) [b "u"; b "3"] (b "l") = Stray (JArr [] [Elem [] (JScalar (b "5")) []]) /\ Get ex3 [b "u"; b "3"; b "l"] = Ok (b "[5]") /\
  stray_at (d_val d) [b "u"; b "3"] (b "m") = Nowhere /\ Get ex3 [b "u"; b "3"; b "m"] = Err (EKeyNotFound (b "m")) /\
  stray_at (d_val d) [b "v"] (b "z") = Stray (JScalar (b "7")) /\ Get ex3 [b "v"; b "z"] = Ok (b "7") /\
  stray_at (d_val d) [] (b "z") = Nowhere /\ Get ex3 [b "z"] = Err (EKeyNotFound (b "z")) /\
  Set_ ex3 (b "8") [b "u"; b "0"; b "k"] =
    Done (b "{""u"":[{""a"":1}, ""]"" , [""["",[2]], {""k"":8}, {""k"":4,""l"":[5],""k"":6}],""v"":{},""w"":{""z"":7}}").
Proof. vm_compute. repeat split. do 2 eexists. split; reflexivity. Qed.

Theorem C03_absent_key_refuted :
  ~ C03_statement /\
  Get (b "{""x"":{""a"":1},""y"":{""b"":5,""c"":6}}") [b "x"; b "c"] = Ok (b "6") /\
  Get (b "[{""a"":1},{""b"":2,""c"":3}]") [b "0"; b "c"] = Ok (b "3") /\
  Get (b "{""x"":{},""y"":{""z"":1}}") [b "x"; b "z"] = Ok (b "1") /\
  Get (b "{""b"":{""q"":""}"","":x"":""y""}}") [b ","] = Ok (b "x"":""y""").
Proof.
  split; [|vm_compute; repeat split].
  intro H. specialize (H (doc_of (b "{""x"":{""a"":1},""y"":{""b"":5,""c"":6}}")) [b "x"] (b "c")).
  vm_compute in H. specialize (H _ _ eq_refl eq_refl eq_refl). discriminate H.
Qed.
Print Assumptions C03_absent_key_refuted.

Example C03_example :
  let d := doc_of (b "{""u"":[{""a"":1}, {""c"":2, ""d"":{""e"":3}} ],""z"":{""k"":{}}}") in
  wf_doc d = true /\ seen_absent d [] (b "none") /\ seen_absent d [b "z"] (b "a") /\
  Get (text d) [b "z"; b "a"] = Err (EKeyNotFound (b "a")) /\
  let e := doc_of (b "{""x"":{""a"":1},""y"":{""c"":6}}") in
  wf_doc e = true /\ seen_absent e [b "x"] (b "b") /\ Get (text e) [b "x"; b "b"] = Err (EKeyNotFound (b "b")) /\
  let e := doc_of (b "{""x"":{},""yy"":{""c"":6}}") in
  wf_doc e = true /\ seen_absent e [] (b "y") /\ Get (text e) [b "y"; b "c"] = Err (EKeyNotFound (b "y")) /\
  let e := doc_of (b "{""x"":[{}, ""k"" ,{""k"" : [ ]}, 2, {""c"":{""q"":[""k""]}}],""z"":{""k"":1}, ""w"":[]}") in
  wf_doc e = true /\
  seen_absent e [b "x"; b "4"] (b "k") /\ seen_absent e [b "z"] (b "q") /\
  Get (text e) [b "x"; b "4"; b "k"] = Err (EKeyNotFound (b "k")) /\ Get (text e) [b "z"; b "q"] = Err (EKeyNotFound (b "q")).
Proof.
  intro d. split; [reflexivity|]. split; [apply seen_absent_b_sound; reflexivity|].
  split; [apply seen_absent_b_sound; reflexivity|]. split; [reflexivity|].
  intro e. split; [reflexivity|]. split; [apply seen_absent_b_sound; reflexivity|]. split; [reflexivity|].
  intro e'. split; [reflexivity|]. split; [apply seen_absent_b_sound; reflexivity|]. split; [reflexivity|].
  intro e2. split; [reflexivity|]. split; [apply seen_absent_b_sound; vm_compute; reflexivity|].
  split; [apply seen_absent_b_sound; vm_compute; reflexivity|]. split; reflexivity.
Qed.

(** ** C04

    Full statement: false, see [C04_below_value_refuted].  Missing: members after which the search goes on into some
    later container.  What it finds there is in [C04_below_value_exact]; undetermined ([Unclear]) are strings and keys with brackets
    on the way to that container, and a container that does not have the rest of the path either. *)
Definition C04_statement : Prop := forall d q x rest v,
  wf_doc d = true -> q <> [] -> lookup (d_val d) q = Some v -> container v = false ->
  exists e, Get (text d) (q ++ x :: rest) = Err e.

Theorem C04_below_value_partial : forall d p,
  wf_doc d = true -> seen_below d p -> exists e, Get (text d) p = Err e.
Proof. exact get_seen_below. Qed.
Print Assumptions C04_below_value_partial.

(** What is found instead.  ([C04_set_below]: and overwritten.) *)
Theorem C04_below_value_exact : forall d q x p v w ms,
  wf_doc d = true -> lookup (d_val d) q = Some (JObj w ms) -> lookup (d_val d) (q ++ [x]) = Some v -> container v = false -> p <> [] ->
  match below_at (d_val d) q x p with
  | Nowhere => exists e, Get (text d) (q ++ x :: p) = Err e
  | Stray u => Get (text d) (q ++ x :: p) = Ok (bare u)
  | Unclear => True
  end.
Proof. exact get_below_at. Qed.
Print Assumptions C04_below_value_exact.

Theorem C04_set_below : forall d q x p v w ms u new,
  wf_doc d = true -> lookup (d_val d) q = Some (JObj w ms) -> lookup (d_val d) (q ++ [x]) = Some v -> container v = false -> p <> [] ->
  below_at (d_val d) q x p = Stray u ->
  exists A B, text d = A ++ render u ++ B /\ Set_ (text d) new (q ++ x :: p) = Done (A ++ new ++ B).
Proof. exact set_below_at. Qed.
Print Assumptions C04_set_below.

Definition ex4 : bytes := b "{""u"":[{""a"":1,""c"":""s"" , ""d"":{""k"":[5,6]}},2,{""k"":3,""l"":4,""e"":[{""z"":8,""k"":[9]}]}, [7]],""v"":null}".
Example C04_exact_example :
  let d := doc_of ex4 in
  let u q := [b "u"; q] in
  wf_doc d = true /\ (exists w ms, lookup (d_val d) (u (b "0")) = Some (JObj w ms)) /\ lookup (d_val d) (u (b "0") ++ [b "a"]) = Some (JScalar (b "1")) /\
  below_at (d_val d) (u (b "0")) (b "a") [b "k"; b "1"] = Stray (JScalar (b "6")) /\ Get ex4 [b "u"; b "0"; b "a"; b "k"; b "1"] = Ok (b "6") /\
  below_at (d_val d) (u (b "2")) (b "l") [b "1"] = Nowhere /\ Get ex4 [b "u"; b "2"; b "l"; b "1"] = Err EIndexOutOfRange /\
  below_at (d_val d) (u (b "2")) (b "l") [b "0"; b "k"] = Stray (JArr [] [Elem [] (JScalar (b "9")) []]) /\
  Get ex4 [b "u"; b "2"; b "l"; b "0"; b "k"] = Ok (b "[9]") /\
  below_at (d_val d) [] (b "v") [b "k"] = Nowhere /\ Get ex4 [b "v"; b "k"] = Err (EKeyNotFound (b "v")) /\
  Set_ (b "[{""a"":1},{""e"":{""k"":0},""k"":2},3]") (b "true") [b "0"; b "a"; b "k"] = Done (b "[{""a"":1},{""e"":{""k"":true},""k"":2},3]") /\
  (let d := doc_of (b "[{""a"":1},{""e"":{""k"":0},""k"":2},3]") in
   below_at (d_val d) [b "0"] (b "a") [b "k"] = Stray (JScalar (b "0")) /\ below_at (d_val d) [b "0"] (b "a") [b "e"] = Nowhere).
Proof. vm_compute. repeat split. do 2 eexists. reflexivity. Qed.

Theorem C04_below_value_refuted :
  ~ C04_statement /\ Get (b "{""a"":""x"",""b"":{""c"":1}}") [b "a"; b "c"] = Ok (b "1").
Proof.
  split; [|reflexivity]. intro H.
  destruct (H (doc_of (b "{""a"":""x"",""b"":{""c"":1}}")) [b "a"] (b "c") [] (JString (b "x")) eq_refl ltac:(discriminate) eq_refl eq_refl) as (e & He).
  vm_compute in He. discriminate He.
Qed.
Print Assumptions C04_below_value_refuted.

Example C04_example :
  let d := doc_of (b "{""a"":[1,""s""],""k"": true }") in
  wf_doc d = true /\ seen_below d [b "a"; b "1"; b "x"] /\ seen_below d [b "k"; b "x"; b "y"] /\
  Get (text d) [b "a"; b "1"; b "x"] = Err EIndexOutOfRange /\
  Get (text d) [b "k"; b "x"; b "y"] = Err (EKeyNotFound (b "k")).
Proof.
  intro d. split; [reflexivity|]. split; [|split; [|split; reflexivity]].
  - left. exists [b "a"], (b "1"), (b "x"), [], [], [Elem [] (JScalar (b "1")) []], (Elem [] (JString (b "s")) []), [].
    eexists _, _. split; [reflexivity|]. split; [apply focus_at_sound; vm_compute; reflexivity|]. split; reflexivity.
  - right; left. exists [], (b "x"), [b "y"], [], [Mem [] (b "a") [] [] (JArr [] [Elem [] (JScalar (b "1")) []; Elem [] (JString (b "s")) []]) []],
      (Mem [] (b "k") [] (b " ") (JScalar (b "true")) (b " ")), [].
    eexists _, _. split; [reflexivity|]. split; [apply focus_at_sound; vm_compute; reflexivity|].
    split; [repeat constructor; discriminate|reflexivity].
Qed.
