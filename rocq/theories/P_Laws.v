(** Properties C43 and C44: laws between the calls.  Statements only; the proofs are in [Laws] and [Layout]. *)
From Coq Require Import String.
From Verif Require Import GoStd Json Spec Parse Focus Domains Errors Core Api SpecFormat Format SpecIter SpecList Iter Ops Laws Layout LayoutRead SpecLayout.
From Verif Require LayoutAbsent LayoutWalk SpecWalk Walk SpecParser FormatProofs.

Local Open Scope N_scope.

(** ** C43  Laws of the updates.

    What is put in place by one call is taken back by another, a later call hides an earlier one, and calls at places
    that part can be made in either order: always byte for byte.

    Full statement: the three families below with no condition on the layout.  False for Insert and for renaming back
    ([C43_undo_refuted]); the partial theorems exclude Insert before the last element when whitespace precedes it
    (the domain of C10) and say of SetKey only what it gives when it accepts. *)
Definition C43_statement : Prop :=
  (forall d p z w els v e, wf_doc d = true -> wf v = true -> (z <= int64_max)%Z ->
     lookup (d_val d) p = Some (JArr w els) -> nth_z els z = Some e ->
     exists out, Insert (text d) z (render v) p = Done out /\ Delete out (p ++ [itoa z]) = Done (text d)) /\
  (forall d q x k w ms m out, wf_doc d = true -> str_ok k = true ->
     lookup (d_val d) q = Some (JObj w ms) -> find_mem x ms = Some m -> find_mem k ms = None ->
     SetKey (text d) k (q ++ [x]) = Done out -> SetKey out x (q ++ [k]) = Done (text d)).

(** *** Setting *)
Theorem C43_set_what_is_there : forall d p v,
  wf_doc d = true -> p <> [] -> lookup (d_val d) p = Some v -> Set_ (text d) (render v) p = Done (text d).
Proof. exact set_same. Qed.
Print Assumptions C43_set_what_is_there.

Theorem C43_set_twice : forall d p v v1 new,
  wf_doc d = true -> wf v1 = true -> p <> [] -> lookup (d_val d) p = Some v ->
  exists out, Set_ (text d) (render v1) p = Done out /\ Set_ out new p = Set_ (text d) new p.
Proof. exact set_twice. Qed.
Print Assumptions C43_set_twice.

(** *** Undoing *)
Theorem C43_add_undone : forall d p w els v,
  wf_doc d = true -> wf v = true -> lookup (d_val d) p = Some (JArr w els) -> (Z.of_nat (length els) <= int64_max)%Z ->
  exists out, Add_ (text d) (render v) p = Done out /\ Delete out (p ++ [itoa (Z.of_nat (length els))]) = Done (text d).
Proof. exact add_undone. Qed.
Print Assumptions C43_add_undone.

Theorem C43_add_key_value_undone : forall d p k value w ms out,
  wf_doc d = true -> wf (value_text value) = true -> str_ok k = true ->
  lookup (d_val d) p = Some (JObj w ms) -> find_mem k ms = None ->
  AddKeyValue (text d) k (option_map render value) p = Done out -> Delete out (p ++ [k]) = Done (text d).
Proof. exact add_pair_undone. Qed.
Print Assumptions C43_add_key_value_undone.

Theorem C43_insert_undone_partial : forall d p z w els v out,
  wf_doc d = true -> wf v = true -> (z <= int64_max)%Z ->
  lookup (d_val d) p = Some (JArr w els) -> nth_z els z <> None -> insert_layout els z ->
  Insert (text d) z (render v) p = Done out -> Delete out (p ++ [itoa z]) = Done (text d).
Proof. exact insert_undone. Qed.
Print Assumptions C43_insert_undone_partial.

Theorem C43_set_key_undone_partial : forall d q x k w ms out out2,
  wf_doc d = true -> str_ok k = true ->
  lookup (d_val d) q = Some (JObj w ms) -> find_mem x ms <> None -> find_mem k ms = None ->
  SetKey (text d) k (q ++ [x]) = Done out -> SetKey out x (q ++ [k]) = Done out2 -> out2 = text d.
Proof. exact setkey_undone. Qed.
Print Assumptions C43_set_key_undone_partial.

Theorem C43_undo_refuted :
  ~ C43_statement /\
  Insert (b "[1, 2]") 1 (b "9") [] = Done (b "[1,,9 2]") /\ (exists e, Delete (b "[1,,9 2]") [b "1"] = Fail (Some (b "[1,,9 2]")) e) /\
  SetKey (b "{""x"":{""c"":1},""y"":{""b"":5,""c"":6}}") (b "k") [b "x"; b "c"] = Done (b "{""x"":{""k"":1},""y"":{""b"":5,""c"":6}}") /\
  SetKey (b "{""x"":{""k"":1},""y"":{""b"":5,""c"":6}}") (b "c") [b "x"; b "k"] =
    Fail (Some (b "{""x"":{""k"":1},""y"":{""b"":5,""c"":6}}")) (EBadJSON 0).
Proof.
  split; [|split; [reflexivity|split; [eexists; vm_compute; reflexivity|vm_compute; split; reflexivity]]]. intros [H _].
  destruct (H (doc_of (b "[1, 2]")) [] 1%Z _ _ (JScalar (b "9")) _ eq_refl eq_refl ltac:(discriminate) eq_refl eq_refl) as (out & H1 & H2).
  vm_compute in H1. injection H1 as <-. vm_compute in H2. discriminate H2.
Qed.
Print Assumptions C43_undo_refuted.

(** *** Hiding: what happened at or below a place does not matter once it is set or deleted. *)
Theorem C43_set_hides : forall d o p q c new,
  wf_doc d = true -> legal d o -> meaning o (content (d_val d)) = Some c -> place o = p ++ q -> p <> [] ->
  exists out, call o (text d) = Done out /\ Set_ out new p = Set_ (text d) new p.
Proof. exact set_hides. Qed.
Print Assumptions C43_set_hides.

Theorem C43_delete_hides : forall d o p x q c,
  wf_doc d = true -> legal d o -> meaning o (content (d_val d)) = Some c -> place o = (p ++ [x]) ++ q ->
  exists out, call o (text d) = Done out /\ Delete out (p ++ [x]) = Delete (text d) (p ++ [x]).
Proof. exact delete_hides. Qed.
Print Assumptions C43_delete_hides.

(** *** Order *)
Theorem C43_sets_commute : forall d p q v1 v2,
  wf_doc d = true -> wf v1 = true -> wf v2 = true ->
  lookup (d_val d) p <> None -> lookup (d_val d) q <> None -> apart (content (d_val d)) p q ->
  exists out1 out2 out, Set_ (text d) (render v1) p = Done out1 /\ Set_ out1 (render v2) q = Done out /\
                        Set_ (text d) (render v2) q = Done out2 /\ Set_ out2 (render v1) p = Done out.
Proof. exact sets_commute. Qed.
Print Assumptions C43_sets_commute.

(** Set, Delete and Add, each at its place. *)
Theorem C43_plain_commute : forall d o1 o2 c1 c2,
  wf_doc d = true -> plain_op o1 -> plain_op o2 ->
  meaning o1 (content (d_val d)) = Some c1 -> meaning o2 (content (d_val d)) = Some c2 ->
  apart (content (d_val d)) (place o1) (place o2) ->
  exists out, run [o1; o2] (text d) = Some out /\ run [o2; o1] (text d) = Some out.
Proof. exact plain_ops_commute. Qed.
Print Assumptions C43_plain_commute.

(** All seven, when every call is in the domain of its own theorem at the time it is made. *)
Theorem C43_commute : forall d o1 o2 c1 c2,
  wf_doc d = true ->
  meaning o1 (content (d_val d)) = Some c1 -> meaning o2 (content (d_val d)) = Some c2 ->
  apart (content (d_val d)) (place o1) (place o2) ->
  legal d o1 -> legal d o2 ->
  (forall d1, wf_doc d1 = true -> call o1 (text d) = Done (text d1) -> content (d_val d1) = c1 -> legal d1 o2) ->
  (forall d2, wf_doc d2 = true -> call o2 (text d) = Done (text d2) -> content (d_val d2) = c2 -> legal d2 o1) ->
  exists out, run [o1; o2] (text d) = Some out /\ run [o2; o1] (text d) = Some out.
Proof. exact ops_commute. Qed.
Print Assumptions C43_commute.

(** Two members of one object: the contents agree; the whitespace need not ([C43_example]). *)
Theorem C43_deletes_commute : forall d p x y w ms,
  wf_doc d = true -> lookup (d_val d) p = Some (JObj w ms) -> x <> y ->
  find_mem x ms <> None -> find_mem y ms <> None ->
  exists da db, run [ODelete p x; ODelete p y] (text d) = Some (text da) /\
    run [ODelete p y; ODelete p x] (text d) = Some (text db) /\
    wf_doc da = true /\ wf_doc db = true /\ content (d_val da) = content (d_val db).
Proof. exact deletes_commute. Qed.
Print Assumptions C43_deletes_commute.

Definition ex43 : bytes := b "{""a"" : [1, ""x"" ,{} ] , ""o"":{ ""k"":1 , ""l"" : 2  , ""m"":3 } }".
Example C43_example :
  let d := doc_of ex43 in
  wf_doc d = true /\ text d = ex43 /\
  (exists w els, lookup (d_val d) [b "a"] = Some (JArr w els) /\ length els = 3%nat /\ insert_layout els 1) /\
  apart (content (d_val d)) [b "a"] [b "o"] /\ apart (content (d_val d)) [b "a"; b "0"] [b "a"; b "+1"] /\
  Set_ ex43 (b """x""") [b "a"; b "1"] = Done ex43 /\
  (exists out, Add_ ex43 (b "[true]") [b "a"] = Done out /\ out <> ex43 /\ Delete out [b "a"; b "3"] = Done ex43) /\
  (exists out, AddKeyValue ex43 (b "n") None [b "o"] = Done out /\ out <> ex43 /\ Delete out [b "o"; b "n"] = Done ex43) /\
  (exists out, Insert ex43 1 (b "7") [b "a"] = Done out /\ out <> ex43 /\ Delete out [b "a"; b "1"] = Done ex43) /\
  (exists out, SetKey ex43 (b "zz") [b "o"; b "l"] = Done out /\ out <> ex43 /\ SetKey out (b "l") [b "o"; b "zz"] = Done ex43) /\
  run [ODelete [b "a"] (b "0"); OAdd [b "a"] (JScalar (b "5")); OSet [b "a"] (JScalar (b "9"))] ex43 = run [OSet [b "a"] (JScalar (b "9"))] ex43 /\
  run [OAdd [b "a"] (JScalar (b "5")); ODelete [b "o"] (b "l")] ex43 = run [ODelete [b "o"] (b "l"); OAdd [b "a"] (JScalar (b "5"))] ex43 /\
  run [ODelete [b "o"] (b "l"); ODelete [b "o"] (b "m")] ex43 = Some (b "{""a"" : [1, ""x"" ,{} ] , ""o"":{ ""k"":1  } }") /\
  run [ODelete [b "o"] (b "m"); ODelete [b "o"] (b "l")] ex43 = Some (b "{""a"" : [1, ""x"" ,{} ] , ""o"":{ ""k"":1    } }").
Proof.
  intro d. repeat match goal with
    | |- exists w els, _ => eexists _, _; split; [vm_compute; reflexivity|split; [reflexivity|left; reflexivity]]
    | |- exists out, _ => eexists; split; [vm_compute; reflexivity|]
    | |- _ /\ _ => split
    | |- apart _ _ _ => vm_compute; first [intro H; discriminate H|intros _; eexists; split; [reflexivity|intro H; discriminate H]]
    | |- _ <> _ => discriminate
    | |- _ => vm_compute; reflexivity
    end.
Qed.

(** ** C44  Insignificant whitespace does not matter.

    Two documents with the same content are read alike, and changed alike: the results have the same content again.
    Values that are containers are compared after Flatten.

    Full statement: the same for every operation that applies.  False for Insert ([C44_whitespace_refuted]): the domains
    of the update theorems depend on the layout. *)
Definition C44_statement : Prop := forall d d' o c,
  wf_doc d = true -> wf_doc d' = true -> content (d_val d) = content (d_val d') ->
  args_ok o -> meaning o (content (d_val d)) = Some c ->
  forall out out', call o (text d) = Done out -> call o (text d') = Done out' -> Flatten out = Flatten out'.

Theorem C44_get : forall d d' p v,
  wf_doc d = true -> wf_doc d' = true -> content (d_val d) = content (d_val d') ->
  p <> [] -> lookup (d_val d) p = Some v ->
  exists r r', Get (text d) p = Ok r /\ Get (text d') p = Ok r' /\ if container v then Flatten r = Flatten r' else r = r'.
Proof. exact get_same_content. Qed.
Print Assumptions C44_get.

Theorem C44_get_from_flat : forall d p v,
  wf_doc d = true -> p <> [] -> lookup (d_val d) p = Some v ->
  Get (Flatten (text d)) p = Ok (if container v then Flatten (render v) else bare v).
Proof. exact get_flat. Qed.
Print Assumptions C44_get_from_flat.

Theorem C44_iterate_array : forall d d' p w els,
  wf_doc d = true -> wf_doc d' = true -> content (d_val d) = content (d_val d') ->
  lookup (d_val d) p = Some (JArr w els) -> els <> [] ->
  exists xs xs', IterateArray (text d) record p [] = IDone xs None /\ IterateArray (text d') record p [] = IDone xs' None /\
    length xs = length els /\ length xs' = length els /\
    forall n e, nth_error els n = Some e -> exists x x', nth_error xs n = Some x /\ nth_error xs' n = Some x' /\
      if container (e_val e) then Flatten x = Flatten x' else x = x'.
Proof. exact iterate_same_content. Qed.
Print Assumptions C44_iterate_array.

Theorem C44_get_keys : forall d d' p w ms,
  wf_doc d = true -> wf_doc d' = true -> content (d_val d) = content (d_val d') ->
  lookup (d_val d) p = Some (JObj w ms) -> ms <> [] ->
  GetKeys (text d) p = Ok (keys ms) /\ GetKeys (text d') p = Ok (keys ms).
Proof. exact keys_same_content. Qed.
Print Assumptions C44_get_keys.

Theorem C44_types : forall d d' p v,
  wf_doc d = true -> wf_doc d' = true -> content (d_val d) = content (d_val d') -> lookup (d_val d) p = Some v ->
  IsArray (text d) p = IsArray (text d') p /\ IsObject (text d) p = IsObject (text d') p /\ IsValue (text d) p = IsValue (text d') p.
Proof. exact types_same. Qed.
Print Assumptions C44_types.

Theorem C44_below_the_root : forall d d' p v,
  wf_doc d = true -> wf_doc d' = true -> content (d_val d) = content (d_val d') -> p <> [] -> lookup (d_val d) p = Some v ->
  (forall pf, GetType pf (text d) p = GetType pf (text d') p) /\ GetKeys (text d) p = GetKeys (text d') p /\
  (container v = true -> Length (text d) p = Length (text d') p).
Proof. exact below_same. Qed.
Print Assumptions C44_below_the_root.

Theorem C44_typed_getters : forall d d' p v,
  wf_doc d = true -> wf_doc d' = true -> content (d_val d) = content (d_val d') -> p <> [] -> lookup (d_val d) p = Some v -> container v = false ->
  GetString (text d) p = GetString (text d') p /\ GetInt (text d) p = GetInt (text d') p /\ GetBool (text d) p = GetBool (text d') p /\
  GetStringArray (text d) p = GetStringArray (text d') p /\ GetIntArray (text d) p = GetIntArray (text d') p /\
  GetBoolArray (text d) p = GetBoolArray (text d') p /\
  forall F (pf : bytes -> option F), GetFloat pf (text d) p = GetFloat pf (text d') p /\ GetFloatArray pf (text d) p = GetFloatArray pf (text d') p.
Proof. exact getters_same. Qed.
Print Assumptions C44_typed_getters.

(** Arrays of numbers, literals and strings, no one-byte element followed but not preceded by whitespace. *)
Theorem C44_typed_arrays_partial : forall d d' p w els w' els',
  wf_doc d = true -> wf_doc d' = true -> content (d_val d) = content (d_val d') ->
  p <> [] -> lookup (d_val d) p = Some (JArr w els) -> lookup (d_val d') p = Some (JArr w' els') -> els <> [] ->
  forallb (fun e => negb (container (e_val e))) els = true -> tight_e w els -> tight_e w' els' ->
  GetStringArray (text d) p = GetStringArray (text d') p /\ GetIntArray (text d) p = GetIntArray (text d') p /\
  GetBoolArray (text d) p = GetBoolArray (text d') p /\
  forall F (pf : bytes -> option F), GetFloatArray pf (text d) p = GetFloatArray pf (text d') p.
Proof. exact arrays_same. Qed.
Print Assumptions C44_typed_arrays_partial.

(** Indent and Flatten give such a document. *)
Theorem C44_indent_partial : forall d,
  wf_doc d = true -> calm (d_val d) = true -> (forall s, d_val d <> JString s) ->
  exists d', Indent (text d) = Ok (text d') /\ wf_doc d' = true /\ content (d_val d') = content (d_val d).
Proof. exact indent_same. Qed.
Print Assumptions C44_indent_partial.

Theorem C44_flatten : forall d,
  wf_doc d = true -> exists d', Flatten (text d) = text d' /\ wf_doc d' = true /\ content (d_val d') = content (d_val d).
Proof. exact flatten_same_doc. Qed.
Print Assumptions C44_flatten.

(** Any history of Set, Delete and Add. *)
Theorem C44_plain_histories : forall ops d d' c,
  wf_doc d = true -> wf_doc d' = true -> content (d_val d) = content (d_val d') ->
  Forall plain_op ops -> meanings ops (content (d_val d)) = Some c ->
  exists e e', run ops (text d) = Some (text e) /\ run ops (text d') = Some (text e') /\
    wf_doc e = true /\ wf_doc e' = true /\ content (d_val e) = c /\ content (d_val e') = c /\ Flatten (text e) = Flatten (text e').
Proof. exact plain_same_content. Qed.
Print Assumptions C44_plain_histories.

Theorem C44_update_partial : forall d d' o c,
  wf_doc d = true -> wf_doc d' = true -> content (d_val d) = content (d_val d') ->
  legal d o -> legal d' o -> meaning o (content (d_val d)) = Some c ->
  exists e e', call o (text d) = Done (text e) /\ call o (text d') = Done (text e') /\
    wf_doc e = true /\ wf_doc e' = true /\ content (d_val e) = c /\ content (d_val e') = c /\ Flatten (text e) = Flatten (text e').
Proof. exact op_same_content. Qed.
Print Assumptions C44_update_partial.

(** Paths that do not resolve: the same error, or values of the same content are found by mistake (C03, C04). *)
Theorem C44_absent_key_partial : forall d d' q x w ms,
  wf_doc d = true -> wf_doc d' = true -> content (d_val d) = content (d_val d') ->
  lookup (d_val d) q = Some (JObj w ms) -> find_mem x ms = None -> stray_at (d_val d) q x <> Unclear ->
  (Get (text d) (q ++ [x]) = Err (EKeyNotFound x) /\ Get (text d') (q ++ [x]) = Err (EKeyNotFound x)) \/
  exists u u', Get (text d) (q ++ [x]) = Ok (bare u) /\ Get (text d') (q ++ [x]) = Ok (bare u') /\ content u = content u'.
Proof. exact LayoutAbsent.absent_same. Qed.
Print Assumptions C44_absent_key_partial.

Theorem C44_below_value_partial : forall d d' q x p v w ms,
  wf_doc d = true -> wf_doc d' = true -> content (d_val d) = content (d_val d') ->
  lookup (d_val d) q = Some (JObj w ms) -> lookup (d_val d) (q ++ [x]) = Some v -> container v = false -> p <> [] -> below_at (d_val d) q x p <> Unclear ->
  (exists e e', Get (text d) (q ++ x :: p) = Err e /\ Get (text d') (q ++ x :: p) = Err e') \/
  exists u u', Get (text d) (q ++ x :: p) = Ok (bare u) /\ Get (text d') (q ++ x :: p) = Ok (bare u') /\ content u = content u'.
Proof. exact LayoutAbsent.below_value_same. Qed.
Print Assumptions C44_below_value_partial.

Theorem C44_bad_index : forall d d' q x rest w els,
  wf_doc d = true -> wf_doc d' = true -> content (d_val d) = content (d_val d') ->
  lookup (d_val d) q = Some (JArr w els) -> bad_step els x = true ->
  exists e, Get (text d) (q ++ x :: rest) = Err e /\ Get (text d') (q ++ x :: rest) = Err e.
Proof. exact LayoutAbsent.bad_step_same. Qed.
Print Assumptions C44_bad_index.

Theorem C44_values_partial : forall d d' p w ms w' ms',
  wf_doc d = true -> wf_doc d' = true -> content (d_val d) = content (d_val d') ->
  lookup (d_val d) p = Some (JObj w ms) -> lookup (d_val d') p = Some (JObj w' ms') -> ms <> [] -> Forall tight_m ms -> Forall tight_m ms' ->
  exists us us', map content us = map content us' /\
    GetValues (text d) p = Ok (map bare us) /\ GetValues (text d') p = Ok (map bare us') /\
    GetKeysValues (text d) p = Ok (keys ms, map bare us) /\ GetKeysValues (text d') p = Ok (keys ms, map bare us').
Proof. exact LayoutAbsent.values_same. Qed.
Print Assumptions C44_values_partial.

(** Any history of Set, Delete, Add, AddKeyValue, SetKey and Store ([settled_from]): the conditions speak of the content only, so they
    hold on both documents or on neither. *)
Theorem C44_histories_partial : forall c ops c', settled_from c ops c' -> forall d d',
  wf_doc d = true -> wf_doc d' = true -> content (d_val d) = c -> content (d_val d') = c ->
  exists e e', run ops (text d) = Some (text e) /\ run ops (text d') = Some (text e') /\
    wf_doc e = true /\ wf_doc e' = true /\ content (d_val e) = c' /\ content (d_val e') = c' /\ Flatten (text e) = Flatten (text e').
Proof. exact LayoutAbsent.settled_history. Qed.
Print Assumptions C44_histories_partial.

(** The iterators, whatever the callbacks: [cb] runs on one document and [cb'] on the other, [R] relates what they keep.  If,
    on texts of the same content, they give the same verdict and keep [R], so do the two iterations. *)
Theorem C44_iterate_array_any : forall (St St' : Type) (R : St -> St' -> Prop) d d' p w els
    (cb : St -> bytes -> St * (bool * option err)) (cb' : St' -> bytes -> St' * (bool * option err)) s s',
  wf_doc d = true -> wf_doc d' = true -> content (d_val d) = content (d_val d') ->
  lookup (d_val d) p = Some (JArr w els) -> els <> [] ->
  (forall s s' x x', R s s' -> shown_alike x x' -> R (fst (cb s x)) (fst (cb' s' x')) /\ snd (cb s x) = snd (cb' s' x')) ->
  R s s' ->
  match IterateArray (text d) cb p s, IterateArray (text d') cb' p s' with
  | IDone t e, IDone t' e' => R t t' /\ e = e'
  | _, _ => False
  end.
Proof. exact (@LayoutWalk.iterate_array_alike). Qed.
Print Assumptions C44_iterate_array_any.

Theorem C44_iterate_key_value_partial : forall (St St' : Type) (R : St -> St' -> Prop) d d' p w ms w' ms'
    (cb : St -> bytes -> bytes -> St * (bool * option err)) (cb' : St' -> bytes -> bytes -> St' * (bool * option err)) s s',
  wf_doc d = true -> wf_doc d' = true -> content (d_val d) = content (d_val d') ->
  lookup (d_val d) p = Some (JObj w ms) -> lookup (d_val d') p = Some (JObj w' ms') -> ms <> [] ->
  Forall tight (removelast ms) -> Forall tight (removelast ms') ->
  (forall s s' k x x', R s s' -> shown_alike x x' -> R (fst (cb s k x)) (fst (cb' s' k x')) /\ snd (cb s k x) = snd (cb' s' k x')) ->
  R s s' ->
  match IterateKeyValue (text d) cb p s, IterateKeyValue (text d') cb' p s' with
  | IDone t e, IDone t' e' => R t t' /\ e = e'
  | _, _ => False
  end.
Proof. exact (@LayoutWalk.iterate_kv_alike). Qed.
Print Assumptions C44_iterate_key_value_partial.

(** Walk shows its callback leaves only, so here one callback, any, and equal results.  Missing: objects whose empty
    key the search finds somewhere (C35), and the two texts Walk refuses. *)
Theorem C44_walk_partial : forall (St : Type) pf d d' (cb : St -> bytes -> bytes -> list bytes -> St * (bool * option err)),
  wf_doc d = true -> wf_doc d' = true -> content (d_val d) = content (d_val d') -> container (d_val d) = true ->
  SpecParser.fits (text d) -> SpecParser.fits (text d') ->
  (forall p, In (p, []) (SpecWalk.objects SpecWalk.dec [] (SpecWalk.as_found (d_val d))) -> seen_absent d p []) ->
  text d <> b "{}" /\ text d <> b "[]" -> text d' <> b "{}" /\ text d' <> b "[]" ->
  forall s, Walk.Walk pf (text d) cb s = Walk.Walk pf (text d') cb s.
Proof. exact LayoutWalk.walk_same. Qed.
Print Assumptions C44_walk_partial.

Theorem C44_whitespace_refuted :
  ~ C44_statement /\
  Insert (b "[1,2]") 1 (b "9") [] = Done (b "[1,9,2]") /\ Insert (b "[1, 2]") 1 (b "9") [] = Done (b "[1,,9 2]").
Proof.
  split; [|vm_compute; repeat split]. intro H.
  specialize (H (doc_of (b "[1,2]")) (doc_of (b "[1, 2]")) (OInsert [] 1 (JScalar (b "9"))) _ eq_refl eq_refl eq_refl eq_refl eq_refl _ _ eq_refl eq_refl).
  vm_compute in H. discriminate H.
Qed.
Print Assumptions C44_whitespace_refuted.

Definition ex44 : bytes := b " { ""a"" : [ 1 , "" x "" , { ""q"" : [ ] } ] }".
Example C44_example :
  let d := doc_of ex44 in let d' := doc_of (Flatten ex44) in
  wf_doc d = true /\ wf_doc d' = true /\ content (d_val d) = content (d_val d') /\ text d' <> text d /\
  text d = ex44 /\ Flatten ex44 = b "{""a"":[1,"" x "",{""q"":[]}]}" /\
  Get ex44 [b "a"; b "1"] = Ok (b " x ") /\ Get (Flatten ex44) [b "a"; b "1"] = Ok (b " x ") /\
  Get ex44 [b "a"; b "2"] = Ok (b "{ ""q"" : [ ] }") /\ Get (Flatten ex44) [b "a"; b "2"] = Ok (b "{""q"":[]}") /\
  (let ops := [OAdd [b "a"; b "2"; b "q"] (JScalar (b "7")); ODelete [b "a"] (b "0"); OSet [b "a"; b "0"] (JString (b "y"))] in
   Forall plain_op ops /\ meanings ops (content (d_val d)) <> None /\
   option_map Flatten (run ops ex44) = Some (b "{""a"":[""y"",{""q"":[7]}]}") /\
   option_map Flatten (run ops (Flatten ex44)) = Some (b "{""a"":[""y"",{""q"":[7]}]}")).
Proof.
  intros d d'. repeat match goal with
    | |- _ /\ _ => split
    | |- let _ := _ in _ => intro
    | |- Forall _ _ => repeat constructor; discriminate
    | |- _ <> _ => discriminate
    | |- _ => vm_compute; reflexivity
    end.
Qed.

Definition ex44r : bytes := b "{ ""n"":[ 1 , 20, ""3"" ] ,""t"": true ,""s"":""[4,5]"", ""o"" : {""k"": 1 } }".
Example C44_readers_example :
  let d := doc_of ex44r in
  wf_doc d = true /\ text d = ex44r /\ calm (d_val d) = true /\
  exists out, Indent ex44r = Ok out /\ let d' := doc_of out in
  wf_doc d' = true /\ text d' = out /\ out <> ex44r /\ content (d_val d') = content (d_val d) /\
  (exists w els w' els', lookup (d_val d) [b "n"] = Some (JArr w els) /\ lookup (d_val d') [b "n"] = Some (JArr w' els') /\ els <> [] /\
     tight_e w els /\ tight_e w' els') /\
  GetIntArray ex44r [b "n"] = Ok [1; 20; 3]%Z /\ GetIntArray out [b "n"] = Ok [1; 20; 3]%Z /\
  GetBool out [b "t"] = Ok true /\ GetIntArray out [b "s"] = Ok [4; 5]%Z /\ GetKeys out [b "o"] = Ok [b "k"] /\ Length out [b "n"] = Ok 3%nat.
Proof.
  split; [vm_compute; reflexivity|]. split; [vm_compute; reflexivity|]. split; [vm_compute; reflexivity|].
  eexists. split; [vm_compute; reflexivity|].
  split; [vm_compute; reflexivity|]. split; [vm_compute; reflexivity|]. split; [discriminate|]. split; [vm_compute; reflexivity|].
  split; [|vm_compute; repeat split].
  do 4 eexists. split; [vm_compute; reflexivity|]. split; [vm_compute; reflexivity|]. split; [discriminate|].
  split; (split; [left; discriminate|]; repeat (apply Forall_cons; [first [left; discriminate | right; left; reflexivity | right; right; vm_compute; lia]|]); constructor).
Qed.

(** A stray value, a value below a value, and a history with all six kinds of calls *)
Definition ex44a : bytes := b "[ {""a"" : 1 } , { ""b"":0 , ""k"": [ 2 ] } , {""s"": ""t"" , ""u"":{ ""v"" : 3} } ]".
Example C44_absent_example :
  let d := doc_of ex44a in let d' := doc_of (Flatten ex44a) in
  wf_doc d = true /\ wf_doc d' = true /\ text d = ex44a /\ text d' = Flatten ex44a /\ text d' <> text d /\ content (d_val d) = content (d_val d') /\
  (exists w ms, lookup (d_val d) [b "0"] = Some (JObj w ms) /\ find_mem (b "k") ms = None /\ stray_at (d_val d) [b "0"] (b "k") <> Unclear) /\
  Get ex44a [b "0"; b "k"] = Ok (b "[ 2 ]") /\ Get (Flatten ex44a) [b "0"; b "k"] = Ok (b "[2]") /\
  (exists w ms, lookup (d_val d) [b "2"] = Some (JObj w ms) /\ lookup (d_val d) [b "2"; b "s"] = Some (JString (b "t")) /\ below_at (d_val d) [b "2"] (b "s") [b "v"] <> Unclear) /\
  Get ex44a [b "2"; b "s"; b "v"] = Ok (b "3") /\ Get (Flatten ex44a) [b "2"; b "s"; b "v"] = Ok (b "3") /\
  GetValues ex44a [b "2"] = Ok [b "t"; b "{ ""v"" : 3}"] /\ GetValues (Flatten ex44a) [b "2"] = Ok [b "t"; b "{""v"":3}"] /\
  (let ops := [OAddKV [b "0"] (b "new") (JScalar (b "7")); OSetKey [b "1"] (b "b") (b "c"); OStore [b "2"] (b "s") (JScalar (b "8")); OStore [b "2"; b "u"] (b "w") (JScalar (b "9")); ODelete [b "1"] (b "k")] in
   (exists c', settled_from (content (d_val d)) ops c') /\
   option_map Flatten (run ops ex44a) = Some (b "[{""a"":1,""new"":7},{""c"":0},{""s"":8,""u"":{""v"":3,""w"":9}}]") /\
   option_map Flatten (run ops (Flatten ex44a)) = option_map Flatten (run ops ex44a)).
Proof.
  intros d d'. split; [vm_compute; reflexivity|]. split; [vm_compute; reflexivity|]. split; [vm_compute; reflexivity|]. split; [vm_compute; reflexivity|].
  split; [discriminate|]. split; [vm_compute; reflexivity|].
  split; [do 2 eexists; split; [vm_compute; reflexivity|]; split; [vm_compute; reflexivity|vm_compute; discriminate]|].
  split; [vm_compute; reflexivity|]. split; [vm_compute; reflexivity|].
  split; [do 2 eexists; split; [vm_compute; reflexivity|]; split; [vm_compute; reflexivity|vm_compute; discriminate]|].
  do 4 (split; [vm_compute; reflexivity|]). cbv zeta. split; [|split; vm_compute; reflexivity].
  Ltac free := do 2 eexists; split; [vm_compute; reflexivity|]; split; vm_compute; reflexivity.
  eexists.
  eapply (SF_cons _ _ _ _ _ (d_val d)); [reflexivity|split; [reflexivity|split; [reflexivity|left; free]]|vm_compute; reflexivity|].
  eapply (SF_cons _ _ _ _ _ (d_val (doc_of (b "[{""a"":1,""new"":7},{""b"":0,""k"":[2]},{""s"":""t"",""u"":{""v"":3}}]")))); [vm_compute; reflexivity|split; [reflexivity|split; [discriminate|free]]|vm_compute; reflexivity|].
  eapply (SF_cons _ _ _ _ _ (d_val (doc_of (b "[{""a"":1,""new"":7},{""c"":0,""k"":[2]},{""s"":""t"",""u"":{""v"":3}}]")))); [vm_compute; reflexivity|split; [reflexivity|split; [reflexivity|left; vm_compute; discriminate]]|vm_compute; reflexivity|].
  eapply (SF_cons _ _ _ _ _ (d_val (doc_of (b "[{""a"":1,""new"":7},{""c"":0,""k"":[2]},{""s"":8,""u"":{""v"":3}}]")))); [vm_compute; reflexivity|split; [reflexivity|split; [reflexivity|right; free]]|vm_compute; reflexivity|].
  eapply (SF_cons _ _ _ _ _ (d_val (doc_of (b "[{""a"":1,""new"":7},{""c"":0,""k"":[2]},{""s"":8,""u"":{""v"":3,""w"":9}}]")))); [vm_compute; reflexivity|exact I|vm_compute; reflexivity|].
  apply SF_nil.
Qed.

(** Any callbacks: one that stops the walk, and some that count the bytes of what they see, flattened *)
Definition ex44w : bytes := b "{ ""a"" : [ 1 , {""b"":[ 22, 3 ] } ] ,""c"" :""d"", ""e"":  { ""f"" : 44 } }".
Definition ex44_seen (s : list (bytes * bytes)) (k v : bytes) (p : list bytes) : list (bytes * bytes) * (bool * option err) :=
  (s ++ [(k, v)], (true, if bytes_eqb k (b "c") then Some EEmpty else None)).
Definition ex44_weigh (s : nat) (v : bytes) : nat * (bool * option err) := ((s + length (Flatten v))%nat, (Nat.ltb s 2, None)).
Lemma ex44_flat x x' : shown_alike x x' -> Flatten x = Flatten x'.
Proof.
  intros (u & u' & W & W' & E & -> & ->). destruct u as [s|s|w els|w ms], u' as [s'|s'|w' els'|w' ms']; try discriminate E;
    try (cbn [content] in E; injection E as ->; reflexivity); cbn [bare];
    rewrite !Layout.flatten_value by assumption; rewrite (FormatProofs.strip_of_content _ _ E); reflexivity.
Qed.
Example C44_callbacks_example :
  let d := doc_of ex44w in let d' := doc_of (Flatten ex44w) in
  wf_doc d = true /\ wf_doc d' = true /\ text d = ex44w /\ text d' = Flatten ex44w /\ text d' <> text d /\ content (d_val d) = content (d_val d') /\
  container (d_val d) = true /\ SpecParser.fits (text d) /\ SpecParser.fits (text d') /\
  (forall p, In (p, []) (SpecWalk.objects SpecWalk.dec [] (SpecWalk.as_found (d_val d))) -> seen_absent d p []) /\
  (text d <> b "{}" /\ text d <> b "[]") /\
  Walk.Walk (fun _ => false) ex44w ex44_seen [] = Walk.WDone [(b "0", b "1"); (b "0", b "22"); (b "1", b "3"); (b "c", b "d")] (Some EEmpty) /\
  Walk.Walk (fun _ => false) (Flatten ex44w) ex44_seen [] = Walk.Walk (fun _ => false) ex44w ex44_seen [] /\
  (forall s s' x x', s = s' -> shown_alike x x' -> fst (ex44_weigh s x) = fst (ex44_weigh s' x') /\ snd (ex44_weigh s x) = snd (ex44_weigh s' x')) /\
  (exists w els, lookup (d_val d) [b "a"] = Some (JArr w els) /\ els <> []) /\
  IterateArray ex44w ex44_weigh [b "a"] 0%nat = IDone 13%nat None /\ IterateArray (Flatten ex44w) ex44_weigh [b "a"] 0%nat = IDone 13%nat None /\
  (exists w ms w' ms', lookup (d_val d) [] = Some (JObj w ms) /\ lookup (d_val d') [] = Some (JObj w' ms') /\ ms <> [] /\ Forall tight (removelast ms) /\ Forall tight (removelast ms')) /\
  IterateKeyValue ex44w (fun s k v => ex44_weigh s v) [] 0%nat = IterateKeyValue (Flatten ex44w) (fun s k v => ex44_weigh s v) [] 0%nat.
Proof.
  intros d d'. do 4 (split; [vm_compute; reflexivity|]). split; [discriminate|]. do 2 (split; [vm_compute; reflexivity|]).
  do 2 (split; [unfold SpecParser.fits; vm_compute; discriminate|]).
  split; [intros p Hp; vm_compute in Hp; repeat (destruct Hp as [Hp|Hp]; [discriminate Hp|]); destruct Hp|].
  split; [split; discriminate|]. do 2 (split; [vm_compute; reflexivity|]).
  split; [intros s s' x x' <- Hx; unfold ex44_weigh; rewrite (ex44_flat x x' Hx); split; reflexivity|].
  split; [do 2 eexists; split; [vm_compute; reflexivity|discriminate]|]. do 2 (split; [vm_compute; reflexivity|]).
  split; [|vm_compute; reflexivity]. do 4 eexists. split; [vm_compute; reflexivity|]. split; [vm_compute; reflexivity|]. split; [discriminate|].
  split; cbn [removelast]; repeat (apply Forall_cons; [first [left; reflexivity|right; vm_compute; lia]|]); constructor.
Qed.
