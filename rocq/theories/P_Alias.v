(** Property C37 (path slices). *)
From Coq Require Import String.
From Verif Require Import GoStd Core Errors Api Iter Walk Heap SpecAlias Alias AliasProofs.

(** ** C37

    Full statement: a call changes nothing that any slice shows, and the paths Walk hands out keep what they show.
    It is false: [append(path, key)] writes behind the path if the slice has spare capacity ([C37_*_refuted]). *)
Definition C37_statement : Prop := forall grow h json key value index ivalue ks p t,
  slc_ok h p -> slc_ok h ks -> slc_ok h t ->
  view (fst (AddKeyValueH grow h json key value p)) t = view h t /\
  view (fst (InsertH grow h json index ivalue p)) t = view h t /\
  view (fst (StoreH grow h json key value p)) t = view h t /\
  view (fst (GetAllH grow h json ks p)) t = view h t /\
  view (fst (GetAllMapH grow h json ks p)) t = view h t.

(** It holds if the path has no spare capacity (a call with the path written out, or [path[:n:n]]), and for slices
    that do not show the place right behind the path. *)
Theorem C37_kept_partial : forall grow h json key value index ivalue ks p t,
  slc_ok h p -> slc_ok h t -> s_len p = s_cap p \/ apart p t ->
  view (fst (AddKeyValueH grow h json key value p)) t = view h t /\
  view (fst (InsertH grow h json index ivalue p)) t = view h t /\
  view (fst (StoreH grow h json key value p)) t = view h t /\
  view (fst (GetAllH grow h json ks p)) t = view h t /\
  view (fst (GetAllMapH grow h json ks p)) t = view h t.
Proof. exact calls_keep. Qed.
Print Assumptions C37_kept_partial.

(** Exactly what is written: nothing that existed, or the key in the one place right behind the path. *)
Theorem C37_writes : forall grow h json key value index ivalue ks p, slc_ok h p ->
  (fst (AddKeyValueH grow h json key value p) = h \/ wrote p key h (fst (AddKeyValueH grow h json key value p))) /\
  (fst (InsertH grow h json index ivalue p) = h \/ wrote p (itoa index) h (fst (InsertH grow h json index ivalue p))) /\
  wrote p key h (fst (StoreH grow h json key value p)) /\
  (fst (GetAllH grow h json ks p) = h \/ exists k, wrote p k h (fst (GetAllH grow h json ks p))) /\
  (fst (GetAllMapH grow h json ks p) = h \/ exists k, wrote p k h (fst (GetAllMapH grow h json ks p))).
Proof. exact calls_write. Qed.
Print Assumptions C37_writes.

(** The results are those for the path as a value; for GetAll and GetAllMap unless the keys lie behind the path. *)
Theorem C37_result_partial : forall grow h json key value index ivalue ks p, slc_ok h p -> slc_ok h ks ->
  snd (AddKeyValueH grow h json key value p) = AddKeyValue json key value (view h p) /\
  snd (InsertH grow h json index ivalue p) = Insert json index ivalue (view h p) /\
  snd (StoreH grow h json key value p) = Store json key value (view h p) /\
  (s_len p = s_cap p \/ beside p ks ->
   snd (GetAllH grow h json ks p) = GetAll json (view h ks) (view h p) /\
   snd (GetAllMapH grow h json ks p) = GetAllMap json (view h ks) (view h p)).
Proof. exact calls_result. Qed.
Print Assumptions C37_result_partial.

(** Walk changes none of the caller's slices, shows the callback the paths of the by-value walk, and the slices the
    callback keeps still show them at the end if they are not longer than [S D], when appends up to [D] elements
    leave no spare capacity (two for Go's slices of strings). *)
Theorem C37_walk_partial : forall (St : Type) grow pf D, (forall n, 0 < n <= D -> grow n = 0) ->
  forall (cb : St -> bytes -> bytes -> list bytes -> St * (bool * option err)) json h s,
  match WalkH grow pf h json (keeping cb) (s, []), Walk pf json (noting cb) (s, []) with
  | WDone (h', (s1, kept)) e1, WDone (s2, paths) e2 =>
      s1 = s2 /\ e1 = e2 /\ (exists l, h' = h ++ l) /\ map snd kept = paths /\
      Forall (fun e => length (snd e) <= S D -> view h' (fst e) = snd e) kept
  | WPanic, WPanic => True
  | WFuel, WFuel => True
  | _, _ => False
  end.
Proof. exact @WalkH_same. Qed.
Print Assumptions C37_walk_partial.

(** The array ["a"; "b"; "c"] with the path its first element: [full[:1]]. *)
Definition ex37_heap : heap := [[b "a"; b "b"; b "c"]; [b "x"; b "y"]].
Definition ex37_full : slc := Slc 0 0 3 3.
Definition ex37_path : slc := Slc 0 0 1 3.
Definition ex37_exact : slc := Slc 0 0 1 1.
Definition ex37_keys : slc := Slc 1 0 2 2.
(** Go's growth for slices of strings up to 256 elements: the capacity doubles (for one element it is one). *)
Definition ex37_grow (n : nat) : nat := n - 2.

Theorem C37_AddKeyValue_refuted : ~ C37_statement.
Proof.
  intro H. destruct (H ex37_grow ex37_heap (b "{""a"":{""q"":1}}") (b "z") None 0%Z [] ex37_keys ex37_path ex37_full) as (A & _); [cbv; lia..|].
  vm_compute in A. discriminate A.
Qed.
Print Assumptions C37_AddKeyValue_refuted.

Theorem C37_Insert_refuted : ~ C37_statement.
Proof.
  intro H. destruct (H ex37_grow ex37_heap (b "{""a"":[1,2]}") (b "z") None 1%Z (b "7") ex37_keys ex37_path ex37_full) as (_ & A & _); [cbv; lia..|].
  vm_compute in A. discriminate A.
Qed.
Print Assumptions C37_Insert_refuted.

Theorem C37_Store_refuted : ~ C37_statement.
Proof.
  intro H. destruct (H ex37_grow ex37_heap (b "{""a"":{""q"":1}}") (b "q") None 1%Z (b "7") ex37_keys ex37_path ex37_full) as (_ & _ & A & _); [cbv; lia..|].
  vm_compute in A. discriminate A.
Qed.
Print Assumptions C37_Store_refuted.

Theorem C37_GetAll_refuted : ~ C37_statement.
Proof.
  intro H. destruct (H ex37_grow ex37_heap (b "{""a"":{""x"":1,""y"":2}}") (b "q") None 1%Z (b "7") ex37_keys ex37_path ex37_full) as (_ & _ & _ & A & _); [cbv; lia..|].
  vm_compute in A. discriminate A.
Qed.
Print Assumptions C37_GetAll_refuted.

Theorem C37_GetAllMap_refuted : ~ C37_statement.
Proof.
  intro H. destruct (H ex37_grow ex37_heap (b "{""a"":{""x"":1,""y"":2}}") (b "q") None 1%Z (b "7") ex37_keys ex37_path ex37_full) as (_ & _ & _ & _ & A); [cbv; lia..|].
  vm_compute in A. discriminate A.
Qed.
Print Assumptions C37_GetAllMap_refuted.

(** With the keys in the same array GetAll even looks up the wrong keys: [GetAll(json, full, full[:1]...)]. *)
Theorem C37_GetAll_result_refuted : ~ forall grow h json ks p, slc_ok h p -> slc_ok h ks ->
  snd (GetAllH grow h json ks p) = GetAll json (view h ks) (view h p).
Proof.
  intro H. specialize (H ex37_grow ex37_heap (b "{""a"":{""a"":1,""b"":2,""c"":3}}") ex37_full ex37_path ltac:(cbv; lia) ltac:(cbv; lia)).
  vm_compute in H. discriminate H.
Qed.
Print Assumptions C37_GetAll_result_refuted.

(** A path of four kept by the callback of Walk shows a later path at the end. *)
Definition ex37_cb (s : unit) (_ _ : bytes) (_ : list bytes) : unit * (bool * option err) := (s, (true, None)).
Theorem C37_walk_refuted : ~ forall grow pf json h, match WalkH grow pf h json (keeping ex37_cb) (tt, []) with
  | WDone (h', (_, kept)) _ => Forall (fun e => view h' (fst e) = snd e) kept
  | _ => True
  end.
Proof.
  intro H. specialize (H ex37_grow (fun _ => true) (b "{""a"":{""b"":{""c"":[1,2]}}}") []). vm_compute in H.
  inversion H as [|? ? A _]. discriminate A.
Qed.
Print Assumptions C37_walk_refuted.

Definition ex37_json : bytes := b "{""a"":{""x"":1,""y"":[2,3]}}".
Definition ex37_other : slc := Slc 0 2 1 1.
Definition ex37_walk : bytes := b "{""a"":{""b"":[1, [2,3]]}, ""c"" : true}".
Example C37_example :
  slc_ok ex37_heap ex37_full /\ slc_ok ex37_heap ex37_path /\ slc_ok ex37_heap ex37_exact /\ slc_ok ex37_heap ex37_keys /\
  slc_ok ex37_heap ex37_other /\ apart ex37_path ex37_other /\ apart ex37_path ex37_exact /\ beside ex37_path ex37_keys /\
  beside ex37_path ex37_other /\ s_len ex37_exact = s_cap ex37_exact /\ (forall n, 0 < n <= 2 -> ex37_grow n = 0) /\
  (* no spare capacity: the caller's array stays *)
  array (fst (AddKeyValueH ex37_grow ex37_heap ex37_json (b "z") (Some (b "5")) ex37_exact)) 0 = [b "a"; b "b"; b "c"] /\
  array (fst (StoreH ex37_grow ex37_heap ex37_json (b "z") (Some (b "5")) ex37_exact)) 0 = [b "a"; b "b"; b "c"] /\
  array (fst (GetAllH ex37_grow ex37_heap ex37_json ex37_keys ex37_exact)) 0 = [b "a"; b "b"; b "c"] /\
  (* spare capacity: the cell behind the path changes, the others stay *)
  array (fst (AddKeyValueH ex37_grow ex37_heap ex37_json (b "z") (Some (b "5")) ex37_path)) 0 = [b "a"; b "z"; b "c"] /\
  array (fst (StoreH ex37_grow ex37_heap ex37_json (b "z") (Some (b "5")) ex37_path)) 0 = [b "a"; b "z"; b "c"] /\
  array (fst (InsertH ex37_grow [[b "a"; b "y"; b "c"]] ex37_json 1 (b "5") (Slc 0 0 2 3))) 0 = [b "a"; b "y"; b "1"] /\
  array (fst (GetAllH ex37_grow ex37_heap ex37_json ex37_keys ex37_path)) 0 = [b "a"; b "y"; b "c"] /\
  array (fst (GetAllMapH ex37_grow ex37_heap ex37_json ex37_keys ex37_path)) 0 = [b "a"; b "y"; b "c"] /\
  (* the results *)
  snd (AddKeyValueH ex37_grow ex37_heap ex37_json (b "z") (Some (b "5")) ex37_path) = Done (b "{""a"":{""x"":1,""y"":[2,3],""z"":5}}") /\
  snd (StoreH ex37_grow ex37_heap ex37_json (b "z") (Some (b "5")) ex37_path) = Done (b "{""a"":{""x"":1,""y"":[2,3],""z"":5}}") /\
  snd (InsertH ex37_grow [[b "a"; b "y"; b "c"]] ex37_json 1 (b "5") (Slc 0 0 2 3)) = Done (b "{""a"":{""x"":1,""y"":[2,5,3]}}") /\
  snd (GetAllH ex37_grow ex37_heap ex37_json ex37_keys ex37_path) = Ok [b "1"; b "[2,3]"] /\
  snd (GetAllMapH ex37_grow ex37_heap ex37_json ex37_keys ex37_path) = Ok [(b "x", b "1"); (b "y", b "[2,3]")] /\
  (* Walk: the first path is short, the others share one array *)
  match WalkH ex37_grow (fun _ => true) ex37_heap ex37_walk (keeping ex37_cb) (tt, []) with
  | WDone (h', (_, kept)) None =>
      map snd kept = [[b "a"; b "b"; b "0"]; [b "a"; b "b"; b "1"; b "0"]; [b "a"; b "b"; b "1"; b "1"]; [b "c"]] /\
      map (fun e => view h' (fst e)) kept = [[b "a"; b "b"; b "0"]; [b "a"; b "b"; b "1"; b "1"]; [b "a"; b "b"; b "1"; b "1"]; [b "c"]] /\
      firstn 2 h' = ex37_heap
  | _ => False
  end.
Proof.
  repeat match goal with
  | |- _ /\ _ => split
  | |- slc_ok _ _ => cbv; lia
  | |- apart _ _ => unfold apart, s_end; cbn; lia
  | |- beside _ _ => unfold beside, s_end; cbn; lia
  | |- forall n, _ => unfold ex37_grow; lia
  end; try (vm_compute; reflexivity). vm_compute. auto.
Qed.
