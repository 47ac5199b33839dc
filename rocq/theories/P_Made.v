(** Property C78: documents made of Go maps and slices.  Statements only; the proofs are in [Made]. *)
From Coq Require Import String Permutation.
From Verif Require Import GoStd Json Spec Errors Core Api Typed SpecTyped Make SpecMade.
From Verif Require SpecIter Iter Made.

Local Open Scope N_scope.

(** ** C78

    [sheet pf ps]: the keys of [ps] are different, not empty and need no escaping, and the values are [item]s, in the domain of
    C27 or texts of arrays and objects made before.  The document made
    of such a map is, for every call below, the map: the call leads to the document made of the map changed accordingly, byte for byte, and fails
    exactly when the change does not apply. *)
Theorem C78_make : forall pf ps,
  MakeJsonString pf (nonnil (map fst ps)) (nonnil (map snd ps)) = Some (MakeJsonWithMap pf (nonnil ps)).
Proof. exact Made.made_strings. Qed.
Print Assumptions C78_make.

Theorem C78_step : forall pf c ps, sheet pf ps -> cmd_ok pf c ->
  match step c ps with
  | inl ps' => do_cmd pf c (MakeJsonWithMap pf (nonnil ps)) = Done (MakeJsonWithMap pf (nonnil ps')) /\ sheet pf ps'
  | inr e => do_cmd pf c (MakeJsonWithMap pf (nonnil ps)) = Fail (Some (MakeJsonWithMap pf (nonnil ps))) e
  end.
Proof. exact Made.sheet_step. Qed.
Print Assumptions C78_step.

Theorem C78_histories : forall pf cs, Forall (cmd_ok pf) cs -> forall ps, sheet pf ps ->
  run_calls (do_cmd pf) cs (MakeJsonWithMap pf (nonnil ps)) = Some (MakeJsonWithMap pf (nonnil (steps cs ps))) /\ sheet pf (steps cs ps).
Proof. exact Made.sheet_history. Qed.
Print Assumptions C78_histories.

Theorem C78_reads : forall pf ps, sheet pf ps -> ps <> [] -> let t := MakeJsonWithMap pf (nonnil ps) in
  Iter.GetKeys t [] = Ok (map fst ps) /\ Iter.GetValues t [] = Ok (map snd ps) /\ Iter.GetKeysValues t [] = Ok (map fst ps, map snd ps) /\
  Iter.Length t [] = Ok (length ps) /\
  (exists m, Iter.GetMap t [] = Ok (Some m) /\ NoDup (map fst m) /\ forall k, SpecIter.assoc k m = assoc k ps) /\
  (forall k, Get t [k] = match assoc k ps with Some v => Ok v | None => Err (EKeyNotFound k) end) /\
  (forall ks, Check ks t = Ok true <-> incl ks (map fst ps)) /\
  (forall ks, CheckAbs ks t = Ok true <-> Permutation ks (map fst ps)).
Proof. exact Made.sheet_reads. Qed.
Print Assumptions C78_reads.

(** Schemes: the mutated document is the one made of the map restricted, or extended by empty strings, to the keys of the scheme, in their order. *)
Theorem C78_mutate_abs : forall pf ps ks, sheet pf ps -> usable ks -> incl ks (map fst ps) ->
  MutateJsonAbs pf ks (MakeJsonWithMap pf (nonnil ps)) = Ok (MakeJsonWithMap pf (nonnil (map (fun k => (k, value_or_empty ps k)) ks))).
Proof. exact Made.sheet_mutate_abs. Qed.
Print Assumptions C78_mutate_abs.

Theorem C78_mutate : forall pf ps ks, pf [] = false -> sheet pf ps -> usable ks ->
  MutateJson pf ks (MakeJsonWithMap pf (nonnil ps)) = Ok (Some (MakeJsonWithMap pf (nonnil (map (fun k => (k, value_or_empty ps k)) ks)))).
Proof. exact Made.sheet_mutate. Qed.
Print Assumptions C78_mutate.

(** The same for slices of strings, ints and bools. *)
Theorem C78_slices : forall pf,
  (forall cs ss, Forall (acmd_ok (item pf)) cs -> Forall (item pf) ss -> let ss' := asteps cs ss in
     run_calls (do_string pf) cs (MakeArrayString pf (nonnil ss)) = Some (MakeArrayString pf (nonnil ss')) /\
     (ss' <> [] -> Iter.GetStringArray (MakeArrayString pf (nonnil ss')) [] = Ok ss')) /\
  (forall cs zs, Forall (acmd_ok (fun z => in_int64 z = true)) cs -> Forall (fun z => in_int64 z = true) zs -> let zs' := asteps cs zs in
     run_calls do_int cs (MakeArrayInt (nonnil zs)) = Some (MakeArrayInt (nonnil zs')) /\
     (zs' <> [] -> Iter.GetIntArray (MakeArrayInt (nonnil zs')) [] = Ok zs')) /\
  (forall cs vs, Forall (acmd_ok (fun _ => True)) cs -> let vs' := asteps cs vs in
     run_calls do_bool cs (MakeArrayBool (nonnil vs)) = Some (MakeArrayBool (nonnil vs')) /\
     (vs' <> [] -> Iter.GetBoolArray (MakeArrayBool (nonnil vs')) [] = Ok vs')).
Proof. exact Made.slices. Qed.
Print Assumptions C78_slices.

Definition ex78_pf (s : bytes) : bool := bytes_eqb s (b "1.5").
Definition ex78_ps : list (bytes * bytes) := [(b "a", b "x y"); (b "k", b "1.5"); (b "n", [])].
Definition ex78_nested : bytes := b "[1,{""k"":""z""}]".
Definition ex78_cs : list cmd :=
  [CSet (b "k") (b "true"); CAdd (b "a") (b "2"); CStore (b "q") (b "[x"); CRename (b "n") (b "m{"); CDelete (b "a"); CDelete (b "a"); CRename (b "k") (b "q"); CSet (b "q") (b "07"); CAdd (b "e") ex78_nested].
Example C78_example :
  sheet ex78_pf ex78_ps /\ Forall (cmd_ok ex78_pf) ex78_cs /\ ex78_pf [] = false /\
  MakeJsonWithMap ex78_pf (nonnil ex78_ps) = b "{""a"":""x y"",""k"":1.5,""n"":""""}" /\
  steps ex78_cs ex78_ps = [(b "k", b "true"); (b "m{", []); (b "q", b "07"); (b "e", ex78_nested)] /\
  run_calls (do_cmd ex78_pf) ex78_cs (b "{""a"":""x y"",""k"":1.5,""n"":""""}") = Some (b "{""k"":true,""m{"":"""",""q"":""07"",""e"":[1,{""k"":""z""}]}") /\
  usable [b "n"; b "z"; b "a"] /\ usable [b "n"; b "a"] /\ incl [b "n"; b "a"] (map fst ex78_ps) /\
  MutateJson ex78_pf [b "n"; b "z"; b "a"] (b "{""a"":""x y"",""k"":1.5,""n"":""""}") = Ok (Some (b "{""n"":"""",""z"":"""",""a"":""x y""}")) /\
  MutateJsonAbs ex78_pf [b "n"; b "a"] (b "{""a"":""x y"",""k"":1.5,""n"":""""}") = Ok (b "{""n"":"""",""a"":""x y""}") /\
  (let cs := [AInsert 1 5; ADelete 0; ASet 9 4; AAdd (-7); AInsert (-1) 3; ASet 0 0]%Z in
   Forall (acmd_ok (fun z => in_int64 z = true)) cs /\ asteps cs [1; 2]%Z = [0; 2; -7]%Z /\ run_calls do_int cs (b "[1,2]") = Some (b "[0,2,-7]")) /\
  (let cs := [ADelete 0; AAdd (b "q r"); AInsert 0 (b "1.5")]%Z in
   Forall (acmd_ok (item ex78_pf)) cs /\ asteps cs [b "null"] = [b "1.5"; b "q r"] /\
   run_calls (do_string ex78_pf) cs (MakeArrayString ex78_pf (nonnil [b "null"])) = Some (b "[1.5,""q r""]")) /\
  (let cs := [AAdd true; AInsert 0 false]%Z in
   Forall (acmd_ok (fun _ => True)) cs /\ run_calls do_bool cs (MakeArrayBool (nonnil [])) = Some (b "[false,true]")).
Proof.
  assert (U : forall l, (if list_eq_dec (list_eq_dec N.eq_dec) (nodup (list_eq_dec N.eq_dec) l) l then true else false) = true ->
              forallb (fun k => negb (bytes_eqb k []) && str_ok k) l = true -> usable l).
  { intros l H1 H2. split.
    - destruct (list_eq_dec _ (nodup _ l) l) as [<-|]; [apply NoDup_nodup|discriminate H1].
    - apply Forall_forall. intros k Hk. rewrite forallb_forall in H2. apply H2, andb_prop in Hk. destruct Hk as [Hk ->]. split; [|reflexivity]. intros ->. discriminate Hk. }
  assert (F : forall s, str_ok s && (negb (ex78_pf s) || scalar_ok s) && negb (fenced s) = true -> item ex78_pf s).
  { intros s H. apply andb_prop in H. destruct H as [H H3]. apply andb_prop in H. destruct H as [H1 H2]. left. split; [exact H1|]. split; [|destruct (fenced s); [discriminate|reflexivity]].
    intro Hp. rewrite Hp in H2. exact H2. }
  assert (G : item ex78_pf ex78_nested).
  { right. exists (DArr [DScalar (b "1"); DObj [(b "k", DString (b "z"))]]). repeat split. }
  split; [split; [apply U; vm_compute; reflexivity|repeat (apply Forall_cons || apply Forall_nil); apply F; vm_compute; reflexivity]|].
  split; [repeat (apply Forall_cons || apply Forall_nil); cbn [cmd_ok]; repeat match goal with |- _ /\ _ => split | |- True => exact I | |- _ <> [] => discriminate | |- item _ ex78_nested => exact G | |- item _ _ => apply F; vm_compute; reflexivity | |- _ => reflexivity end|].
  split; [reflexivity|]. split; [vm_compute; reflexivity|]. split; [vm_compute; reflexivity|]. split; [vm_compute; reflexivity|].
  split; [apply U; vm_compute; reflexivity|]. split; [apply U; vm_compute; reflexivity|].
  split; [intros k [<-|[<-|[]]]; cbn; tauto|]. split; [vm_compute; reflexivity|]. split; [vm_compute; reflexivity|].
  split; [|split]; cbv zeta; (split; [repeat (apply Forall_cons || apply Forall_nil); cbn [acmd_ok]; repeat match goal with |- _ /\ _ => split | |- True => exact I | |- item _ _ => apply F; vm_compute; reflexivity | |- _ => reflexivity end|]); try (split; vm_compute; reflexivity); vm_compute; reflexivity.
Qed.
