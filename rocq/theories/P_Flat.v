(** Property C77: documents without insignificant whitespace.  Statements only; the proofs are in [Flat]. *)
From Coq Require Import String.
From Verif Require Import GoStd Json Spec Parse Domains Errors Core Api SpecIter Iter Ops SpecTyped Typed Make Format SpecFlat.
From Verif Require Flat.

Local Open Scope N_scope.

(** ** C77

    [flat c] is the text of the content [c] without a blank.  It is what Flatten makes of every document, and it is a
    function of the content alone. *)
Theorem C77_flatten : forall d, wf_doc d = true ->
  Flatten (text d) = flat (content (d_val d)) /\ wf (tree (content (d_val d))) = true.
Proof. exact Flat.flatten_flat. Qed.
Print Assumptions C77_flatten.

(** Reading: every answer is given by the content.  None of the conditions on blanks of C14, C15, C22 and C23 is left. *)
Theorem C77_get : forall c p x, wf (tree c) = true -> p <> [] -> d_lookup c p = Some x -> Get (flat c) p = Ok (shown x).
Proof. exact Flat.flat_get. Qed.
Print Assumptions C77_get.

Theorem C77_object : forall (St : Type) c p ms, wf (tree c) = true -> d_lookup c p = Some (DObj ms) -> ms <> [] ->
  GetKeys (flat c) p = Ok (map fst ms) /\ GetValues (flat c) p = Ok (map (fun m => shown (snd m)) ms) /\
  GetKeysValues (flat c) p = Ok (map fst ms, map (fun m => shown (snd m)) ms) /\ Length (flat c) p = Ok (length ms) /\
  (forall (cb : St -> bytes -> bytes -> St * (bool * option err)) s,
     IterateKeyValue (flat c) cb p s =
     let ps := map (fun m => (fst m, shown (snd m))) ms in IDone (fst (visit (uncurry2 cb) ps s)) (snd (visit (uncurry2 cb) (removelast ps) s))).
Proof. exact Flat.flat_object. Qed.
Print Assumptions C77_object.

Theorem C77_array : forall (St F : Type) (pf : bytes -> option F) c p cs, wf (tree c) = true -> d_lookup c p = Some (DArr cs) -> cs <> [] ->
  GetStringArray (flat c) p = Ok (map shown cs) /\
  (forall zs, map atoi (map shown cs) = map Some zs -> GetIntArray (flat c) p = Ok zs) /\
  (forall bs, map unbool (map shown cs) = map Some bs -> GetBoolArray (flat c) p = Ok bs) /\
  (forall fs, map pf (map shown cs) = map Some fs -> GetFloatArray pf (flat c) p = Ok fs) /\
  (p <> [] \/ (2 <= length cs)%nat \/ (2 <= length (flat (hd (DScalar []) cs)))%nat -> Length (flat c) p = Ok (length cs)) /\
  (forall (cb : St -> bytes -> St * (bool * option err)) s,
     IterateArray (flat c) cb p s = IDone (fst (visit cb (map shown cs) s)) (snd (visit cb (map shown cs) s))).
Proof. exact Flat.flat_array. Qed.
Print Assumptions C77_array.

(** Updating: the call leads from the flat text of a content to the flat text of the new content. *)
Theorem C77_update : forall c o c', wf (tree c) = true -> flat_op o -> legal (Doc [] (tree c) []) o -> meaning o c = Some c' ->
  call o (flat c) = Done (flat c') /\ wf (tree c') = true.
Proof. exact Flat.flat_update. Qed.
Print Assumptions C77_update.

(** Any history of Set, Delete, Add and Insert, whatever the layout of C10 asks for. *)
Theorem C77_histories : forall ops, Forall array_op ops -> Forall flat_op ops -> forall c c', wf (tree c) = true -> meanings ops c = Some c' ->
  run ops (flat c) = Some (flat c') /\ wf (tree c') = true.
Proof. exact Flat.flat_history. Qed.
Print Assumptions C77_histories.

(** Making: the Make functions build flat texts, and flat ones of flat ones. *)
Theorem C77_made_arrays : forall pf,
  (forall cs, cs <> [] -> MakeArrayBytes (Some (map flat cs)) = flat (DArr cs)) /\
  (forall zs, zs <> [] -> MakeArrayInt (Some zs) = flat (DArr (map (fun z => DScalar (itoa z)) zs))) /\
  (forall vs, vs <> [] -> MakeArrayBool (Some vs) = flat (DArr (map (fun v => DScalar (bool_text v)) vs))) /\
  (forall ss, ss <> [] -> Forall (fit pf) ss -> exists cs, Forall2 written ss cs /\ map shown cs = ss /\
     MakeArrayString pf (Some ss) = flat (DArr cs) /\ wf (tree (DArr cs)) = true) /\
  MakeEmptyArray = flat (DArr []) /\ MakeEmptyJson = flat (DObj []).
Proof.
  exact (fun pf => conj Flat.made_array_bytes (conj Flat.made_array_int (conj Flat.made_array_bool (conj (Flat.made_array_string pf) (conj eq_refl eq_refl))))).
Qed.
Print Assumptions C77_made_arrays.

Theorem C77_made_objects : forall pf,
  (forall ks vs, ks <> [] -> length ks = length vs -> Forall (fun k => str_ok k = true) ks -> Forall (fit pf) vs ->
     exists cs, Forall2 written vs cs /\ map shown cs = vs /\ MakeJsonString pf (Some ks) (Some vs) = Some (flat (DObj (combine ks cs))) /\
       wf (tree (DObj (combine ks cs))) = true) /\
  (forall ps, ps <> [] -> Forall (fun kv => str_ok (fst kv) = true /\ fit pf (snd kv)) ps ->
     exists cs, Forall2 written (map snd ps) cs /\ map shown cs = map snd ps /\ MakeJsonWithMap pf (Some ps) = flat (DObj (combine (map fst ps) cs)) /\
       wf (tree (DObj (combine (map fst ps) cs))) = true).
Proof. exact (fun pf => conj (Flat.made_object pf) (Flat.made_map pf)). Qed.
Print Assumptions C77_made_objects.

(** A layout on which GetValues, Insert and GetIntArray go wrong, and its flat text, on which they do not. *)
Definition ex77 : bytes := b " { ""a"" : [1 , 2, 3 ] , ""b c"" :1 , ""d"":""x y"" } ".
Definition ex77_flat : bytes := b "{""a"":[1,2,3],""b c"":1,""d"":""x y""}".
Example C77_example :
  let d := doc_of ex77 in let c := content (d_val d) in
  wf_doc d = true /\ text d = ex77 /\ Flatten ex77 = ex77_flat /\ flat c = ex77_flat /\ wf (tree c) = true /\
  (exists ms, d_lookup c [] = Some (DObj ms) /\ ms <> [] /\ map fst ms = [b "a"; b "b c"; b "d"] /\ map (fun m => shown (snd m)) ms = [b "[1,2,3]"; b "1"; b "x y"]) /\
  GetValues ex77 [] = Ok [b "[1 , 2, 3 ]"; b "1 "; b "x y"] /\ GetValues ex77_flat [] = Ok [b "[1,2,3]"; b "1"; b "x y"] /\
  (exists cs, d_lookup c [b "a"] = Some (DArr cs) /\ cs <> [] /\ map atoi (map shown cs) = map Some [1; 2; 3]%Z) /\
  GetIntArray ex77 [b "a"] = Err (EIntegerParse (b "1 ")) /\ GetIntArray ex77_flat [b "a"] = Ok [1; 2; 3]%Z /\
  Insert ex77 2 (b "[9]") [b "a"] = Done (b " { ""a"" : [1 , 2,,[9] 3 ] , ""b c"" :1 , ""d"":""x y"" } ") /\
  (let ops := [OInsert [b "a"] 2 (JArr [] [Elem [] (JScalar (b "9")) []]); ODelete [b "a"] (b "0"); OInsert [b "a"; b "1"] 0 (JString (b " s ")); OSet [b "d"] (JObj [] [])] in
   Forall array_op ops /\ Forall flat_op ops /\ (exists c', meanings ops c = Some c' /\ flat c' = b "{""a"":[2,["" s "",9],3],""b c"":1,""d"":{}}") /\
   run ops ex77_flat = Some (b "{""a"":[2,["" s "",9],3],""b c"":1,""d"":{}}")) /\
  (let o := OAddKV [] (b "e") (JScalar (b "0")) in
   flat_op o /\ legal (Doc [] (tree c) []) o /\ (exists c', meaning o c = Some c' /\ flat c' = b "{""a"":[1,2,3],""b c"":1,""d"":""x y"",""e"":0}")).
Proof.
  intros d c. split; [vm_compute; reflexivity|]. split; [vm_compute; reflexivity|]. split; [vm_compute; reflexivity|].
  split; [vm_compute; reflexivity|]. split; [vm_compute; reflexivity|].
  split; [eexists; split; [vm_compute; reflexivity|split; [discriminate|split; vm_compute; reflexivity]]|].
  split; [vm_compute; reflexivity|]. split; [vm_compute; reflexivity|].
  split; [eexists; split; [vm_compute; reflexivity|split; [discriminate|vm_compute; reflexivity]]|].
  split; [vm_compute; reflexivity|]. split; [vm_compute; reflexivity|]. split; [vm_compute; reflexivity|].
  split; cbv zeta.
  - split; [repeat constructor; discriminate|]. split; [repeat constructor|].
    split; [eexists; split; vm_compute; reflexivity|vm_compute; reflexivity].
  - split; [reflexivity|]. split; [|eexists; split; vm_compute; reflexivity].
    split; [reflexivity|]. split; [reflexivity|]. left. apply seen_absent_b_sound. vm_compute. reflexivity.
Qed.
