(** Property C76: a piece of a document.  Statements only; the proofs are in [Piece]. *)
From Coq Require Import String.
From Verif Require Import GoStd Json Spec Parse Domains Errors Core Api SpecIter Iter Split Ops SpecPiece.
From Verif Require Piece.

Local Open Scope N_scope.

(** ** C76

    Full statement: what is found below a path is found in the piece the path leads to, and an update below the path is
    the update of the piece, put back.  False ([C76_piece_refuted]): the search for an absent key runs on behind the
    piece (C03).  The theorems below are for paths that resolve, for bad indexes and for keys the search does not find. *)
Definition C76_statement : Prop := forall d p u, wf_doc d = true -> p <> [] -> lookup (d_val d) p = Some u -> container u = true ->
  (forall q, Get (text d) (p ++ q) = Get (render u) q) /\
  (forall o r, call o (render u) = Done r -> call (under p o) (text d) = Set_ (text d) r p).

(** A value present below the root is read alike wherever it stands. *)
Theorem C76_getters : forall d d' p p' v,
  wf_doc d = true -> wf_doc d' = true -> p <> [] -> p' <> [] -> lookup (d_val d) p = Some v -> lookup (d_val d') p' = Some v ->
  Get (text d) p = Get (text d') p' /\ GetString (text d) p = GetString (text d') p' /\
  GetInt (text d) p = GetInt (text d') p' /\ GetBool (text d) p = GetBool (text d') p' /\
  GetStringArray (text d) p = GetStringArray (text d') p' /\ GetIntArray (text d) p = GetIntArray (text d') p' /\
  GetBoolArray (text d) p = GetBoolArray (text d') p' /\
  forall F (pf : bytes -> option F), GetFloat pf (text d) p = GetFloat pf (text d') p' /\ GetFloatArray pf (text d) p = GetFloatArray pf (text d') p'.
Proof. exact Piece.readers_at. Qed.
Print Assumptions C76_getters.

Theorem C76_types : forall d d' p p' v,
  wf_doc d = true -> wf_doc d' = true -> lookup (d_val d) p = Some v -> lookup (d_val d') p' = Some v ->
  IsArray (text d) p = IsArray (text d') p' /\ IsObject (text d) p = IsObject (text d') p' /\ IsValue (text d) p = IsValue (text d') p'.
Proof. exact Piece.types_at. Qed.
Print Assumptions C76_types.

Theorem C76_lists : forall d d' p p' v,
  wf_doc d = true -> wf_doc d' = true -> p <> [] -> p' <> [] -> lookup (d_val d) p = Some v -> lookup (d_val d') p' = Some v ->
  (forall pf, GetType pf (text d) p = GetType pf (text d') p') /\
  GetKeys (text d) p = GetKeys (text d') p' /\ GetValues (text d) p = GetValues (text d') p' /\
  GetKeysValues (text d) p = GetKeysValues (text d') p' /\
  (container v = true -> Length (text d) p = Length (text d') p' /\ IsEmpty (text d) p = IsEmpty (text d') p').
Proof. exact Piece.lists_at. Qed.
Print Assumptions C76_lists.

(** Any callbacks, any values: also those on which the iterators fail or misbehave (C13, C14). *)
Theorem C76_iterators : forall (St : Type) d d' p p' v,
  wf_doc d = true -> wf_doc d' = true -> p <> [] -> p' <> [] -> lookup (d_val d) p = Some v -> lookup (d_val d') p' = Some v ->
  (forall (cb : St -> bytes -> St * (bool * option err)) s, IterateArray (text d) cb p s = IterateArray (text d') cb p' s) /\
  (forall (cb : St -> bytes -> bytes -> St * (bool * option err)) s, IterateKeyValue (text d) cb p s = IterateKeyValue (text d') cb p' s).
Proof. exact Piece.iterators_at. Qed.
Print Assumptions C76_iterators.

(** The piece: Get gives its text, which is a document of its own, and what stands below the path stands in it.  So the
    four theorems above apply to [text d] at [p ++ q] and [render u] at [q]. *)
Theorem C76_piece : forall d p u,
  wf_doc d = true -> p <> [] -> lookup (d_val d) p = Some u -> container u = true ->
  Get (text d) p = Ok (render u) /\ text (piece u) = render u /\ wf_doc (piece u) = true /\
  forall q v, lookup u q = Some v -> lookup (d_val d) (p ++ q) = Some v /\ lookup (d_val (piece u)) q = Some v.
Proof. exact Piece.piece_out. Qed.
Print Assumptions C76_piece.

(** The piece asked with the empty path. *)
Theorem C76_root_partial : forall (St : Type) d p u,
  wf_doc d = true -> p <> [] -> lookup (d_val d) p = Some u -> container u = true ->
  Get (render u) [] = Get (text d) p /\ IsArray (render u) [] = IsArray (text d) p /\ IsObject (render u) [] = IsObject (text d) p /\
  IsValue (render u) [] = IsValue (text d) p /\ (forall pf, GetType pf (render u) [] = GetType pf (text d) p) /\
  IsEmpty (render u) [] = IsEmpty (text d) p /\ GetStringArray (render u) [] = GetStringArray (text d) p /\
  GetIntArray (render u) [] = GetIntArray (text d) p /\ GetBoolArray (render u) [] = GetBoolArray (text d) p /\
  (lone u = false -> Length (render u) [] = Length (text d) p) /\
  (render u <> b "{}" -> render u <> b "[]" ->
     GetKeys (render u) [] = GetKeys (text d) p /\ GetValues (render u) [] = GetValues (text d) p /\
     GetKeysValues (render u) [] = GetKeysValues (text d) p /\
     (is_arr u = true -> forall (cb : St -> bytes -> St * (bool * option err)) s, IterateArray (render u) cb [] s = IterateArray (text d) cb p s) /\
     (forall (cb : St -> bytes -> bytes -> St * (bool * option err)) s, IterateKeyValue (render u) cb [] s = IterateKeyValue (text d) cb p s)).
Proof. exact Piece.piece_root. Qed.
Print Assumptions C76_root_partial.

(** Paths that do not resolve: a bad index, and a key that is not found in either. *)
Theorem C76_nowhere_partial : forall d p u, wf_doc d = true -> lookup (d_val d) p = Some u ->
  (forall q x rest w els, lookup u q = Some (JArr w els) -> bad_step els x = true ->
     Get (text d) (p ++ q ++ x :: rest) = Get (render u) (q ++ x :: rest)) /\
  (forall q x rest, seen_absent d (p ++ q) x -> seen_absent (piece u) q x ->
     Get (text d) (p ++ q ++ x :: rest) = Get (render u) (q ++ x :: rest)).
Proof. exact Piece.piece_nowhere. Qed.
Print Assumptions C76_nowhere_partial.

(** Work on the piece, put back: the bytes of the work done in place.  Any of the seven updates, in its own domain. *)
Theorem C76_update_partial : forall d p u o c,
  wf_doc d = true -> p <> [] -> lookup (d_val d) p = Some u ->
  legal d (under p o) -> legal (piece u) o -> meaning o (content u) = Some c ->
  exists r out, call o (render u) = Done r /\ call (under p o) (text d) = Done out /\ Set_ (text d) r p = Done out.
Proof. exact Piece.piece_update. Qed.
Print Assumptions C76_update_partial.

(** Any history of Set, Delete and Add. *)
Theorem C76_histories : forall p ops, Forall plain_op ops -> forall d u c,
  wf_doc d = true -> p <> [] -> lookup (d_val d) p = Some u -> meanings ops (content u) = Some c ->
  exists r out, run ops (render u) = Some r /\ run (map (under p) ops) (text d) = Some out /\ Set_ (text d) r p = Done out.
Proof. exact Piece.piece_history. Qed.
Print Assumptions C76_histories.

Theorem C76_piece_refuted :
  ~ C76_statement /\
  Get (b "[{""a"":1},{""b"":0,""k"":2}]") [b "0"; b "k"] = Ok (b "2") /\ Get (b "{""a"":1}") [b "k"] = Err (EKeyNotFound (b "k")) /\
  AddKeyValue (b "{""a"":1}") (b "k") (Some (b "3")) [] = Done (b "{""a"":1,""k"":3}") /\
  (exists e, AddKeyValue (b "[{""a"":1},{""b"":0,""k"":2}]") (b "k") (Some (b "3")) [b "0"] = Fail (Some (b "[{""a"":1},{""b"":0,""k"":2}]")) e) /\
  Length (b "{""a"":[5]}") [b "a"] = Ok 1%nat /\ Length (b "[5]") [] = Ok 0%nat /\
  GetKeys (b "{""a"":{}}") [b "a"] = Ok [] /\ GetKeys (b "{}") [] = Err EEmpty.
Proof.
  split; [|split; [vm_compute; reflexivity|split; [vm_compute; reflexivity|split; [vm_compute; reflexivity|split; [eexists; vm_compute; reflexivity|vm_compute; repeat split]]]]].
  intro H. destruct (H (doc_of (b "[{""a"":1},{""b"":0,""k"":2}]")) [b "0"] _ eq_refl ltac:(discriminate) eq_refl eq_refl) as [G _].
  specialize (G [b "k"]). vm_compute in G. discriminate G.
Qed.
Print Assumptions C76_piece_refuted.

Definition ex76 : bytes := b " {""x"": [ 1 , { ""k"" : [22, ""]"" ], ""m"":{}} ] , ""y"":[ 5]} ".
Definition ex76_u : bytes := b "{ ""k"" : [22, ""]"" ], ""m"":{}}".
Example C76_example :
  let d := doc_of ex76 in let p := [b "x"; b "1"] in
  wf_doc d = true /\ text d = ex76 /\
  exists u, lookup (d_val d) p = Some u /\ container u = true /\ render u = ex76_u /\ lone u = false /\ Get ex76 p = Ok ex76_u /\
  GetIntArray ex76 (p ++ [b "k"]) = GetIntArray ex76_u [b "k"] /\ Get ex76 (p ++ [b "k"; b "1"]) = Ok (b "]") /\ Get ex76_u [b "k"; b "1"] = Ok (b "]") /\
  GetKeys ex76 p = Ok [b "k"; b "m"] /\ GetKeys ex76_u [] = Ok [b "k"; b "m"] /\
  IterateKeyValue ex76_u (fun s k v => (s ++ [k; v], (true, None))) [] [] = IterateKeyValue ex76 (fun s k v => (s ++ [k; v], (true, None))) p [] /\
  (exists w els, lookup u [b "k"] = Some (JArr w els) /\ bad_step els (b "7") = true) /\
  seen_absent d (p ++ []) (b "z") /\ seen_absent (piece u) [] (b "z") /\
  (let o := OAddKV [b "m"] (b "n") (JScalar (b "9")) in
   legal d (under p o) /\ legal (piece u) o /\ (exists c, meaning o (content u) = Some c) /\
   call o ex76_u = Done (b "{ ""k"" : [22, ""]"" ], ""m"":{""n"":9}}") /\
   call (under p o) ex76 = Done (b " {""x"": [ 1 , { ""k"" : [22, ""]"" ], ""m"":{""n"":9}} ] , ""y"":[ 5]} ")) /\
  (let ops := [OAdd [b "k"] (JString (b "s")); ODelete [b "k"] (b "0"); OSet [b "m"] (JScalar (b "0"))] in
   Forall plain_op ops /\ (exists c, meanings ops (content u) = Some c) /\
   run ops ex76_u = Some (b "{ ""k"" : [ ""]"" ,""s""], ""m"":0}") /\
   run (map (under p) ops) ex76 = Some (b " {""x"": [ 1 , { ""k"" : [ ""]"" ,""s""], ""m"":0} ] , ""y"":[ 5]} ")).
Proof.
  intros d p. split; [vm_compute; reflexivity|]. split; [vm_compute; reflexivity|]. eexists. split; [vm_compute; reflexivity|].
  do 10 (split; [vm_compute; reflexivity|]).
  split; [do 2 eexists; split; [vm_compute; reflexivity|vm_compute; reflexivity]|].
  split; [apply seen_absent_b_sound; vm_compute; reflexivity|]. split; [apply seen_absent_b_sound; vm_compute; reflexivity|].
  split.
  - cbv zeta. split; [split; [reflexivity|split; [reflexivity|right; eexists; vm_compute; reflexivity]]|].
    split; [split; [reflexivity|split; [reflexivity|right; eexists; vm_compute; reflexivity]]|].
    split; [eexists; vm_compute; reflexivity|]. split; vm_compute; reflexivity.
  - cbv zeta. split; [repeat constructor; discriminate|]. split; [eexists; vm_compute; reflexivity|]. split; vm_compute; reflexivity.
Qed.
