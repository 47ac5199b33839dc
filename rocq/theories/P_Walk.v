(** Property C35 (Walk). *)
From Coq Require Import String.
From Verif Require Import GoStd Json Spec SpecProofs Parse Focus Domains Core Errors Api Updates Iter SpecIter SpecParser SpecWalk Walk WalkProofs WalkTotal.

Local Open Scope N_scope.

(** ** C35

    Full statement: the callback is called for every leaf in order, until it asks to stop or returns an error, which Walk
    returns.  It is false: the walk does not stop ([C35_stop_refuted]), the error of an object's last member is lost
    ([C35_error_refuted]), empty arrays end the walk with an error ([C35_empty_array_refuted]), repeated keys show the
    first value each time ([C35_duplicate_refuted]), and below an empty object a leaf of a later object may be shown
    ([C35_empty_object_refuted]). *)
Definition C35_statement : Prop := forall (St : Type) pf d (cb : St -> bytes -> bytes -> list bytes -> St * (bool * option err)) s,
  wf_doc d = true -> Walk pf (text d) cb s = wdone (expected dec (shown_leaf d) cb (d_val d) s).

(** What Walk does, on documents whose empty objects do not mislead the scanner (see Domains.seen_absent), for every callback:
    [walked] is defined in SpecWalk.v, and so is [as_found], the document as its paths show it. *)
Theorem C35_walk_partial : forall (St : Type) pf d (cb : St -> bytes -> bytes -> list bytes -> St * (bool * option err)),
  wf_doc d = true -> fits (text d) ->
  (forall p, In (p, []) (objects dec [] (as_found (d_val d))) -> seen_absent d p []) ->
  text d <> b "{}" /\ text d <> b "[]" ->
  forall s, Walk pf (text d) cb s = wdone (walked dec (shown_leaf d) EEmptyArray cb [] (as_found (d_val d)) s).
Proof. exact @Walk_found. Qed.
Print Assumptions C35_walk_partial.

(** Where no object has a key twice, that is the document itself. *)
Theorem C35_unique_keys_partial : forall (St : Type) pf d (cb : St -> bytes -> bytes -> list bytes -> St * (bool * option err)),
  wf_doc d = true -> fits (text d) -> unique_keys dec (d_val d) ->
  (forall p, In (p, []) (objects dec [] (d_val d)) -> seen_absent d p []) ->
  text d <> b "{}" /\ text d <> b "[]" ->
  forall s, Walk pf (text d) cb s = wdone (walked dec (shown_leaf d) EEmptyArray cb [] (d_val d) s).
Proof. exact @Walk_exact. Qed.
Print Assumptions C35_unique_keys_partial.

(** The two texts left out. *)
Theorem C35_bare_containers : forall (St : Type) pf (cb : St -> bytes -> bytes -> list bytes -> St * (bool * option err)) s,
  Walk pf (b "{}") cb s = WDone s (Some EEmpty) /\ Walk pf (b "[]") cb s = WDone s None.
Proof. intros. split; reflexivity. Qed.
Print Assumptions C35_bare_containers.

(** Without empty arrays, and without objects or without errors, it is the expected walk, except that it does not stop. *)
Theorem C35_leaves_partial : forall (St : Type) pf d (cb : St -> bytes -> bytes -> list bytes -> St * (bool * option err)) s,
  wf_doc d = true -> fits (text d) -> unique_keys dec (d_val d) ->
  (forall p, In (p, []) (objects dec [] (d_val d)) -> seen_absent d p []) -> text d <> b "{}" ->
  filled (d_val d) = true -> no_obj (d_val d) = true \/ (forall s k t p, snd (snd (cb s k t p)) = None) ->
  Walk pf (text d) cb s = wdone (expected dec (shown_leaf d) (keep_going cb) (d_val d) s).
Proof. exact @Walk_expected. Qed.
Print Assumptions C35_leaves_partial.

(** Walk comes to an end on every input, whatever the callback does. *)
Theorem C35_terminates : forall (St : Type) pf (cb : St -> bytes -> bytes -> list bytes -> St * (bool * option err)) json s,
  Walk pf json cb s <> WFuel.
Proof. exact @Walk_terminates. Qed.
Print Assumptions C35_terminates.

(** A callback that collects what it is shown; it asks to stop after the value [z] and fails after the value [x]. *)
Definition ex35_cb (z x : bytes) (s : list (bytes * bytes * list bytes)) (k v : bytes) (p : list bytes) :
  list (bytes * bytes * list bytes) * (bool * option err) :=
  (s ++ [(k, v, p)], (negb (bytes_eqb v z), if bytes_eqb v x then Some EEmpty else None)).

Theorem C35_stop_refuted : ~ C35_statement.
Proof. intro H. specialize (H _ (fun _ => false) (doc_of (b "[1,2]")) (ex35_cb (b "1") (b "#")) [] eq_refl). vm_compute in H. discriminate H. Qed.
Print Assumptions C35_stop_refuted.

Theorem C35_error_refuted : ~ C35_statement.
Proof. intro H. specialize (H _ (fun _ => false) (doc_of (b "[{""a"":1},2]")) (ex35_cb (b "#") (b "1")) [] eq_refl). vm_compute in H. discriminate H. Qed.
Print Assumptions C35_error_refuted.

Theorem C35_empty_array_refuted : ~ C35_statement.
Proof. intro H. specialize (H _ (fun _ => false) (doc_of (b "[[],2]")) (ex35_cb (b "#") (b "#")) [] eq_refl). vm_compute in H. discriminate H. Qed.
Print Assumptions C35_empty_array_refuted.

Theorem C35_duplicate_refuted : ~ C35_statement.
Proof. intro H. specialize (H _ (fun _ => false) (doc_of (b "{""a"":1,""a"":2}")) (ex35_cb (b "#") (b "#")) [] eq_refl). vm_compute in H. discriminate H. Qed.
Print Assumptions C35_duplicate_refuted.

Theorem C35_empty_object_refuted : ~ C35_statement.
Proof. intro H. specialize (H _ (fun _ => false) (doc_of (b "[{},{"""":1}]")) (ex35_cb (b "#") (b "#")) [] eq_refl). vm_compute in H. discriminate H. Qed.
Print Assumptions C35_empty_object_refuted.

Definition ex35 : doc := doc_of (b " { ""a"" : [ 1 ,{""b"":""x]"",""c"" : { } , ""d"":[""y"", [3]]}, ""z\"""" ] , """": -5 } ").
Definition ex35_arrays : doc := doc_of (b "[[1, ""a""], [[2], 3 ] , true]").
Definition ex35_holes : doc := doc_of (b "{""a"":[{},[ ] ,1]}").
Example C35_example :
  (wf_doc ex35 = true /\ fits (text ex35) /\ unique_keys dec (d_val ex35) /\
   (forall p, In (p, []) (objects dec [] (d_val ex35)) -> seen_absent ex35 p []) /\ filled (d_val ex35) = true /\
   In ([b "a"; b "1"; b "c"], []) (objects dec [] (d_val ex35))) /\
  (wf_doc ex35_arrays = true /\ no_obj (d_val ex35_arrays) = true /\ filled (d_val ex35_arrays) = true /\
   objects dec [] (d_val ex35_arrays) = []) /\
  Walk (fun _ => false) (text ex35) (ex35_cb (b "x]") (b "#")) [] = WDone
    [(b "0", b "1", [b "a"; b "0"]); (b "b", b "x]", [b "a"; b "1"; b "b"]); (b "0", b "y", [b "a"; b "1"; b "d"; b "0"]);
     (b "0", b "3", [b "a"; b "1"; b "d"; b "1"; b "0"]); (b "2", b "z\""", [b "a"; b "2"]); (b "", b "-5", [b ""])] None /\
  Walk (fun _ => false) (text ex35) (ex35_cb (b "#") (b "x]")) [] = WDone
    [(b "0", b "1", [b "a"; b "0"]); (b "b", b "x]", [b "a"; b "1"; b "b"])] (Some EEmpty) /\
  Walk (fun _ => false) (text ex35) (ex35_cb (b "#") (b "-5")) [] = WDone
    [(b "0", b "1", [b "a"; b "0"]); (b "b", b "x]", [b "a"; b "1"; b "b"]); (b "0", b "y", [b "a"; b "1"; b "d"; b "0"]);
     (b "0", b "3", [b "a"; b "1"; b "d"; b "1"; b "0"]); (b "2", b "z\""", [b "a"; b "2"]); (b "", b "-5", [b ""])] None /\
  Walk (fun _ => false) (text ex35_arrays) (ex35_cb (b "#") (b "2")) [] = WDone
    [(b "0", b "1", [b "0"; b "0"]); (b "1", b "a", [b "0"; b "1"]); (b "0", b "2", [b "1"; b "0"; b "0"])] (Some EEmpty) /\
  Walk (fun _ => false) (text ex35_arrays) (ex35_cb (b "#") (b "#")) [] = WDone
    [(b "0", b "1", [b "0"; b "0"]); (b "1", b "a", [b "0"; b "1"]); (b "0", b "2", [b "1"; b "0"; b "0"]); (b "1", b "3", [b "1"; b "1"]);
     (b "2", b "true", [b "2"])] None /\
  Walk (fun _ => false) (text ex35_holes) (ex35_cb (b "#") (b "#")) [] = WDone [] None /\
  Walk (fun _ => false) (text (doc_of (b " 12"))) (ex35_cb (b "#") (b "12")) [] = WDone [(b "", b " 12", [])] None /\
  Walk (fun _ => false) (b "{}") (ex35_cb (b "#") (b "#")) [] = WDone [] (Some EEmpty) /\
  Walk (fun _ => false) (b "[]") (ex35_cb (b "#") (b "#")) [] = WDone [] None /\
  as_found (d_val (doc_of (b "{""a"":[1,{}],""a"":2}"))) = d_val (doc_of (b "{""a"":[1,{}],""a"":[1,{}]}")) /\
  Walk (fun _ => false) (b "{""a"":[1,{}],""a"":2}") (ex35_cb (b "#") (b "#")) [] = WDone [(b "0", b "1", [b "a"; b "0"]); (b "0", b "1", [b "a"; b "0"])] None /\
  Walk (fun _ => false) (b "[[1,") (ex35_cb (b "#") (b "#")) [] = WDone [] (Some (EBadJSON 1)).
Proof.
  split; [split; [vm_compute; reflexivity|]; split; [vm_compute; discriminate|]; split; [|split; [|split]]|].
  - assert (H : map (fun o => map m_key (snd o)) (objects dec [] (d_val ex35)) = [[b "a"; b ""]; [b "b"; b "c"; b "d"]; []]) by (vm_compute; reflexivity).
    intros p ms Hi. apply (in_map (fun o => map m_key (snd o))) in Hi. rewrite H in Hi. cbn [snd In] in Hi.
    destruct Hi as [<-|[<-|[<-|[]]]]; repeat constructor; cbn; intuition discriminate.
  - assert (H : forallb (fun o => match snd o with [] => seen_absent_b ex35 (fst o) [] | _ => true end) (objects dec [] (d_val ex35)) = true)
      by (vm_compute; reflexivity).
    intros p Hi. apply seen_absent_b_sound. exact (proj1 (forallb_forall _ _) H _ Hi).
  - vm_compute. reflexivity.
  - vm_compute. tauto.
  - split; [repeat split; vm_compute; reflexivity|]. repeat match goal with |- _ /\ _ => split end; vm_compute; reflexivity.
Qed.
