(** Property C74: histories that never panic. *)
From Coq Require Import String.
From Verif Require Import GoStd Json Parse SpecPanic Core Errors Api Typed Iter SpecJO JO Parser GoFloat SpecQuiet QuietProofs SpecQuietGo.
From Verif Require SpecScan FloatProofs SpecPtr Pointers GoLang TypedGo ParserGo ParserTypedGo AsWritten QuietGoProofs.

Local Open Scope N_scope.

(** ** C74

    Any bytes whose last non-blank byte is none of [: , [ {] ([complete], SpecPanic.v), JSON or not.  No condition says that a call succeeds or does the
    right thing: paths need not resolve, keys may be taken, texts may be garbled by a call that is wrong (C03, C08, C12).

    Full statement: false with Delete, Insert or GetNew among the calls ([C74_refuted]). *)
Definition C74_statement : Prop :=
  (forall pf cs body, takes_scalars pf -> complete body -> jo_run pf body cs <> None) /\
  (forall t p cs, complete t -> Parse t = Ok p -> Forall k_fair cs -> forall p' path, k_run p cs = Some p' -> P_GetNew p' path <> Panic).

(** What the functions write is again such a text. *)
Theorem C74_set : forall json new path out, complete json -> complete new -> Set_ json new path = Done out -> complete out.
Proof. exact set_keeps. Qed.
Print Assumptions C74_set.
Theorem C74_set_key : forall json newKey path out, complete json -> SetKey json newKey path = Done out -> complete out.
Proof. exact setkey_keeps. Qed.
Print Assumptions C74_set_key.
Theorem C74_add : forall json value path out, complete json -> Add_ json value path = Done out -> complete out.
Proof. exact add_keeps. Qed.
Print Assumptions C74_add.
Theorem C74_add_key_value : forall json key value path out, complete json -> AddKeyValue json key value path = Done out -> complete out.
Proof. exact addkv_keeps. Qed.
Print Assumptions C74_add_key_value.
Theorem C74_store : forall json key v path out, complete json -> complete v -> Store json key (Some v) path = Done out -> complete out.
Proof. exact store_keeps. Qed.
Print Assumptions C74_store.

(** A JO: no history of these calls panics, and then no reading function of C34 does. *)
Theorem C74_jo_partial : forall pf, takes_scalars pf -> forall cs body, complete body -> Forall keeps_end cs ->
  exists body' es, jo_run pf body cs = Some (body', es) /\ complete body'.
Proof. exact jo_quiet. Qed.
Print Assumptions C74_jo_partial.
Theorem C74_jo_go_partial : forall cs body, complete body -> Forall keeps_end cs ->
  exists body' es, jo_run float_ok body cs = Some (body', es) /\ complete body'.
Proof. exact (jo_quiet float_ok FloatProofs.ParseFloat_token). Qed.
Print Assumptions C74_jo_go_partial.

(** A Parser: whatever the bytes were that Parse accepted, no history of Set, SetKey, Add, AddKeyValue and Get panics. *)
Theorem C74_parser_partial : forall t p cs, complete t -> Parse t = Ok p -> Forall k_fair cs ->
  exists p', k_run p cs = Some p' /\ complete (P_JSON p') /\ forall path, P_Get p' path <> Panic.
Proof. exact parser_quiet. Qed.
Print Assumptions C74_parser_partial.

Theorem C74_documents_fair : forall d, wf_doc d = true -> fair (text d).
Proof. exact documents_fair. Qed.
Print Assumptions C74_documents_fair.

(** The same of the functions as written in Go (C73): such a history comes to an end and returns, typed calls of the Parser included. *)
Theorem C74_jo_written_partial : forall pf, takes_scalars pf -> forall cs body, AsWritten.octets body -> Forall AsWritten.jcall_octets cs -> complete body -> Forall keeps_end cs ->
  exists body' es, complete body' /\ AsWritten.eventually (fun fuel => TypedGo.calls_j fuel pf cs body = GoLang.Ret (body', es)).
Proof. exact QuietGoProofs.jo_written. Qed.
Print Assumptions C74_jo_written_partial.
Theorem C74_parser_written_partial : forall pf, takes_scalars pf -> forall t p cs,
  AsWritten.octets t -> Forall ParserTypedGo.tcall_octets cs -> complete t -> Parse t = Ok p -> Forall t_fair cs ->
  exists q q' es, AsWritten.eventually (fun fuel => ParserGo.Parse_go (ParserGo.as_written fuel) t = GoLang.Ret (Some q, None)) /\
    AsWritten.eventually (fun fuel => ParserTypedGo.calls_t (ParserGo.as_written fuel) pf cs q = GoLang.Ret (q', es)) /\ complete (Pointers.q_json q') /\
    forall path, exists v e, AsWritten.eventually (fun fuel => ParserGo.Get_p (ParserGo.as_written fuel) q' path = GoLang.Ret (v, e)).
Proof. exact QuietGoProofs.parser_written. Qed.
Print Assumptions C74_parser_written_partial.

(** Missing: Delete and Insert, which panic on some complete texts; and GetNew, after a refused AddKeyValue
    has left a node without a text. *)
Definition ex74 : bytes := b "{""o"":{""kk"":1},""z"":0}".
Definition drift : list kcall :=
  [KAddKeyValue (b "kk") (b "{""a"":5}") [b "o"]; KSetKey (b "new") [b "o"; b "kk"]; KSet (b "7") [b "o"; b "kk"; b "0"]].
Theorem C74_refuted : ~ C74_statement /\
  Insert (b "[[1]") 0 (b "2") [] = UPanic /\ Delete (b "{""a"":[1]") [b "a"] = UPanic /\
  exists p p', Parse ex74 = Ok p /\ k_run p drift = Some p' /\ P_Get p' [b "o"; b "kk"] = Ok [] /\ P_GetNew p' [b "o"; b "kk"] = Panic.
Proof.
  split.
  - intros [H _]. specialize (H (fun _ => false) [JO.CDelete [b "a"]] (b "{""a"":[1]") ltac:(discriminate)). apply H; [|vm_compute; reflexivity].
    exists (b "{""a"":[1"), 93, []. repeat split. cbn. intuition discriminate.
  - split; [vm_compute; reflexivity|]. split; [vm_compute; reflexivity|].
    do 2 eexists. split; [vm_compute; reflexivity|]. split; [vm_compute; reflexivity|]. split; vm_compute; reflexivity.
Qed.
Print Assumptions C74_refuted.

(** A text that is no JSON: an array is closed by a brace and the object is not closed; calls that succeed, that fail, and that garble it further. *)
Definition ex74b : bytes := b "{""a"":[1,{""b"":tru}} , ""c"":""x"" ".
Definition calls : list jcall :=
  [JO.CSet (b "[2]") [b "a"; b "1"; b "b"]; JO.CSetKey (b "d:,[") [b "c"]; JO.CAdd (b "3") [b "a"; b "1"; b "b"]; JO.CStoreInt (b "e") 5 [b "a"; b "1"];
   JO.CAddKeyValueString (b "f") (b "nan") []; JO.CSetString (b "y]") [b "d:,["]].
Example C74_example :
  complete ex74b /\ parse_doc ex74b = None /\
  Forall keeps_end calls /\
  jo_run float_ok ex74b calls =
    Some (b "{""a"":[1,{""b"":[2,3],""e"":5}} , ""d:,["":""y]"" ", [None; None; None; None; Some EObjectExpected; None]) /\
  Set_ ex74b (b "0") [b "c"] = Done (b "{""a"":[1,{""b"":tru}} , ""c"":0 ") /\
  (exists p p', Parse ex74b = Ok p /\
   k_run p [KSet (b "[2]") [b "a"]; KGet [b "a"; b "0"]; KAdd (b "4") [b "a"]; KAddKeyValue (b "kk") (b "{}") []; KSetKey (b """") [b "a"]] = Some p' /\
   P_JSON p' = b "{"""""":[2,4] , ""c"":""x"" ")  /\
  Forall k_fair [KSet (b "[2]") [b "a"]; KAdd (b "4") [b "a"]] /\ ~ fair (b "[}}") /\
  (exists p, Parse ex74b = Ok p /\ P_Set p (b "[}}") [b "a"] = PPanic).
Proof.
  assert (Hx : complete ex74b) by (exists (b "{""a"":[1,{""b"":tru}} , ""c"":""x"), 34, (b " "); repeat split; cbn; intuition discriminate).
  assert (H2 : complete (b "[2]")) by (exists (b "[2"), 93, []; repeat split; cbn; intuition discriminate).
  split; [exact Hx|]. split; [vm_compute; reflexivity|].
  split; [repeat constructor; cbn [keeps_end]; try exact H2; discriminate|].
  split; [vm_compute; reflexivity|]. split; [vm_compute; reflexivity|].
  split; [do 2 eexists; split; [vm_compute; reflexivity|]; split; vm_compute; reflexivity|].
  split.
  - constructor; [|constructor; [|constructor]]; cbn [k_fair].
    + apply (C74_documents_fair (doc_of (b "[2]"))). vm_compute. reflexivity.
    + apply (C74_documents_fair (doc_of (b "4"))). vm_compute. reflexivity.
  - split.
    + intros (_ & _ & H). apply (H 91 (b "}}") eq_refl eq_refl). exists (b "[}}"), []. split; [reflexivity|]. vm_compute. lia.
    + eexists. split; vm_compute; reflexivity.
Qed.
Example C74_written_example :
  let cs := [ParserTypedGo.TSetString (b "x") [b "a"]; ParserTypedGo.TAddKeyValueString (b "kk") (b "[1]") []; ParserTypedGo.TAddInt 4 [b "kk"]; ParserTypedGo.TAddBool true [b "a"]] in
  AsWritten.octets ex74b /\ Forall ParserTypedGo.tcall_octets cs /\ Forall t_fair cs /\
  (exists p p', Parse ex74b = Ok p /\
    ParserTypedGo.t_calls float_ok cs p = Some (p', [None; Some EObjectExpected; Some (EKeyNotFound (b "kk")); Some (EBadJSON 0)]) /\ P_JSON p' = b "{""a"":""x"" , ""c"":""x"" ") /\
  (exists p, Parse (b "{""a"":1}") = Ok p /\ ParserTypedGo.t_do float_ok (ParserTypedGo.TSetString [] [b "a"]) p = PPanic).
Proof.
  cbv zeta. split; [repeat constructor|]. split; [repeat constructor|]. split.
  - constructor; [|constructor; [|constructor; [|constructor; [|constructor]]]]; cbn [t_fair]; trivial.
    + split; [discriminate|]. vm_compute. intros [H|H]; discriminate.
    + split; [discriminate|]. intros c r E Ho. apply (C74_documents_fair (doc_of (b "[1]")) ltac:(vm_compute; reflexivity)) with (1 := E). exact Ho.
  - split.
    + do 2 eexists. split; [vm_compute; reflexivity|]. split; vm_compute; reflexivity.
    + eexists. split; vm_compute; reflexivity.
Qed.
