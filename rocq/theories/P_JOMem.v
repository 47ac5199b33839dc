(** C58: whose memory a JO holds, and that its methods write to no memory of the caller's. *)
From Coq Require Import String.
From Verif Require Import GoStd Errors Api Typed GoMem Mem SpecMem MemProofs JO JOMem JOMemProofs.

Local Open Scope nat_scope.

(** One call of any method, on a JO whose body is any slice of memory: no array is written to; body and error are those of
    the method on strings; the new body is memory of its own after a success, and the slice there was (or nil) after an error. *)
Theorem C58_call (grow : nat -> nat) (pf : bytes -> bool) (h : mem) (body : bsl) (c : mcall) : valid h body -> Forall (valid h) (args c) ->
  match jo_callM grow pf body c h with
  | None => jo_call pf (content h body) (shown h c) = JPanic
  | Some ((body', e), h') => extends h h' /\ valid h' body' /\ jo_call pf (content h body) (shown h c) = JRet (content h' body') e /\
      (e = None -> fresh h body') /\ (e <> None -> body' = body \/ body' = nil_slice)
  end.
Proof. exact (call_behaves grow pf h body c). Qed.
Print Assumptions C58_call.

(** Any sequence of calls, the arguments being any slices, of the JO's own body too: it goes as if every slice were a string.
    The JO keeps the slice it was made from until a call succeeds, and has memory of its own from then on. *)
Theorem C58_history (grow : nat -> nat) (pf : bytes -> bool) (cs : list mcall) (h : mem) (buffer : bsl) :
  valid h buffer -> Forall (fun c => Forall (valid h) (args c)) cs ->
  match jo_runM grow pf (NewM buffer) cs h with
  | None => jo_run pf (content h buffer) (map (shown h) cs) = None
  | Some ((body', es), h') => extends h h' /\ valid h' body' /\ jo_run pf (content h buffer) (map (shown h) cs) = Some (content h' body', es) /\
      (In None es -> fresh h body' \/ body' = nil_slice) /\ (~ In None es -> body' = buffer \/ body' = nil_slice)
  end.
Proof. exact (run_behaves grow pf cs h buffer). Qed.
Print Assumptions C58_history.

(** So what the caller holds keeps its bytes.  Once a call succeeded the caller may write to it without the JO noticing, and
    write to what JSON() returns without their own slices changing. *)
Theorem C58_apart (grow : nat -> nat) (pf : bytes -> bool) (cs : list mcall) (h : mem) (buffer body' : bsl) (es : list (option err)) (h' : mem) :
  valid h buffer -> Forall (fun c => Forall (valid h) (args c)) cs -> jo_runM grow pf (NewM buffer) cs h = Some ((body', es), h') ->
  forall s, valid h s ->
    content h' s = content h s /\
    (In None es -> forall p c h'',
       (store s p c h' = Some (tt, h'') -> content h'' body' = content h' body') /\
       (store (JO_JSONM body') p c h' = Some (tt, h'') -> content h'' s = content h s)).
Proof. exact (run_keeps grow pf cs h buffer body' es h'). Qed.
Print Assumptions C58_apart.

(** NewJSON starts from memory of its own. *)
Theorem C58_new_json (grow : nat -> nat) (h : mem) : behaves_res h (NewJSONM grow h) (Ok (b "{}")).
Proof. exact (new_json grow h). Qed.
Print Assumptions C58_new_json.

(** Get hands out a window of the body. *)
Theorem C58_get (h : mem) (body : bsl) (path : list bytes) : valid h body ->
  match JO_GetM body path h with
  | None => Get (content h body) path = Panic
  | Some (inl e, h') => h' = h /\ Get (content h body) path = Err e
  | Some (inr v, h') => h' = h /\ valid h v /\ (exists i j, window body v i j) /\ Get (content h body) path = Ok (content h v)
  end.
Proof. exact (GetM_spec h body path). Qed.
Print Assumptions C58_get.

(** New does not copy: before an update succeeds, what the caller writes to their buffer is what the JO answers from ... *)
Definition C58_new_copies_statement : Prop := forall (h : mem) (buffer : bsl) (p : nat) (c : N) (h' : mem),
  valid h buffer -> store buffer p c h = Some (tt, h') -> content h' (NewM buffer) = content h (NewM buffer).
Theorem C58_new_copies_refuted : ~ C58_new_copies_statement.
Proof. exact new_shares. Qed.
Print Assumptions C58_new_copies_refuted.

(** ... a call that fails does not change that ... *)
Definition C58_any_call_copies_statement : Prop :=
  forall (grow : nat -> nat) (pf : bytes -> bool) (call : mcall) (h : mem) (buffer body' : bsl) (e : option err) (h' : mem) (p : nat) (c : N) (h'' : mem),
  valid h buffer -> Forall (valid h) (args call) -> jo_callM grow pf (NewM buffer) call h = Some ((body', e), h') ->
  store buffer p c h' = Some (tt, h'') -> content h'' body' = content h' body'.
Theorem C58_any_call_copies_refuted : ~ C58_any_call_copies_statement.
Proof. exact failed_shares. Qed.
Print Assumptions C58_any_call_copies_refuted.

(** ... JSON does not copy ... *)
Definition C58_json_copies_statement : Prop := forall (h : mem) (body : bsl) (p : nat) (c : N) (h' : mem),
  valid h body -> store (JO_JSONM body) p c h = Some (tt, h') -> content h' body = content h body.
Theorem C58_json_copies_refuted : ~ C58_json_copies_statement.
Proof. exact new_shares. Qed.
Print Assumptions C58_json_copies_refuted.

(** ... and neither does Get: writing to what it returned changes the JO, after updates too. *)
Definition C58_get_copies_statement : Prop :=
  forall (grow : nat -> nat) (pf : bytes -> bool) (call : mcall) (h : mem) (buffer body' : bsl) (h' : mem) (path : list bytes) (v : bsl) (p : nat) (c : N) (h'' : mem),
  valid h buffer -> Forall (valid h) (args call) -> jo_callM grow pf (NewM buffer) call h = Some ((body', None), h') ->
  JO_GetM body' path h' = Some (inr v, h') -> store v p c h' = Some (tt, h'') -> content h'' body' = content h' body'.
Theorem C58_get_copies_refuted : ~ C58_get_copies_statement.
Proof. exact get_shares. Qed.
Print Assumptions C58_get_copies_refuted.

(** A buffer in the middle of an array; values beside it in the same array and inside it. *)
Definition ex58_mem : mem := [b "[1]{""a"":[1, 2],""b"":{""c"":""x"",""d"":3}}SPARE"; b "{""n"":[5, 6]}"].
Definition ex58_buffer : bsl := Bsl 0 3 32 37.
Definition ex58_small : bsl := Bsl 0 0 3 40.
Definition ex58_inside : bsl := Bsl 0 8 6 20.
Definition ex58_new : bsl := Bsl 1 0 12 12.
Definition ex58_calls : list mcall :=
  [MOwn (CDelete [b "zz"]); MSet ex58_new [b "b"; b "c"]; MAdd ex58_inside [b "a"]; MAddKeyValue (b "k") (Some ex58_small) []; MInsert 1 ex58_new [b "a"];
   MStore (b "k") (Some ex58_inside) []; MStore (b "l") None []; MOwn (CSetInt 7 [b "b"; b "d"]); MOwn (CSetKey (b "B") [b "b"])].
Example C58_example :
  valid ex58_mem ex58_buffer /\ Forall (fun c => Forall (valid ex58_mem) (args c)) ex58_calls /\
  content ex58_mem ex58_buffer = b "{""a"":[1, 2],""b"":{""c"":""x"",""d"":3}}" /\ content ex58_mem ex58_inside = b "[1, 2]" /\
  match jo_runM (fun _ => 3) (fun _ => true) (NewM ex58_buffer) ex58_calls ex58_mem with
  | Some ((body', es), h') => firstn 2 h' = ex58_mem /\ 2 <= b_arr body' /\ hd None es = Some (EKeyNotFound (b "zz")) /\ nth 1 es (Some ENullKey) = None /\
      content h' body' = b "{""a"":[1, {""n"":[5, 6]},2,[1, 2]],""B"":{""c"":{""n"":[5, 6]},""d"":7},""k"":[1, 2],""l"":null}"
  | None => False
  end.
Proof.
  vm_compute. repeat split; try lia; repeat (constructor; try lia).
Qed.
