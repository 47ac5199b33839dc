(** Property C46: the nodes of the Parser, with their pointers, and the stack of sequence.go. *)
From Coq Require Import String.
From Verif Require Import GoStd Errors Parser SpecPtr Pointers PointerProofs.

Local Open Scope N_scope.

(** ** The fixed array of sequence.go is an unbounded stack *)
Theorem C46_sequence : forall n ops, sq_run (makeSeq n) ops = match stack_run [] ops with Some out => Ok out | None => Panic end.
Proof. exact sequence_is_stack. Qed.
Print Assumptions C46_sequence.

(** ** The nodes of a parser form a tree: after any history of calls, failing ones included, no node is reached in two ways, there is no
    cycle, and every [up] pointer below the root leads to the node that lists it. *)
Theorem C46_tree : forall json cs q es, q_reached json cs q es -> exists n, stands (q_heap q) (q_root q) n.
Proof. exact reached_tree. Qed.
Print Assumptions C46_tree.

(** ** The pointers stand for the nodes of Parser.v: Parse and every history of calls panic, fail and answer alike. *)
Theorem C46_refines : forall json cs,
  match Q_Parse json, Parse json with
  | Ok q, Ok p =>
      match q_calls cs q, p_calls cs p with
      | Some (q', es), Some (p', es') => es = es' /\ q_json q' = p_json p' /\ (forall path, Q_Get q' path = P_Get p' path) /\ stands (q_heap q') (q_root q') (p_core p')
      | None, None => True
      | _, _ => False
      end
  | Err e, Err e' => e = e'
  | Panic, Panic => True
  | _, _ => False
  end.
Proof. exact parser_calls_sim. Qed.
Print Assumptions C46_refines.

Definition ex46 : bytes := b "{""a"":[1,2,{""x"":[[],{}]}],""b"":{""c"":{""d"":""e""}}}".
Definition ex46_calls : list pcall :=
  [CAdd (b "{""n"":[7]}") [b "a"]; CSet (b "[0,[1]]") [b "b"; b "c"]; CInsert 1 (b "9") [b "a"]; CDelete [b "nope"]; CSetKey (b "z") [b "a"; b "3"; b "x"];
   CAddKeyValue (b "kk") (b "{""q"":1}") [b "b"]; CDelete [b "b"; b "c"]; CInsert (-1) (b "9") [b "a"]].
Example C46_example :
  sq_run (makeSeq 1) [Push 5; Push 6; Inc; Push 7; Pop; Pop; Last] = Ok [7; 7; 5]%Z /\
  (exists q q' es, Q_Parse ex46 = Ok q /\ q_calls (removelast ex46_calls) q = Some (q', es) /\
     es = [None; None; None; Some (EKeyNotFound (b "nope")); None; None; None] /\
     q_json q' = b "{""a"":[1,9,2,{""z"":[[],{}]},{""n"":[7]}],""b"":{""kk"":{""q"":1}}}" /\
     length (q_heap q) = 12%nat /\ length (q_heap q') = 23%nat /\ Q_Get q' [b "b"; b "kk"; b "0"; b "q"] = Ok (b "1") /\
     q_calls ex46_calls q = None).
Proof. split; [vm_compute; reflexivity|]. do 3 eexists. split; [vm_compute; reflexivity|]. split; [vm_compute; reflexivity|]. repeat split; vm_compute; reflexivity. Qed.
