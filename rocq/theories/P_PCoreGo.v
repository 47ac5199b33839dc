(** Property C64: the parsing loop as written in Go computes what the models of it compute. *)
From Coq Require Import String.
From Verif Require Import GoStd Errors GoLang Core Parser SpecPtr Pointers PCoreGo PCoreGoProofs.

Local Open Scope Z_scope.

(** ** C64

    [pCore_go] follows parse_core.go statement by statement on nodes linked by pointers, as [core_go] follows
    inter_core.go (C62). *)
Theorem C64_pointers : forall fuel json h n, Forall (fun c => (c < 256)%N) json -> (length json < fuel)%nat ->
  pCore_go fuel json h n = match q_core json h n with Ok h' => Ret h' | _ => Pan end.
Proof. exact (fun fuel json h n Hb Hj => pCore_go_spec fuel json Hb Hj h n). Qed.
Print Assumptions C64_pointers.

(** *** On a new node, in any heap: it gets the children of the model on trees, and no other node is touched *)
Theorem C64_tree : forall fuel json h n, Forall (fun c => (c < 256)%N) json -> (length json < fuel)%nat -> nth_error h n = Some (Cell [] [] None []) ->
  match pCore json with
  | Ok ns => exists h', pCore_go fuel json h n = Ret h' /\ stands h' n (Node [] [] ns) /\ (forall a, a <> n -> (a < length h)%nat -> nth_error h' a = nth_error h a)
  | _ => pCore_go fuel json h n = Pan
  end.
Proof. exact pCore_go_tree. Qed.
Print Assumptions C64_tree.

Definition ex64 : bytes := b " {""a"" : [ 1 ,""x, \"" ]"",[2,[3]] , {""y"":4}, """" ] , ""b"":{} ,""c"":""]""}".
Definition ex64_heap : heap := [Cell (b "old") (b "7") None [1%nat]; Cell [] [] None []].
Example C64_example :
  Forall (fun c => (c < 256)%N) ex64 /\ (length ex64 < 80)%nat /\ nth_error ex64_heap 1 = Some (Cell [] [] None []) /\
  match pCore_go 80 ex64 ex64_heap 1 with
  | Ret h => map (fun c => (c_label c, c_value c)) (firstn 7 h) =
      [(b "old", b "7"); ([], []); (b "0", skipn 1 ex64); (b "a", b "[ 1 ,""x, \"" ]"",[2,[3]] , {""y"":4}, """" ]"); (b "0", b " 1 "); (b "1", b """x, \"" ]"""); (b "2", b "[2,[3]]")] /\
      length h = 14%nat
  | _ => False
  end /\
  pCore_go 80 (b "[1]]") ex64_heap 1 = Pan /\ pCore_go 80 (b "   ") ex64_heap 1 = Pan /\ pCore_go 9 ex64 ex64_heap 1 = Out.
Proof. split; [repeat constructor|]. split; [vm_compute; lia|]. split; [reflexivity|]. split; [vm_compute; split; reflexivity|]. split; [vm_compute; reflexivity|]. split; vm_compute; reflexivity. Qed.
