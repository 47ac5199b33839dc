(** Property C62: the search loop as written in Go computes what the model of it computes. *)
From Coq Require Import String.
From Verif Require Import GoStd GoLang Core CoreGo CoreGoProofs.

Local Open Scope Z_scope.

(** ** C62

    [core_go] follows inter_core.go statement by statement: index variables, ints that may be negative, the table of
    256 flags with its entries for comma and colon switched off and on, break, continue and goto; it takes the number
    of turns its loops may make.  [core] is the model that the other properties are about. *)
Theorem C62_core : forall fuel json justStart path, Forall (fun c => (c < 256)%N) json -> (length json < fuel)%nat -> (length path < fuel)%nat ->
  core_go fuel json justStart path =
  match core json justStart path with
  | Ok (None, start, end_) => Ret (-1, Z.of_nat start, Z.of_nat end_, None)
  | Ok (Some key, start, end_) => Ret (Z.of_nat key, Z.of_nat start, Z.of_nat end_, None)
  | Err e => Ret (-1, -1, -1, Some e)
  | Panic => Pan
  end.
Proof. exact core_go_as_core. Qed.
Print Assumptions C62_core.

(** *** No loop runs for ever: a turn for every byte and every part of the path is enough *)
Theorem C62_ends : forall fuel json justStart path, Forall (fun c => (c < 256)%N) json -> (length json < fuel)%nat -> (length path < fuel)%nat ->
  core_go fuel json justStart path <> Out /\ forall more, (fuel <= more)%nat -> core_go more json justStart path = core_go fuel json justStart path.
Proof. exact core_go_ends. Qed.
Print Assumptions C62_ends.

Definition ex62 : bytes := b "{""a"":{""q\"":"":0,""b"":[1, {""x"":[ ]},""],""]},""c"" : 7}".
Example C62_example :
  Forall (fun c => (c < 256)%N) ex62 /\ (length ex62 < 60)%nat /\
  (* a value behind a jump, one in an array, one below an array; an error; a panic *)
  core_go 60 ex62 false [b "c"] = Ret (41, 46, 47, None) /\
  core_go 60 ex62 false [b "a"; b "b"; b "2"] = Ret (-1, 34, 36, None) /\
  core_go 60 ex62 true [b "a"; b "b"; b "1"; b "x"] = Ret (25, 28, 0, None) /\
  core_go 60 ex62 false [b "a"; b "d"] = Ret (-1, -1, -1, Some (EKeyNotFound (b "d"))) /\
  core_go 60 (b "  ") false [b "a"] = Pan /\
  (* with too little fuel a loop does not come to its end *)
  core_go 5 ex62 false [b "c"] = Out.
Proof. split; [repeat constructor|]. split; [vm_compute; lia|]. repeat split; vm_compute; reflexivity. Qed.
