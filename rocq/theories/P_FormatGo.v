(** Property C67: Flatten and Indent as written in Go compute what the models of them compute. *)
From Coq Require Import String.
From Verif Require Import GoStd GoLang Format FormatGo FormatGoProofs.

Local Open Scope Z_scope.

(** ** C67

    The programs follow others.go:68-182 and utils.go:36-42 statement by statement. *)
Theorem C67_flatten : forall fuel json, (length json < fuel)%nat -> Flatten_go fuel json = Ret (Flatten json).
Proof. exact Flatten_go_spec. Qed.
Print Assumptions C67_flatten.

Theorem C67_indent : forall fuel json, (length json < fuel)%nat ->
  Indent_go fuel json = match Indent json with Ok r => Ret r | _ => Pan end.
Proof. exact Indent_go_spec. Qed.
Print Assumptions C67_indent.

Theorem C67_create_tabs : forall fuel n, n < Z.of_nat fuel ->
  createTabs_go fuel n = match createTabs n with Ok r => Ret r | _ => Pan end.
Proof. exact createTabs_go_spec. Qed.
Print Assumptions C67_create_tabs.

Definition ex67 : bytes := b "{ ""a b"" : [ 1 ,""x\"" ]"" ] , ""b"":{} }".
Definition ex67_lines : bytes :=
  b "{" ++ [10; 9]%N ++ b """a b"": [" ++ [10; 9; 9]%N ++ b "1," ++ [10; 9; 9]%N ++ b """x\"" ]""" ++ [10; 9]%N ++ b "]," ++ [10; 9]%N ++
  b """b"": {" ++ [10; 9; 9]%N ++ [10; 9]%N ++ b "}" ++ [10]%N ++ b "}".
Example C67_example :
  (length ex67 < 40)%nat /\ Flatten_go 40 ex67 = Ret (b "{""a b"":[1,""x\"" ]""],""b"":{}}") /\
  Indent_go 40 ex67 = Ret ex67_lines /\
  Flatten_go 40 (b "a \") = Ret (b "a\") /\ Indent_go 40 (b """a""") = Pan /\ Indent_go 40 (b "[]]") = Pan /\ createTabs_go 9 3 = Ret [9; 9; 9]%N /\
  createTabs_go 9 (-1) = Pan /\
  (* with too little fuel a loop does not come to its end *)
  Flatten_go 9 ex67 = Out.
Proof.
  split; [vm_compute; lia|].
  repeat (match goal with |- _ /\ _ => split end; [vm_compute; reflexivity|]). vm_compute. reflexivity.
Qed.
