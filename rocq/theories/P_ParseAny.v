(** Property C60: Parse on any bytes. *)
From Coq Require Import String.
From Verif Require Import GoStd Json Parse Errors Parser SpecScan ParseAny.

Local Open Scope N_scope.

(** ** C60

    Any bytes at all; [skeleton t] are the bytes outside of strings (SpecScan.v).  Parse panics on some ([C60_total_refuted]);
    on which ones, on which it fails, and what can be read afterwards is determined. *)
Theorem C60_panics : forall t, Parse t = Panic <->
  (2 <= length t)%nat /\ (forallb blank t = true \/ overclosed (skeleton t) \/ (begins_blank t /\ early_colon (skeleton t))).
Proof. exact parse_panics. Qed.
Print Assumptions C60_panics.

Theorem C60_fails : forall t e, Parse t = Err e <->
  e = EBadJSON 0 /\ ((length t < 2)%nat \/ (Parse t <> Panic /\ ~ eventful (skeleton t))).
Proof. exact parse_fails. Qed.
Print Assumptions C60_fails.

(** After Parse, Get and the getters of numbers and flags do not panic whatever the text was, and GetNew does not where all
    brackets were closed. *)
Theorem C60_get : forall t p path, Parse t = Ok p -> P_Get p path <> Panic.
Proof. exact parsed_get. Qed.
Print Assumptions C60_get.
Theorem C60_numbers : forall (F : Type) (ff : bytes -> option F) t p path, Parse t = Ok p ->
  P_GetInt p path <> Panic /\ P_GetBool p path <> Panic /\ P_GetFloat ff p path <> Panic.
Proof. exact @parsed_numbers. Qed.
Print Assumptions C60_numbers.
Theorem C60_get_new : forall t p path, Parse t = Ok p -> balanced (skeleton t) -> P_GetNew p path <> Panic.
Proof. exact parsed_get_new. Qed.
Print Assumptions C60_get_new.

(** A value with too many closing brackets makes Set panic. *)
Theorem C60_set : forall p v path x, path <> [] -> P_Get p path = Ok x -> opens v = true -> overclosed (skeleton v) -> P_Set p v path = PPanic.
Proof. exact set_overclosed. Qed.
Print Assumptions C60_set.

Definition C60_total_statement : Prop := forall t, Parse t <> Panic.
Theorem C60_total_refuted : ~ C60_total_statement /\
  Parse (b "[1]]") = Panic /\ Parse (b "  ") = Panic /\ Parse (b " :") = Panic /\ Parse (b ":[]") <> Panic.
Proof. split; [intro H; exact (H (b "[1]]") eq_refl)|]. repeat split; vm_compute; try reflexivity; discriminate. Qed.
Print Assumptions C60_total_refuted.

Definition C60_get_new_statement : Prop := forall t p path, Parse t = Ok p -> P_GetNew p path <> Panic.
Theorem C60_get_new_refuted : ~ C60_get_new_statement.
Proof. intro H. specialize (H (b "{""a"":1,") _ [] eq_refl). vm_compute in H. apply H. reflexivity. Qed.
Print Assumptions C60_get_new_refuted.

(** A text that is no JSON at all: brackets in strings do not count, brackets need not match, and the last one is missing. *)
Definition ex60 : bytes := b " {""a]"":[1,,""x\""}""},z:2, """" [".
Example C60_example :
  skeleton ex60 = b " {"":[1,,""},z:2, "" [" /\ ~ overclosed (skeleton ex60) /\ eventful (skeleton ex60) /\ begins_blank ex60 /\ ~ early_colon (skeleton ex60) /\
  (exists p, Parse ex60 = Ok p /\ P_Get p [b "a]"; b "2"] = Ok (b "x\""}") /\ P_Get p [b "a]"; b "1"] = Ok [] /\
     P_Get p [b "a]"; b "7"] = Err (EKeyNotFound (b "7")) /\ P_GetNew p [b "a]"] = Ok (b "[1,,""x\""}""]")) /\
  Parse (b "1,2") = Err (EBadJSON 0) /\ ~ eventful (skeleton (b "1,2")) /\ (exists p, Parse (b "1,2,") = Ok p) /\
  overclosed (skeleton (b "{""a"":1}}")) /\ early_colon (skeleton (b " [:""""]")) /\ Parse (b " [:""""]") = Panic.
Proof.
  assert (O : forall t, bad 0 false (skeleton t) = false -> ~ overclosed (skeleton t)).
  { intros t E K. assert (bad 0 false (skeleton t) = true) by (apply bad_spec; left; exact K). congruence. }
  split; [vm_compute; reflexivity|]. split; [apply O; vm_compute; reflexivity|]. split; [left; exists 123; split; [vm_compute; tauto|reflexivity]|].
  split; [eexists _, _; split; [reflexivity|reflexivity]|].
  split; [intro K; assert (E : bad 0 true (skeleton ex60) = true) by (apply bad_spec; right; auto); vm_compute in E; discriminate E|].
  split; [eexists; split; [vm_compute; reflexivity|]; repeat split; vm_compute; reflexivity|]. split; [vm_compute; reflexivity|].
  split; [intro K; assert (E : exists e, Parse (b "1,2") = Err e) by (eexists; reflexivity); destruct E as (e & E); apply parse_fails in E; destruct E as [_ [E|[_ E]]]; [vm_compute in E; lia|exact (E K)]|].
  split; [eexists; vm_compute; reflexivity|]. split; [exists (b "{"":1}}"), []; split; [reflexivity|vm_compute; lia]|].
  split; [|vm_compute; reflexivity]. exists (b " ["), (b """]"). split; [reflexivity|]. vm_compute. intuition discriminate.
Qed.
