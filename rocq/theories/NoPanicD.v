(** No panic: the statements of P_Panic.v. *)
From Coq Require Import String.
From Verif Require Import GoStd Json Core Errors Api Typed Iter SpecPanic Skip Focus CoreProofs NoPanic NoPanicB NoPanicC.

Local Open Scope N_scope.

Lemma complete_ended json : complete json -> ended json.
Proof.
  intros (l & c & w & -> & Hw & Hc & Ho). apply ended_text; auto. intro H. apply Ho. unfold opener in H. cbn. intuition.
Qed.

Lemma doc_complete d : wf_doc d = true -> complete (text d).
Proof.
  intro H. destruct (doc_split d H) as (l & c & E & H1 & H2 & _ & H3 & _). exists l, c, (d_post d).
  repeat split; auto. intro X. apply H2. unfold opener. cbn in X. intuition.
Qed.

Lemma reads_complete json : complete json -> forall (F : Type) (ff : bytes -> option F) (pf : bytes -> bool) path keys,
  Get json path <> Panic /\ GetString json path <> Panic /\ GetInt json path <> Panic /\ GetBool json path <> Panic /\
  GetFloat ff json path <> Panic /\ GetAll json keys path <> Panic /\ GetAllMap json keys path <> Panic /\
  GetType pf json path <> Panic /\ IsObject json path <> Panic /\ IsArray json path <> Panic /\ IsValue json path <> Panic /\
  IsEmpty json path <> Panic /\ Length json path <> Panic.
Proof.
  intros H F ff pf path keys. apply complete_ended in H.
  pose proof (Get_total json H path). pose proof (reads_total json H ff path) as (? & ? & ?).
  pose proof (types_total json H path) as (? & ? & ?).
  repeat (split; [assumption|]). split; [apply GetAll_total; exact H|]. split; [apply GetAllMap_total; exact H|].
  split; [apply GetType_total; exact H|]. repeat (split; [assumption|]). split; [apply IsEmpty_total; exact H|apply Length_total; exact H].
Qed.

Lemma writes_complete json : complete json -> forall key new value path,
  Set_ json new path <> UPanic /\ SetKey json key path <> UPanic /\ AddKeyValue json key value path <> UPanic /\
  Add_ json new path <> UPanic /\ Store json key value path <> UPanic.
Proof.
  intros H key new value path. apply complete_ended in H.
  split; [apply Set_total; exact H|]. split; [apply SetKey_total; exact H|]. split; [apply AddKeyValue_total; exact H|].
  split; [apply Add_total; exact H|apply Store_total; exact H].
Qed.

Lemma iter_complete {St} json (cb : St -> bytes -> St * (bool * option err)) path s :
  path = [] \/ complete json -> IterateArray json cb path s <> IPanic.
Proof. intros [H|H]; apply IterateArray_total; [left; exact H|right; apply complete_ended; exact H]. Qed.

Lemma documents_total d : wf_doc d = true -> forall (pf : bytes -> bool) key v index z flag path,
  let t := text d in
  Insert t index v path <> UPanic /\ InsertString pf t index v path <> UPanic /\ InsertInt t index z path <> UPanic /\
  InsertFloat t index v path <> UPanic /\ InsertBool t index flag path <> UPanic /\
  SetString pf t v path <> UPanic /\ SetInt t z path <> UPanic /\ SetFloat t v path <> UPanic /\ SetBool t flag path <> UPanic /\
  StoreString pf t key v path <> UPanic /\ StoreInt t key z path <> UPanic /\ StoreFloat t key v path <> UPanic /\
  StoreBool t key flag path <> UPanic /\ AddKeyValueString pf t key v path <> UPanic /\ AddKeyValueInt t key z path <> UPanic /\
  AddKeyValueFloat t key v path <> UPanic /\ AddKeyValueBool t key flag path <> UPanic /\ AddString pf t v path <> UPanic /\
  AddInt t z path <> UPanic /\ AddFloat t v path <> UPanic /\ AddBool t flag path <> UPanic.
Proof.
  intros Hw pf key v index z flag path t. pose proof (doc_ended d Hw) as EN. fold t in EN.
  assert (HI : forall x, Insert t index x path <> UPanic) by (intro; apply Insert_total; exact Hw).
  assert (HS : forall x, Set_ t x path <> UPanic) by (intro; apply Set_total; exact EN).
  assert (HT : forall x, Store t key x path <> UPanic) by (intro; apply Store_total; exact EN).
  assert (HK : forall x, AddKeyValue t key x path <> UPanic) by (intro; apply AddKeyValue_total; exact EN).
  assert (HA : forall x, Add_ t x path <> UPanic) by (intro; apply Add_total; exact EN).
  unfold InsertString, InsertInt, InsertFloat, InsertBool, neg_index, SetString, SetInt, SetFloat, SetBool, StoreString, StoreInt,
    StoreFloat, StoreBool, AddKeyValueString, AddKeyValueInt, AddKeyValueFloat, AddKeyValueBool, null_key, AddString, AddInt,
    AddFloat, AddBool.
  repeat match goal with |- _ /\ _ => split end;
    first [apply HI|apply HS|apply HT|apply HA|idtac];
    try (destruct (index <? 0)%Z; [discriminate|apply HI]);
    destruct key; try discriminate; apply HK.
Qed.

Lemma delete_total d path : wf_doc d = true -> (forall x, In x path -> ~ begins x (text d)) -> Delete (text d) path <> UPanic.
Proof.
  intros Hw H. apply Delete_total; [exact Hw|]. apply Forall_forall. intros x Hx r Hr. apply (H x Hx). exists r. exact Hr.
Qed.
