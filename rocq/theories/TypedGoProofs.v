(** The typed writers and the methods of JO statement by statement (TypedGo.v) compute what the models in Typed.v and JO.v compute. *)
From Coq Require Import String Lia.
From Verif Require Import GoStd Json Spec Domains Errors GoLang Core Api Typed AsWritten Octets.
From Verif Require UpdateGo MakeGo TypedGo JO JOProofs SplitGo SplitGoProofs TypedProofs NoPanicD.
From Verif Require Import CoreGoProofs IterGoProofs ListGoProofs UpdateGoProofs MakeGoProofs.

Local Open Scope Z_scope.
Module T := TypedGo.

Lemma return_call_spec (f : flow unit U.out) r : f = outcome r -> returns (T.return_call f tt) = outcome r.
Proof. intros ->. destruct r; reflexivity. Qed.
Lemma with_format_spec pf value (f : bytes -> flow unit U.out) r : (forall v, f v = outcome (r v)) -> returns (T.with_format pf value f tt) = outcome (r (formatType pf value)).
Proof. intro H. unfold T.with_format, call. rewrite formatType_go_spec. apply return_call_spec, H. Qed.
Lemma with_int_spec value base (f : bytes -> flow unit U.out) r : (forall v, f v = outcome (r v)) -> returns (T.with_int value base f tt) = outcome (pbind (FormatInt value base) r).
Proof. intro H. unfold T.with_int, read. destruct (FormatInt value base); [apply return_call_spec, H|reflexivity..]. Qed.
Lemma with_uint_spec value base (f : bytes -> flow unit U.out) r : (forall v, f v = outcome (r v)) -> returns (T.with_uint value base f tt) = outcome (pbind (FormatUint value base) r).
Proof. intro H. unfold T.with_uint, read. destruct (FormatUint value base); [apply return_call_spec, H|reflexivity..]. Qed.
Lemma with_bool_spec value (f : bytes -> flow unit U.out) r : (forall v, f v = outcome (r v)) -> returns (T.with_bool value f tt) = outcome (r (bool_text value)).
Proof.
  intro H. destruct value; [|apply (return_call_spec (f (b "false")) (r (b "false"))), H].
  transitivity (returns (T.return_call (f (b "true")) tt)); [|apply (return_call_spec (f (b "true")) (r (b "true"))), H].
  unfold T.with_bool, then_, if_, T.return_call, call, return_. rewrite H. destruct (r _); reflexivity.
Qed.
Lemma key_given_spec json key c r : returns (c tt) = outcome r ->
  returns ((T.key_given json key ;; c) tt) = outcome (match key with [] => Fail (Some json) ENullKey | _ => r end).
Proof. intro H. destruct key; [reflexivity|]. exact H. Qed.
Lemma key_given_none key c r : returns (c tt) = outcome r ->
  returns ((T.key_given [] key ;; c) tt) = outcome (match key with [] => Fail None ENullKey | _ => r end).
Proof. intro H. destruct key; [reflexivity|]. exact H. Qed.
Lemma index_given_spec json index c r : returns (c tt) = outcome r ->
  returns ((T.index_given json index ;; c) tt) = outcome (if index <? 0 then Fail (Some json) EIndexOutOfRange else r).
Proof. intro H. unfold T.index_given, then_, if_. destruct (index <? 0); [reflexivity|]. exact H. Qed.
Lemma index_given_none index c r : returns (c tt) = outcome r ->
  returns ((T.index_given [] index ;; c) tt) = outcome (if index <? 0 then Fail None EIndexOutOfRange else r).
Proof. intro H. unfold T.index_given, then_, if_. destruct (index <? 0); [reflexivity|]. exact H. Qed.

Section Typed.
  Variables (fuel : nat) (pf : bytes -> bool) (json : bytes) (path : list bytes).
  Hypothesis Hbytes : Forall (fun c => (c < 256)%N) json.
  Hypothesis Hjson : (length json < fuel)%nat.
  Hypothesis Hpath : (S (length path) < fuel)%nat.
  Ltac base := intros; first [apply Set_go_spec|apply Store_go_spec|apply AddKeyValue_go_spec|apply Add_go_spec|apply Insert_go_spec]; (assumption || lia).

  Theorem set_t_spec :
    (forall v, T.SetString_t fuel pf json v path = outcome (SetString pf json v path)) /\ (forall v, T.SetInt_t fuel json v path = outcome (SetInt json v path)) /\
    (forall v, T.SetFloat_t fuel json v path = outcome (SetFloat json v path)) /\ (forall v, T.SetBool_t fuel json v path = outcome (SetBool json v path)).
  Proof.
    unfold T.SetString_t, T.SetInt_t, T.SetFloat_t, T.SetBool_t, SetString, SetInt, SetFloat, SetBool.
    repeat match goal with |- _ /\ _ => split end; intros; unfold func;
      [refine (with_format_spec _ _ _ (fun v => Set_ json v path) _)|refine (return_call_spec _ _ _)..|refine (with_bool_spec _ _ (fun v => Set_ json v path) _)]; base.
  Qed.
  Theorem store_t_spec :
    (forall k v, T.StoreString_t fuel pf json k v path = outcome (StoreString pf json k v path)) /\ (forall k v, T.StoreInt_t fuel json k v path = outcome (StoreInt json k v path)) /\
    (forall k v, T.StoreFloat_t fuel json k v path = outcome (StoreFloat json k v path)) /\ (forall k v, T.StoreBool_t fuel json k v path = outcome (StoreBool json k v path)).
  Proof.
    unfold T.StoreString_t, T.StoreInt_t, T.StoreFloat_t, T.StoreBool_t, StoreString, StoreInt, StoreFloat, StoreBool.
    repeat match goal with |- _ /\ _ => split end; intros; unfold func;
      [refine (with_format_spec _ _ _ (fun v => Store json k (Some v) path) _)|refine (return_call_spec _ _ _)..|refine (with_bool_spec _ _ (fun v => Store json k (Some v) path) _)]; base.
  Qed.
  Theorem add_key_value_t_spec :
    (forall k v, T.AddKeyValueString_t fuel pf json k v path = outcome (AddKeyValueString pf json k v path)) /\ (forall k v, T.AddKeyValueInt_t fuel json k v path = outcome (AddKeyValueInt json k v path)) /\
    (forall k v, T.AddKeyValueUint_t fuel json k v path = outcome (AddKeyValueUint json k v path)) /\ (forall k v, T.AddKeyValueInt32_t fuel json k v path = outcome (AddKeyValueInt32 json k v path)) /\
    (forall k v, T.AddKeyValueInt64_t fuel json k v path = outcome (AddKeyValueInt64 json k v path)) /\ (forall k v, T.AddKeyValueUint32_t fuel json k v path = outcome (AddKeyValueUint32 json k v path)) /\
    (forall k v, T.AddKeyValueUint64_t fuel json k v path = outcome (AddKeyValueUint64 json k v path)) /\ (forall k v, T.AddKeyValueFloat_t fuel json k v path = outcome (AddKeyValueFloat json k v path)) /\
    (forall k v, T.AddKeyValueBool_t fuel json k v path = outcome (AddKeyValueBool json k v path)).
  Proof.
    unfold T.AddKeyValueString_t, T.AddKeyValueInt_t, T.AddKeyValueFloat_t, T.AddKeyValueBool_t, T.AddKeyValueUint_t, T.AddKeyValueInt32_t, T.AddKeyValueInt64_t, T.AddKeyValueUint32_t, T.AddKeyValueUint64_t,
      AddKeyValueString, AddKeyValueInt, AddKeyValueFloat, AddKeyValueBool, AddKeyValueUint, AddKeyValueInt32, AddKeyValueInt64, AddKeyValueUint32, AddKeyValueUint64, null_key.
    repeat match goal with |- _ /\ _ => split end; intros; unfold func; first [apply key_given_none|apply key_given_spec];
    first [refine (with_format_spec _ _ _ (fun v => AddKeyValue json k (Some v) path) _)|refine (with_int_spec _ _ _ _ _)|refine (with_uint_spec _ _ _ _ _)|refine (with_bool_spec _ _ (fun v => AddKeyValue json k (Some v) path) _)|refine (return_call_spec _ _ _)]; base.
  Qed.
  Theorem add_t_spec :
    (forall v, T.AddString_t fuel pf json v path = outcome (AddString pf json v path)) /\ (forall v, T.AddInt_t fuel json v path = outcome (AddInt json v path)) /\
    (forall v, T.AddInt32_t fuel json v path = outcome (AddInt32 json v path)) /\ (forall v, T.AddInt64_t fuel json v path = outcome (AddInt64 json v path)) /\
    (forall v, T.AddUint_t fuel json v path = outcome (AddUint json v path)) /\ (forall v, T.AddUint32_t fuel json v path = outcome (AddUint32 json v path)) /\
    (forall v, T.AddUint64_t fuel json v path = outcome (AddUint64 json v path)) /\ (forall v, T.AddFloat_t fuel json v path = outcome (AddFloat json v path)) /\
    (forall v, T.AddBool_t fuel json v path = outcome (AddBool json v path)).
  Proof.
    unfold T.AddString_t, T.AddInt_t, T.AddFloat_t, T.AddBool_t, T.AddUint_t, T.AddInt32_t, T.AddInt64_t, T.AddUint32_t, T.AddUint64_t,
      AddString, AddInt, AddFloat, AddBool, AddUint, AddInt32, AddInt64, AddUint32, AddUint64.
    repeat match goal with |- _ /\ _ => split end; intros; unfold func;
    first [refine (with_format_spec _ _ _ (fun v => Add_ json v path) _)|refine (with_int_spec _ _ _ _ _)|refine (with_uint_spec _ _ _ _ _)|refine (with_bool_spec _ _ (fun v => Add_ json v path) _)|refine (return_call_spec _ _ _)]; base.
  Qed.
  Theorem insert_t_spec :
    (forall i v, T.InsertString_t fuel pf json i v path = outcome (InsertString pf json i v path)) /\ (forall i v, T.InsertInt_t fuel json i v path = outcome (InsertInt json i v path)) /\
    (forall i v, T.InsertInt32_t fuel json i v path = outcome (InsertInt32 json i v path)) /\ (forall i v, T.InsertInt64_t fuel json i v path = outcome (InsertInt64 json i v path)) /\
    (forall i v, T.InsertUint_t fuel json i v path = outcome (InsertUint json i v path)) /\ (forall i v, T.InsertUint32_t fuel json i v path = outcome (InsertUint32 json i v path)) /\
    (forall i v, T.InsertUint64_t fuel json i v path = outcome (InsertUint64 json i v path)) /\ (forall i v, T.InsertFloat_t fuel json i v path = outcome (InsertFloat json i v path)) /\
    (forall i v, T.InsertBool_t fuel json i v path = outcome (InsertBool json i v path)).
  Proof.
    unfold T.InsertString_t, T.InsertInt_t, T.InsertFloat_t, T.InsertBool_t, T.InsertUint_t, T.InsertInt32_t, T.InsertInt64_t, T.InsertUint32_t, T.InsertUint64_t,
      InsertString, InsertInt, InsertFloat, InsertBool, InsertUint, InsertInt32, InsertInt64, InsertUint32, InsertUint64, neg_index.
    repeat match goal with |- _ /\ _ => split end; intros; unfold func; first [apply index_given_none|apply index_given_spec];
    first [refine (with_format_spec _ _ _ (fun v => Insert json i v path) _)|refine (with_int_spec _ _ _ _ _)|refine (with_uint_spec _ _ _ _ _)|refine (with_bool_spec _ _ (fun v => Insert json i v path) _)|refine (return_call_spec _ _ _)]; base.
  Qed.
End Typed.

(** ** JO *)
Definition stored (r : JO.jres) : flow unit U.out := match r with JO.JRet body e => Ret (body, e) | JO.JPanic => Pan end.
Lemma assigned_spec f body r : f body = outcome r -> func (T.assigned f) body = stored (JO.assign r).
Proof. intro H. unfold func, T.assigned, call. rewrite H. destruct r as [o|[o|] e|]; reflexivity. Qed.
Lemma body_replaced_spec v s e body x y : s = Z.of_nat x -> e = Z.of_nat y ->
  returns (T.body_replaced v s e body) = stored (JO.assign (done_replace body v x y)).
Proof. intros -> ->. unfold T.body_replaced, then_, call. rewrite replace_go_spec. unfold done_replace, pbind. destruct (replace body v x y); reflexivity. Qed.
Lemma body_replaced_then v s e body x y (c : cmd bytes U.out) : s = Z.of_nat x -> e = Z.of_nat y ->
  returns ((T.body_replaced v s e ;; c) body) = stored (JO.assign (done_replace body v x y)).
Proof. intros -> ->. unfold T.body_replaced, then_, call. rewrite replace_go_spec. unfold done_replace, pbind. destruct (replace body v x y); reflexivity. Qed.
Lemma spanned_spec v s e body : 
  returns (((read (fun body => I.and_also (I.is_quote body (Z.of_nat s - 1)) (I.is_quote body (Z.of_nat e))) (fun quoted =>
    if_ (fun _ => quoted) (T.body_replaced v (Z.of_nat s - 1) (Z.of_nat e + 1)) pass)) ;; T.body_replaced v (Z.of_nat s) (Z.of_nat e)) body) =
  stored (JO.assign (set_span body v s e)).
Proof.
  unfold set_span. unfold then_ at 1, read at 1. unfold I.and_also, I.is_quote. rewrite (zat_pred (S (length body))), zat_at by lia. destruct s as [|s]; [reflexivity|].
  destruct (at_pred_res body (S s)) as [[c ->]| ->]; cbn [bind pbind]; [|reflexivity]. destruct (c =? 34)%N eqn:Ec; [|unfold if_, pass; apply body_replaced_spec; reflexivity].
  destruct (at_res body e) as [[d ->]| ->]; cbn [bind pbind]; [|reflexivity]. destruct (d =? 34)%N; unfold if_, pass; [|apply body_replaced_spec; reflexivity].
  apply (body_replaced_then v _ _ body s (S e) (T.body_replaced v (Z.of_nat (S s)) (Z.of_nat e))); lia.
Qed.

Definition path_of (c : JO.jcall) : list bytes :=
  match c with
  | JO.CAddKeyValue _ _ q | JO.CAdd _ q | JO.CInsert _ _ q | JO.CAddKeyValueString _ _ q | JO.CAddKeyValueInt _ _ q | JO.CAddKeyValueFloat _ _ q | JO.CAddKeyValueBool _ _ q
  | JO.CAddString _ q | JO.CAddInt _ q | JO.CAddFloat _ q | JO.CAddBool _ q | JO.CInsertString _ _ q | JO.CInsertInt _ _ q | JO.CInsertFloat _ _ q | JO.CInsertBool _ _ q
  | JO.CStore _ _ q | JO.CStoreString _ _ q | JO.CStoreInt _ _ q | JO.CStoreFloat _ _ q | JO.CStoreBool _ _ q
  | JO.CSet _ q | JO.CSetString _ q | JO.CSetInt _ q | JO.CSetFloat _ q | JO.CSetBool _ q | JO.CSetKey _ q | JO.CDelete q => q
  end.
Section JO.
  Variables (fuel : nat) (pf : bytes -> bool) (body : bytes).
  Hypothesis Hbytes : Forall (fun c => (c < 256)%N) body.
  Hypothesis Hbody : (length body < fuel)%nat.
  Theorem JO_Store_go_spec key value path : (S (length path) < fuel)%nat -> T.JO_Store_go fuel body key value path = stored (JO.JO_Store body key value path).
  Proof.
    intro Hp. rewrite JOProofs.jo_store. unfold T.JO_Store_go, Store, func. cbv zeta. unfold call at 1. rewrite core_go_as_core by (rewrite ?app_length; cbn [length]; assumption || lia).
    destruct (core body false (path ++ [key])) as [[[[ks|] s] e]|er|]; cbn [bind returns]; try reflexivity; [apply spanned_spec|apply spanned_spec|].
    unfold then_, if_, pass. destruct (err_equal (Some er) 8); [|reflexivity]. unfold T.assigned, call. rewrite AddKeyValue_go_spec by assumption. destruct (AddKeyValue body key value path) as [o|[o|] x|]; reflexivity.
  Qed.
  Theorem do_j_spec c : (S (length (path_of c)) < fuel)%nat -> T.do_j fuel pf c body = stored (JO.jo_call pf body c).
  Proof.
    intro Hp. destruct c; cbn [path_of] in Hp; unfold T.do_j, JO.jo_call; cbv zeta; try (apply assigned_spec).
    all: try (first [apply Set_go_spec|apply SetKey_go_spec|apply Delete_go_spec|apply Store_go_spec|apply AddKeyValue_go_spec|apply Add_go_spec|apply Insert_go_spec]; (assumption || lia)).
    all: try (first [apply set_t_spec|apply store_t_spec|apply add_key_value_t_spec|apply add_t_spec|apply insert_t_spec]; assumption).
    - apply JO_Store_go_spec. exact Hp.
    - destruct v; [|apply (assigned_spec (fun body => U.Store_go fuel body key (Some (b "false")) path)); apply Store_go_spec; assumption].
      etransitivity; [|apply (assigned_spec (fun body => U.Store_go fuel body key (Some (b "true")) path)); apply Store_go_spec; assumption].
      unfold func, then_, if_, T.assigned, call. destruct (U.Store_go _ _ _ _ _); reflexivity.
  Qed.
End JO.

(** *** Histories *)
Lemma octets_itoa z : octets (itoa z).
Proof.
  assert (K : forall n, octets (itoa_N n)).
  { intro n. apply Forall_forall. intros c Hc. apply itoa_N_digits in Hc. lia. }
  unfold itoa. destruct (z <? 0); [constructor; [lia|]|]; apply K.
Qed.
Lemma octets_bool v : octets (bool_text v).
Proof. destruct v; repeat constructor. Qed.
Lemma octets_format pf v : octets v -> octets (formatType pf v).
Proof. apply small_format. Qed.
Lemma keeps_add_kv' json key value path : octets json -> octets key -> octets (match value with Some v => v | None => [] end) -> keeps (AddKeyValue json key value path).
Proof. destruct value as [v|]; [apply keeps_add_kv|]. intros. unfold AddKeyValue. keep. Qed.
Lemma keeps_store' json key value path : octets json -> octets key -> octets (match value with Some v => v | None => [] end) -> keeps (Store json key value path).
Proof. destruct value as [v|]; [apply keeps_store|]. intros. unfold Store. keep; try (apply keeps_span; [assumption|constructor]). apply keeps_add_kv'; assumption. Qed.
Lemma jo_keeps pf body c body' e : octets body -> jcall_octets c -> JO.jo_call pf body c = JO.JRet body' e -> octets body'.
Proof.
  intros Hb Hc.
  assert (K : forall r, keeps r -> JO.assign r = JO.JRet body' e -> octets body').
  { intros [o|[o|] x|] K E; inversion E; subst; exact K || constructor. }
  assert (D : forall r, (exists u, r = JO.assign u /\ keeps u) -> r = JO.JRet body' e -> octets body').
  { intros r (u & -> & H). apply K. exact H. }
  apply D. clear K D. destruct c; cbn [jcall_octets] in Hc; try (match type of Hc with _ /\ _ => destruct Hc end); unfold JO.jo_call; try rewrite JOProofs.jo_store; (eexists; split; [reflexivity|]).
  all: unfold AddKeyValueString, AddKeyValueInt, AddKeyValueFloat, AddKeyValueBool, AddString, AddInt, AddFloat, AddBool, InsertString, InsertInt, InsertFloat, InsertBool, SetString, SetInt, SetFloat, SetBool, null_key, neg_index.
  all: try match goal with |- keeps (match ?x with [] => _ | _ => _ end) => destruct x; [first [exact Hb|constructor]|] end.
  all: try match goal with |- keeps (if (?x <? 0)%Z then _ else _) => destruct (x <? 0)%Z; [first [exact Hb|constructor]|] end.
  all: try match goal with |- keeps (if ?x then _ else _) => destruct x end.
  all: first [apply keeps_add_kv'|apply keeps_store'|apply keeps_add|apply keeps_insert|apply keeps_set|apply keeps_set_key|apply keeps_delete]; try assumption; try apply octets_itoa; try apply octets_bool; try (apply octets_format; assumption); repeat constructor.
Qed.
Theorem calls_j_spec pf cs : forall body, octets body -> Forall jcall_octets cs ->
  eventually (fun fuel => T.calls_j fuel pf cs body = match JO.jo_run pf body cs with Some r => Ret r | None => Pan end).
Proof.
  induction cs as [|c cs IH]; intros body Hb Hc; cbn [T.calls_j JO.jo_run]; [exists 0%nat; reflexivity|]. apply Forall_cons_iff in Hc. destruct Hc as [Hc Hr].
  assert (H : eventually (fun fuel => T.do_j fuel pf c body = stored (JO.jo_call pf body c))).
  { exists (length body + length (path_of c) + 2)%nat. intros fuel Hf. apply do_j_spec; [exact Hb|lia|lia]. }
  pose proof (jo_keeps pf body c) as Hk. destruct (JO.jo_call pf body c) as [body' e|]; cbn [stored] in H.
  - specialize (IH body' (Hk _ _ Hb Hc eq_refl) Hr). destruct H as [n Hn], IH as [m Hm]. exists (n + m)%nat. intros fuel Hf. rewrite Hn by lia. rewrite Hm by lia. destruct (JO.jo_run pf body' cs) as [[out es]|]; reflexivity.
  - destruct H as [n Hn]. exists n. intros fuel Hf. rewrite Hn by exact Hf. reflexivity.
Qed.

(** ** What was written is read *)
Lemma round {A} (w : nat -> flow unit U.out) (rd : nat -> bytes -> list bytes -> flow unit (A * option err)) (model : bytes -> list bytes -> res A) (none : A) (json : bytes) (path path' : list bytes) (u : upd) (out : bytes) (v : A) :
  (forall fuel, (length json < fuel)%nat -> (S (length path) < fuel)%nat -> w fuel = outcome u) -> keeps u -> u = Done out ->
  (forall fuel json path, Forall (fun c => (c < 256)%N) json -> (length json < fuel)%nat -> (length path < fuel)%nat -> rd fuel json path = told none (model json path)) ->
  model out path' = Ok v ->
  eventually (fun fuel => w fuel = Ret (out, None) /\ rd fuel out path' = Ret (v, None)).
Proof.
  intros Hw Hk -> Hr Hm. exists (length json + length path + length out + length path' + 3)%nat. intros fuel Hf. rewrite Hw by lia. split; [reflexivity|].
  rewrite Hr; [rewrite Hm; reflexivity|exact Hk|lia|lia].
Qed.
Lemma keeps_neg json i u : octets json -> keeps u -> keeps (neg_index json i u).
Proof. intros Hj H. unfold neg_index. destruct (i <? 0); [exact Hj|exact H]. Qed.
Lemma keeps_null json k u : octets json -> keeps u -> keeps (null_key json k u).
Proof. intros Hj H. unfold null_key. destruct k; [exact Hj|exact H]. Qed.
Section Rounds.
  Variable d : doc.
  Hypotheses (Hw : wf_doc d = true) (Ho : octets (text d)).
  Ltac oct1 := first [exact Ho|apply octets_itoa|apply octets_bool|assumption].
  Ltac int_read := intros; apply SplitGoProofs.GetInt_go_spec; assumption.
  Ltac bool_read := intros; apply SplitGoProofs.GetBool_go_spec; assumption.
  Theorem ints_written z : in_int64 z = true ->
    (forall p, p <> [] -> lookup (d_val d) p <> None -> exists out,
       eventually (fun fuel => T.SetInt_t fuel (text d) z p = Ret (out, None) /\ SplitGo.GetInt_go fuel out p = Ret (z, None))) /\
    (forall p w els, lookup (d_val d) p = Some (JArr w els) -> in_int64 (Z.of_nat (length els)) = true -> exists out,
       eventually (fun fuel => T.AddInt_t fuel (text d) z p = Ret (out, None) /\ SplitGo.GetInt_go fuel out (p ++ [itoa (Z.of_nat (length els))]) = Ret (z, None))) /\
    (forall p k w ms out, octets k -> str_ok k = true -> lookup (d_val d) p = Some (JObj w ms) -> eventually (fun fuel => T.AddKeyValueInt_t fuel (text d) k z p = Ret (out, None)) ->
       eventually (fun fuel => SplitGo.GetInt_go fuel out (p ++ [k]) = Ret (z, None))) /\
    (forall p k w ms, octets k -> str_ok k = true -> lookup (d_val d) p = Some (JObj w ms) -> d_lookup (content (d_val d)) (p ++ [k]) <> None \/ seen_absent d p k -> exists out,
       eventually (fun fuel => T.StoreInt_t fuel (text d) k z p = Ret (out, None) /\ SplitGo.GetInt_go fuel out (p ++ [k]) = Ret (z, None))) /\
    (forall p i w els, (i <= int64_max)%Z -> lookup (d_val d) p = Some (JArr w els) -> insert_layout els i -> nth_z els i <> None -> exists out,
       eventually (fun fuel => T.InsertInt_t fuel (text d) i z p = Ret (out, None) /\ SplitGo.GetInt_go fuel out (p ++ [itoa i]) = Ret (z, None))).
  Proof.
    intro Hz. repeat match goal with |- _ /\ _ => split end.
    - intros p Hp Hl. destruct (TypedProofs.set_int d p z Hw Hz Hp Hl) as (out & E & R). exists out.
      apply (round (fun fuel => T.SetInt_t fuel (text d) z p) SplitGo.GetInt_go GetInt (-1) (text d) p p (SetInt (text d) z p) out z); [intros; apply (set_t_spec _ (fun _ => false)); assumption|apply keeps_set; oct1|exact E|int_read|exact R].
    - intros p w els Hl Hn. destruct (TypedProofs.add_int d p z w els Hw Hz Hl Hn) as (out & E & R). exists out.
      apply (round (fun fuel => T.AddInt_t fuel (text d) z p) SplitGo.GetInt_go GetInt (-1) (text d) p _ (AddInt (text d) z p) out z); [intros; apply (add_t_spec _ (fun _ => false)); assumption|apply keeps_add; oct1|exact E|int_read|exact R].
    - intros p k w ms out Hk Hs Hl [n Hn].
      assert (E : AddKeyValueInt (text d) k z p = Done out).
      { pose (fuel := (n + length (text d) + length p + 2)%nat). specialize (Hn fuel ltac:(unfold fuel; lia)).
        pose proof (proj1 (proj2 (add_key_value_t_spec fuel (fun _ => false) (text d) p Ho ltac:(unfold fuel; lia) ltac:(unfold fuel; lia))) k z) as H. rewrite Hn in H. destruct (AddKeyValueInt _ _ _ _) as [o|[o|] e|]; inversion H; reflexivity. }
      pose proof (TypedProofs.add_kv_int d p k z w ms out Hw Hz Hs Hl E) as R.
      assert (K : octets out). { assert (K : keeps (AddKeyValueInt (text d) k z p)) by (apply keeps_null; [exact Ho|apply keeps_add_kv; oct1]). rewrite E in K. exact K. }
      exists (length out + length (p ++ [k]) + 1)%nat. intros fuel Hf. rewrite SplitGoProofs.GetInt_go_spec by (exact K || lia). rewrite R. reflexivity.
    - intros p k w ms Hk Hs Hl Hp. destruct (TypedProofs.store_int d p k z w ms Hw Hz Hs Hl Hp) as (out & E & R). exists out.
      apply (round (fun fuel => T.StoreInt_t fuel (text d) k z p) SplitGo.GetInt_go GetInt (-1) (text d) p _ (StoreInt (text d) k z p) out z); [intros; apply (store_t_spec _ (fun _ => false)); assumption|apply keeps_store; oct1|exact E|int_read|exact R].
    - intros p i w els Hi Hl Hy Hn. destruct (TypedProofs.insert_int d p i z w els Hw Hz Hi Hl Hy Hn) as (out & E & R). exists out.
      apply (round (fun fuel => T.InsertInt_t fuel (text d) i z p) SplitGo.GetInt_go GetInt (-1) (text d) p _ (InsertInt (text d) i z p) out z); [intros; apply (insert_t_spec _ (fun _ => false)); assumption|apply keeps_neg; [oct1|apply keeps_insert; oct1]|exact E|int_read|exact R].
  Qed.
  Theorem bools_written v :
    (forall p, p <> [] -> lookup (d_val d) p <> None -> exists out,
       eventually (fun fuel => T.SetBool_t fuel (text d) v p = Ret (out, None) /\ SplitGo.GetBool_go fuel out p = Ret (v, None))) /\
    (forall p w els, lookup (d_val d) p = Some (JArr w els) -> in_int64 (Z.of_nat (length els)) = true -> exists out,
       eventually (fun fuel => T.AddBool_t fuel (text d) v p = Ret (out, None) /\ SplitGo.GetBool_go fuel out (p ++ [itoa (Z.of_nat (length els))]) = Ret (v, None))) /\
    (forall p k w ms, octets k -> str_ok k = true -> lookup (d_val d) p = Some (JObj w ms) -> d_lookup (content (d_val d)) (p ++ [k]) <> None \/ seen_absent d p k -> exists out,
       eventually (fun fuel => T.StoreBool_t fuel (text d) k v p = Ret (out, None) /\ SplitGo.GetBool_go fuel out (p ++ [k]) = Ret (v, None))) /\
    (forall p i w els, (i <= int64_max)%Z -> lookup (d_val d) p = Some (JArr w els) -> insert_layout els i -> nth_z els i <> None -> exists out,
       eventually (fun fuel => T.InsertBool_t fuel (text d) i v p = Ret (out, None) /\ SplitGo.GetBool_go fuel out (p ++ [itoa i]) = Ret (v, None))).
  Proof.
    repeat match goal with |- _ /\ _ => split end.
    - intros p Hp Hl. destruct (TypedProofs.set_bool d p v Hw Hp Hl) as (out & E & R). exists out.
      apply (round (fun fuel => T.SetBool_t fuel (text d) v p) SplitGo.GetBool_go GetBool false (text d) p p (SetBool (text d) v p) out v); [intros; apply (set_t_spec _ (fun _ => false)); assumption|apply keeps_set; oct1|exact E|bool_read|exact R].
    - intros p w els Hl Hn. destruct (TypedProofs.add_bool d p v w els Hw Hl Hn) as (out & E & R). exists out.
      apply (round (fun fuel => T.AddBool_t fuel (text d) v p) SplitGo.GetBool_go GetBool false (text d) p _ (AddBool (text d) v p) out v); [intros; apply (add_t_spec _ (fun _ => false)); assumption|apply keeps_add; oct1|exact E|bool_read|exact R].
    - intros p k w ms Hk Hs Hl Hp. destruct (TypedProofs.store_bool d p k v w ms Hw Hs Hl Hp) as (out & E & R). exists out.
      apply (round (fun fuel => T.StoreBool_t fuel (text d) k v p) SplitGo.GetBool_go GetBool false (text d) p _ (StoreBool (text d) k v p) out v); [intros; apply (store_t_spec _ (fun _ => false)); assumption|apply keeps_store; oct1|exact E|bool_read|exact R].
    - intros p i w els Hi Hl Hy Hn. destruct (TypedProofs.insert_bool d p i v w els Hw Hi Hl Hy Hn) as (out & E & R). exists out.
      apply (round (fun fuel => T.InsertBool_t fuel (text d) i v p) SplitGo.GetBool_go GetBool false (text d) p _ (InsertBool (text d) i v p) out v); [intros; apply (insert_t_spec _ (fun _ => false)); assumption|apply keeps_neg; [oct1|apply keeps_insert; oct1]|exact E|bool_read|exact R].
  Qed.
End Rounds.

(** ** The 64-bit writers *)
Theorem wide_written fuel json z n path k i : k <> [] -> 0 <= i ->
  T.AddInt64_t fuel json z path = Pan /\ T.AddUint_t fuel json n path = Pan /\ T.AddUint64_t fuel json n path = Pan /\
  T.AddKeyValueInt64_t fuel json k z path = Pan /\ T.AddKeyValueUint_t fuel json k n path = Pan /\ T.AddKeyValueUint64_t fuel json k n path = Pan /\
  T.InsertInt64_t fuel json i z path = Pan /\ T.InsertUint_t fuel json i n path = Pan /\ T.InsertUint64_t fuel json i n path = Pan.
Proof.
  intros Hk Hi.
  assert (U : FormatUint n 64 = Panic) by reflexivity. assert (I : FormatInt z 64 = Panic) by (unfold FormatInt; destruct (z <? 0); reflexivity).
  assert (Ei : (i <? 0) = false) by (apply Z.ltb_ge; exact Hi). destruct k as [|c k]; [contradiction|].
  repeat match goal with |- _ /\ _ => split end;
    unfold T.AddInt64_t, T.AddUint_t, T.AddUint64_t, T.AddKeyValueInt64_t, T.AddKeyValueUint_t, T.AddKeyValueUint64_t, T.InsertInt64_t, T.InsertUint_t, T.InsertUint64_t, func, then_, T.key_given, T.index_given, if_, T.with_int, T.with_uint, read;
    rewrite ?Ei, ?U, ?I; reflexivity.
Qed.

(** ** On every document, whatever the path: an answer *)
Lemma answers f (r : upd) (json : bytes) (path : list bytes) : (forall fuel, (length json < fuel)%nat -> (S (length path) < fuel)%nat -> f fuel = outcome r) -> r <> UPanic -> answered f.
Proof.
  intros H Hr. destruct r as [o|[o|] e|]; [exists o, None|exists o, (Some e)|exists [], (Some e)|contradiction];
    (exists (S (length json) + S (S (length path)))%nat; intros fuel Hf; apply H; lia).
Qed.
Theorem typed_updates_answer d (pf : bytes -> bool) key v index z flag path : wf_doc d = true -> octets (text d) ->
  answered (fun fuel => T.SetString_t fuel pf (text d) v path) /\ answered (fun fuel => T.SetInt_t fuel (text d) z path) /\
  answered (fun fuel => T.SetFloat_t fuel (text d) v path) /\ answered (fun fuel => T.SetBool_t fuel (text d) flag path) /\
  answered (fun fuel => T.StoreString_t fuel pf (text d) key v path) /\ answered (fun fuel => T.StoreInt_t fuel (text d) key z path) /\
  answered (fun fuel => T.StoreFloat_t fuel (text d) key v path) /\ answered (fun fuel => T.StoreBool_t fuel (text d) key flag path) /\
  answered (fun fuel => T.AddKeyValueString_t fuel pf (text d) key v path) /\ answered (fun fuel => T.AddKeyValueInt_t fuel (text d) key z path) /\
  answered (fun fuel => T.AddKeyValueFloat_t fuel (text d) key v path) /\ answered (fun fuel => T.AddKeyValueBool_t fuel (text d) key flag path) /\
  answered (fun fuel => T.AddString_t fuel pf (text d) v path) /\ answered (fun fuel => T.AddInt_t fuel (text d) z path) /\
  answered (fun fuel => T.AddFloat_t fuel (text d) v path) /\ answered (fun fuel => T.AddBool_t fuel (text d) flag path) /\
  answered (fun fuel => T.InsertString_t fuel pf (text d) index v path) /\ answered (fun fuel => T.InsertInt_t fuel (text d) index z path) /\
  answered (fun fuel => T.InsertFloat_t fuel (text d) index v path) /\ answered (fun fuel => T.InsertBool_t fuel (text d) index flag path).
Proof.
  intros Hw Hb. destruct (NoPanicD.documents_total d Hw pf key v index z flag path) as (_ & I1 & I2 & I3 & I4 & S1 & S2 & S3 & S4 & R1 & R2 & R3 & R4 & K1 & K2 & K3 & K4 & A1 & A2 & A3 & A4).
  split; [apply (answers _ _ (text d) path) with (2 := S1); intros fuel Hj Hp; destruct (set_t_spec fuel pf (text d) path Hb Hj Hp) as (H & _ & _ & _); exact (H v)|].
  split; [apply (answers _ _ (text d) path) with (2 := S2); intros fuel Hj Hp; destruct (set_t_spec fuel pf (text d) path Hb Hj Hp) as (_ & H & _ & _); exact (H z)|].
  split; [apply (answers _ _ (text d) path) with (2 := S3); intros fuel Hj Hp; destruct (set_t_spec fuel pf (text d) path Hb Hj Hp) as (_ & _ & H & _); exact (H v)|].
  split; [apply (answers _ _ (text d) path) with (2 := S4); intros fuel Hj Hp; destruct (set_t_spec fuel pf (text d) path Hb Hj Hp) as (_ & _ & _ & H); exact (H flag)|].
  split; [apply (answers _ _ (text d) path) with (2 := R1); intros fuel Hj Hp; destruct (store_t_spec fuel pf (text d) path Hb Hj Hp) as (H & _ & _ & _); exact (H key v)|].
  split; [apply (answers _ _ (text d) path) with (2 := R2); intros fuel Hj Hp; destruct (store_t_spec fuel pf (text d) path Hb Hj Hp) as (_ & H & _ & _); exact (H key z)|].
  split; [apply (answers _ _ (text d) path) with (2 := R3); intros fuel Hj Hp; destruct (store_t_spec fuel pf (text d) path Hb Hj Hp) as (_ & _ & H & _); exact (H key v)|].
  split; [apply (answers _ _ (text d) path) with (2 := R4); intros fuel Hj Hp; destruct (store_t_spec fuel pf (text d) path Hb Hj Hp) as (_ & _ & _ & H); exact (H key flag)|].
  split; [apply (answers _ _ (text d) path) with (2 := K1); intros fuel Hj Hp; destruct (add_key_value_t_spec fuel pf (text d) path Hb Hj Hp) as (H & _ & _ & _ & _ & _ & _ & _ & _); exact (H key v)|].
  split; [apply (answers _ _ (text d) path) with (2 := K2); intros fuel Hj Hp; destruct (add_key_value_t_spec fuel pf (text d) path Hb Hj Hp) as (_ & H & _ & _ & _ & _ & _ & _ & _); exact (H key z)|].
  split; [apply (answers _ _ (text d) path) with (2 := K3); intros fuel Hj Hp; destruct (add_key_value_t_spec fuel pf (text d) path Hb Hj Hp) as (_ & _ & _ & _ & _ & _ & _ & H & _); exact (H key v)|].
  split; [apply (answers _ _ (text d) path) with (2 := K4); intros fuel Hj Hp; destruct (add_key_value_t_spec fuel pf (text d) path Hb Hj Hp) as (_ & _ & _ & _ & _ & _ & _ & _ & H); exact (H key flag)|].
  split; [apply (answers _ _ (text d) path) with (2 := A1); intros fuel Hj Hp; destruct (add_t_spec fuel pf (text d) path Hb Hj Hp) as (H & _ & _ & _ & _ & _ & _ & _ & _); exact (H v)|].
  split; [apply (answers _ _ (text d) path) with (2 := A2); intros fuel Hj Hp; destruct (add_t_spec fuel pf (text d) path Hb Hj Hp) as (_ & H & _ & _ & _ & _ & _ & _ & _); exact (H z)|].
  split; [apply (answers _ _ (text d) path) with (2 := A3); intros fuel Hj Hp; destruct (add_t_spec fuel pf (text d) path Hb Hj Hp) as (_ & _ & _ & _ & _ & _ & _ & H & _); exact (H v)|].
  split; [apply (answers _ _ (text d) path) with (2 := A4); intros fuel Hj Hp; destruct (add_t_spec fuel pf (text d) path Hb Hj Hp) as (_ & _ & _ & _ & _ & _ & _ & _ & H); exact (H flag)|].
  split; [apply (answers _ _ (text d) path) with (2 := I1); intros fuel Hj Hp; destruct (insert_t_spec fuel pf (text d) path Hb Hj Hp) as (H & _ & _ & _ & _ & _ & _ & _ & _); exact (H index v)|].
  split; [apply (answers _ _ (text d) path) with (2 := I2); intros fuel Hj Hp; destruct (insert_t_spec fuel pf (text d) path Hb Hj Hp) as (_ & H & _ & _ & _ & _ & _ & _ & _); exact (H index z)|].
  split; [apply (answers _ _ (text d) path) with (2 := I3); intros fuel Hj Hp; destruct (insert_t_spec fuel pf (text d) path Hb Hj Hp) as (_ & _ & _ & _ & _ & _ & _ & H & _); exact (H index v)|].
  apply (answers _ _ (text d) path) with (2 := I4); intros fuel Hj Hp; destruct (insert_t_spec fuel pf (text d) path Hb Hj Hp) as (_ & _ & _ & _ & _ & _ & _ & _ & H); exact (H index flag).
Qed.
