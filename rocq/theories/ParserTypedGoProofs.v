(** The typed methods of Parser statement by statement (ParserTypedGo.v) compute what the models in Parser.v compute. *)
From Coq Require Import String Lia.
From Verif Require Import GoStd Core Errors Api Iter Typed Parser Tree SpecPtr Pointers GoLang SplitGo ParserGo AsWritten Octets ParserTypedGo PointerProofs ParserGoWritten.
From Verif Require MakeGoProofs ParserGoProofs CoreGoProofs ListGoProofs SplitGoProofs TypedGo TypedGoProofs.

Local Open Scope Z_scope.

(** ** Updates *)
(** The call that a typed call makes, if it makes one *)
Definition unless (g : bool) (e : err) (c : pcall) : res pcall := if g then Err e else Ok c.
Definition plain (pf : bytes -> bool) (c : tcall) : res pcall :=
  match c with
  | TCall c => Ok c
  | TSetString [] _ => Panic
  | TSetString (c :: r) path => Ok (CSet (if negb (c =? 34)%N && negb (last (c :: r) 0%N =? 34)%N then quote (c :: r) else c :: r) path)
  | TSetInt v path => Ok (CSet (itoa v) path)
  | TSetFloat v path => Ok (CSet v path)
  | TSetBool v path => Ok (CSet (bool_text v) path)
  | TAddKeyValueString key v path => unless (zlen key =? 0) ENullKey (CAddKeyValue key (formatType pf v) path)
  | TAddKeyValueInt key v path => unless (zlen key =? 0) ENullKey (CAddKeyValue key (itoa v) path)
  | TAddKeyValueFloat key v path => unless (zlen key =? 0) ENullKey (CAddKeyValue key v path)
  | TAddKeyValueBool key v path => unless (zlen key =? 0) ENullKey (CAddKeyValue key (bool_text v) path)
  | TAddString v path => Ok (CAdd (formatType pf v) path)
  | TAddInt v path => Ok (CAdd (itoa v) path)
  | TAddFloat v path => Ok (CAdd v path)
  | TAddBool v path => Ok (CAdd (bool_text v) path)
  | TInsertString index v path => unless (index <? 0) EIndexOutOfRange (CInsert index (formatType pf v) path)
  | TInsertInt index v path => unless (index <? 0) EIndexOutOfRange (CInsert index (itoa v) path)
  | TInsertFloat index v path => unless (index <? 0) EIndexOutOfRange (CInsert index v path)
  | TInsertBool index v path => unless (index <? 0) EIndexOutOfRange (CInsert index (bool_text v) path)
  end.

Lemma returns_twice {S A} (r : flow S A) : returns (returns r) = returns r.
Proof. destruct r; reflexivity. Qed.
Lemma do_returns L c p : returns (do_p L c p) = do_p L c p.
Proof. destruct c; apply returns_twice. Qed.
Lemma return_call_is {A} (f : flow unit A) : returns (TypedGo.return_call f tt) = returns f.
Proof. destruct f; reflexivity. Qed.
Lemma with_bool_is {A} v (f : bytes -> flow unit A) : (forall v, returns (f v) = f v) -> returns (TypedGo.with_bool v f tt) = f (bool_text v).
Proof.
  intro H. unfold TypedGo.with_bool, then_, if_, TypedGo.return_call, call, return_, pass.
  destruct v; [change (bool_text true) with (b "true"); specialize (H (b "true")); destruct (f (b "true"))|change (bool_text false) with (b "false"); specialize (H (b "false")); destruct (f (b "false"))]; cbn in *; congruence.
Qed.
Lemma with_format_is {A} pf v (f : bytes -> flow unit A) : (forall v, returns (f v) = f v) -> returns (TypedGo.with_format pf v f tt) = f (formatType pf v).
Proof. intro H. unfold TypedGo.with_format, call. rewrite MakeGoProofs.formatType_go_spec. rewrite return_call_is. apply H. Qed.

Lemma do_t_plain L pf p c : do_t L pf p c = match plain pf c with Ok c => do_p L c p | Err e => Ret (p, Some e) | Panic => Pan end.
Proof.
  assert (K : forall c f, f = do_p L c p -> returns (TypedGo.return_call f tt) = do_p L c p) by (intros c0 f ->; rewrite return_call_is; apply do_returns).
  destruct c; cbn [do_t plain]; try reflexivity; unfold func, unless.
  1: { unfold SetString_p, func. destruct v as [|c r]; [reflexivity|]. unfold then_ at 1, read at 1. change (zat (c :: r) 0) with (Ok c). cbn [bind].
    destruct (c =? 34)%N eqn:Ec; cbn [negb andb]; [apply (K (CSet (c :: r) path)); reflexivity|].
    replace (zlen (c :: r) - 1) with (Z.of_nat (length r)) by (unfold zlen; cbn [length]; lia). rewrite CoreGoProofs.zat_nth.
    assert (E : nth_error (c :: r) (length r) = Some (last (c :: r) 0%N)).
    { clear. revert c. induction r as [|d r IH]; intro c; [reflexivity|]. cbn [length nth_error]. rewrite IH. reflexivity. }
    rewrite E. cbn [bind]. destruct (last (c :: r) 0%N =? 34)%N; cbn [negb]; unfold if_; [apply (K (CSet (c :: r) path)); reflexivity|].
    rewrite <- (do_returns L (CSet (quote (c :: r)) path) p). cbn [do_p]. unfold TypedGo.return_call, call, return_. change (b """" ++ (c :: r) ++ b """") with (quote (c :: r)). destruct (Set_p L p (quote (c :: r)) path); reflexivity. }
  all: try (apply K; reflexivity).
  all: try (refine (with_bool_is _ _ _); intro; apply returns_twice).
  all: try (refine (with_format_is _ _ _ _); intro; apply returns_twice).
  all: try (unfold p_key_given, then_, if_; destruct (zlen key =? 0); [reflexivity|]; unfold pass).
  all: try (unfold p_index_given, then_, if_; destruct (index <? 0); [reflexivity|]; unfold pass).
  all: try (apply (K (CAddKeyValue key _ path)); reflexivity).
  all: try (apply (K (CInsert index _ path)); reflexivity).
  all: try (refine (with_bool_is _ _ _); intro; apply returns_twice).
  all: try (refine (with_format_is _ _ _ _); intro; apply returns_twice).
Qed.
Lemma t_do_plain pf c p : t_do pf c p = match plain pf c with Ok c => p_do c p | Err e => PRet p (Some e) | Panic => PPanic end.
Proof.
  destruct c; cbn [t_do plain]; try reflexivity.
  1: { destruct v as [|c r]; [reflexivity|]. unfold P_SetString. destruct (_ && _)%bool; reflexivity. }
  all: unfold P_AddKeyValueString, P_AddKeyValueInt, P_AddKeyValueFloat, P_AddKeyValueBool, P_InsertString, P_InsertInt, P_InsertFloat, P_InsertBool, unless; try (destruct (index <? 0); reflexivity); destruct key; reflexivity.
Qed.
Lemma plain_octets pf c c' : tcall_octets c -> plain pf c = Ok c' -> pcall_octets c'.
Proof.
  destruct c; cbn [tcall_octets plain]; unfold unless; intros H E;
    try (destruct (zlen key =? 0); [discriminate E|]); try (destruct (index <? 0); [discriminate E|]);
    try (injection E as <-; cbn [pcall_octets]; try match type of H with _ /\ _ => destruct H end;
         repeat split; try assumption; try apply TypedGoProofs.octets_itoa; try apply TypedGoProofs.octets_bool; try (apply TypedGoProofs.octets_format; assumption)).
  destruct v as [|c r]; [discriminate E|]. injection E as <-. cbn [pcall_octets]. destruct (_ && _)%bool; [apply MakeGoProofs.small_quote|]; exact H.
Qed.

(** ** Readers *)
Section Readers.
  Variables (q : qparser) (p : parser).
  Hypothesis Hget : forall path, Q_Get q path = P_Get p path.
  Notation told := ListGoProofs.told.
  Lemma GetString_written path : eventually (fun fuel => GetString_p (as_written fuel) q path = told [] (P_GetString p path)).
  Proof. refine (eventually_map _ _ _ (Get_written q path)). intros fuel H. unfold GetString_p, func, call. rewrite H, Hget. unfold P_GetString. destruct (P_Get p path); reflexivity. Qed.
  Lemma long_enough (m : res bytes) : eventually (fun fuel => forall val, m = Ok val -> (length val < fuel)%nat).
  Proof. destruct m as [v| |]; [exists (S (length v))|exists 0%nat|exists 0%nat]; intros fuel Hf val E; [injection E as <-; lia|discriminate..]. Qed.
  Lemma read_written {A} (f : nat -> flow unit (bytes * option err) -> flow unit (A * option err)) none (g : bytes -> res A) path :
    (forall fuel src m, src = told [] m -> (forall val, m = Ok val -> (length val < fuel)%nat) -> f fuel src = told none (do val <- m; g val)) ->
    eventually (fun fuel => f fuel (GetString_p (as_written fuel) q path) = told none (do val <- P_GetString p path; g val)).
  Proof. intro H. refine (eventually_map _ _ _ (eventually_and _ _ (GetString_written path) (long_enough (P_GetString p path)))). intros fuel [H1 H2]. apply H; assumption. Qed.
  Theorem readers_written path :
    eventually (fun fuel => GetString_p (as_written fuel) q path = told [] (P_GetString p path)) /\
    eventually (fun fuel => GetInt_p (as_written fuel) q path = told (-1) (P_GetInt p path)) /\
    eventually (fun fuel => GetBool_p (as_written fuel) q path = told false (P_GetBool p path)) /\
    (forall (F : Type) (pf : bytes -> option F) minus1, eventually (fun fuel => GetFloat_p (as_written fuel) q path pf minus1 = told minus1 (P_GetFloat pf p path))) /\
    eventually (fun fuel => GetStringArray_p fuel (as_written fuel) q path = told [] (P_GetStringArray p path)) /\
    eventually (fun fuel => GetIntArray_p fuel (as_written fuel) q path = told [] (P_GetIntArray p path)) /\
    eventually (fun fuel => GetBoolArray_p fuel (as_written fuel) q path = told [] (P_GetBoolArray p path)) /\
    (forall (F : Type) (pf : bytes -> option F), eventually (fun fuel => GetFloatArray_p fuel (as_written fuel) q path pf = told [] (P_GetFloatArray pf p path))).
  Proof.
    split; [apply GetString_written|].
    split; [apply (read_written (fun _ => GetInt_of)); intros; apply (SplitGoProofs.GetInt_of_spec fuel); assumption|].
    split; [apply (read_written (fun _ => GetBool_of)); intros; apply (SplitGoProofs.GetBool_of_spec fuel); assumption|].
    split; [intros F pf minus1; apply (read_written (fun _ => GetFloat_of pf minus1)); intros; apply (SplitGoProofs.GetFloat_of_spec fuel); assumption|].
    split; [apply (read_written (fun fuel => GetStringArray_of fuel)); intros; apply SplitGoProofs.GetStringArray_of_spec; assumption|].
    split; [apply (read_written (fun fuel => GetIntArray_of fuel)); intros; apply SplitGoProofs.GetIntArray_of_spec; assumption|].
    split; [apply (read_written (fun fuel => GetBoolArray_of fuel)); intros; apply SplitGoProofs.GetBoolArray_of_spec; assumption|].
    intros F pf. apply (read_written (fun fuel => GetFloatArray_of fuel pf)); intros; apply SplitGoProofs.GetFloatArray_of_spec; assumption.
  Qed.
End Readers.

(** ** Histories *)
Theorem typed_calls_written pf cs : forall q p, sim q p -> octets (q_json q) -> Forall tcall_octets cs ->
  match t_calls pf cs p with
  | Some (p', es) => exists q', eventually (fun fuel => calls_t (as_written fuel) pf cs q = Ret (q', es)) /\ sim q' p'
  | None => eventually (fun fuel => calls_t (as_written fuel) pf cs q = Pan)
  end.
Proof.
  induction cs as [|c cs IH]; intros q p Hs Ho Hc; cbn [t_calls]; [exists q; split; [apply eventually_now; reflexivity|exact Hs]|].
  apply Forall_cons_iff in Hc. destruct Hc as [Hc Hr]. rewrite t_do_plain.
  assert (Hd : forall L, do_t L pf q c = match plain pf c with Ok c => do_p L c q | Err e => Ret (q, Some e) | Panic => Pan end) by (intro L; apply do_t_plain).
  pose proof (plain_octets pf c) as Hpo. destruct (plain pf c) as [c'|e|].
  - pose proof (do_settles c' q Ho (Hpo c' Hc eq_refl)) as [H1 H2]. rewrite ParserGoProofs.do_go_spec in H1, H2. pose proof (do_sim c' q p Hs) as Hsim.
    destruct (q_do c' q) as [q1 e|], (p_do c' p) as [p1 e'|]; try contradiction; cbn [ParserGoProofs.said] in *.
    + destruct Hsim as [-> Hs1]. specialize (IH q1 p1 Hs1 (H2 _ eq_refl) Hr). destruct (t_calls pf cs p1) as [[p' es]|].
      * destruct IH as (q' & H3 & Hs'). exists q'. split; [|exact Hs']. refine (eventually_map _ _ _ (eventually_and _ _ H1 H3)). intros fuel [E1 E3]. cbn [calls_t]. rewrite Hd, E1, E3. reflexivity.
      * refine (eventually_map _ _ _ (eventually_and _ _ H1 IH)). intros fuel [E1 E3]. cbn [calls_t]. rewrite Hd, E1, E3. reflexivity.
    + refine (eventually_map _ _ _ H1). intros fuel E1. cbn [calls_t]. rewrite Hd, E1. reflexivity.
  - specialize (IH q p Hs Ho Hr). destruct (t_calls pf cs p) as [[p' es]|].
    + destruct IH as (q' & H3 & Hs'). exists q'. split; [|exact Hs']. refine (eventually_map _ _ _ H3). intros fuel E3. cbn [calls_t]. rewrite Hd, E3. reflexivity.
    + refine (eventually_map _ _ _ IH). intros fuel E3. cbn [calls_t]. rewrite Hd, E3. reflexivity.
  - apply eventually_now. intro fuel. cbn [calls_t]. rewrite Hd. reflexivity.
Qed.

Theorem typed_history_written pf json cs : octets json -> Forall tcall_octets cs ->
  match Parse json with
  | Ok p => exists q, eventually (fun fuel => Parse_go (as_written fuel) json = Ret (Some q, None)) /\
      match t_calls pf cs p with
      | Some (p', es) => exists q', eventually (fun fuel => calls_t (as_written fuel) pf cs q = Ret (q', es)) /\ q_json q' = p_json p' /\ forall path, Q_Get q' path = P_Get p' path
      | None => eventually (fun fuel => calls_t (as_written fuel) pf cs q = Pan)
      end
  | Err e => eventually (fun fuel => Parse_go (as_written fuel) json = Ret (None, Some e))
  | Panic => eventually (fun fuel => Parse_go (as_written fuel) json = Pan)
  end.
Proof.
  intros Hj Hc. pose proof (parse_sim json) as Hp. pose proof (Parse_written json Hj) as Hw. destruct (Q_Parse json) as [q|e|] eqn:Eq, (Parse json) as [p|e'|]; try contradiction; [|subst; exact Hw|exact Hw].
  exists q. split; [exact Hw|].
  assert (Ho : octets (q_json q)). { apply (parse_octets json q Hj). rewrite ParserGoProofs.Parse_go_spec, Eq. reflexivity. }
  pose proof (typed_calls_written pf cs q p Hp Ho Hc) as H. destruct (t_calls pf cs p) as [[p' es]|]; [|exact H].
  destruct H as (q' & H1 & H2). exists q'. split; [exact H1|]. split; [apply H2|]. intro path. apply get_sim. exact H2.
Qed.
