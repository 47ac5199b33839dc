(** The methods of Parser on the functions they call as written in Go (ParserGo.v) compute what they compute on the models of these functions. *)
From Coq Require Import String Lia.
From Verif Require Import GoStd GoLang Core Errors Api Iter Parser Tree SpecPtr Pointers AsWritten Octets MakeGo ParserGo.
From Verif Require ParserGoProofs CoreGoProofs IterGoProofs SplitGoProofs UpdateGoProofs PCoreGoProofs ListGoProofs.

Local Open Scope Z_scope.

Lemma eventually_now (P : nat -> Prop) : (forall fuel, P fuel) -> eventually P.
Proof. intro H. exists 0%nat. intros fuel _. apply H. Qed.
Lemma eventually_and (P Q : nat -> Prop) : eventually P -> eventually Q -> eventually (fun fuel => P fuel /\ Q fuel).
Proof. intros [n Hn] [m Hm]. exists (n + m)%nat. intros fuel Hf. split; [apply Hn|apply Hm]; lia. Qed.
Lemma eventually_map (P Q : nat -> Prop) : (forall fuel, P fuel -> Q fuel) -> eventually P -> eventually Q.
Proof. intros H [n Hn]. exists n. intros fuel Hf. apply H, Hn, Hf. Qed.

(** ** Statements that do in the end what others do, and keep what is known about the state *)
Definition ends {S R : Type} (I : S -> Prop) (J : R -> Prop) (r : flow S R) : Prop :=
  match r with Nrm s | Cnt s | Brk s | Gto s => I s | Ret a => J a | Pan | Out => True end.
Definition settles {S R : Type} (I : S -> Prop) (J : R -> Prop) (c : nat -> cmd S R) (c0 : cmd S R) : Prop :=
  forall s, I s -> eventually (fun fuel => c fuel s = c0 s) /\ ends I J (c0 s).
(** A call *)
Definition gives {A : Type} (K : A -> Prop) (f : nat -> flow unit A) (f0 : flow unit A) : Prop :=
  eventually (fun fuel => f fuel = f0) /\ forall a, f0 = Ret a -> K a.

Section Settle.
  Context {S R : Type} (I : S -> Prop) (J : R -> Prop).
  Lemma settles_pass : settles I J (fun _ => pass) pass.
  Proof. intros s Hs. split; [apply eventually_now; reflexivity|exact Hs]. Qed.
  Lemma settles_set f : (forall s, I s -> I (f s)) -> settles I J (fun _ => set_ f) (set_ f).
  Proof. intros H s Hs. split; [apply eventually_now; reflexivity|apply H, Hs]. Qed.
  Lemma settles_return f : (forall s, I s -> J (f s)) -> settles I J (fun _ => return_ f) (return_ f).
  Proof. intros H s Hs. split; [apply eventually_now; reflexivity|apply H, Hs]. Qed.
  Lemma settles_then c c0 d d0 : settles I J c c0 -> settles I J d d0 -> settles I J (fun fuel => c fuel ;; d fuel) (c0 ;; d0).
  Proof.
    intros Hc Hd s Hs. destruct (Hc s Hs) as [H1 H2]. unfold then_. destruct (c0 s) as [s'|s'|s'|s'|r| |]; cbn [ends] in H2.
    1: destruct (Hd s' H2) as [H3 H4]; split; [|exact H4]; refine (eventually_map _ _ _ (eventually_and _ _ H1 H3)); intros fuel [-> ->]; reflexivity.
    all: split; [|exact H2]; refine (eventually_map _ _ _ H1); intros fuel ->; reflexivity.
  Qed.
  Lemma settles_if e c c0 d d0 : settles I J c c0 -> settles I J d d0 -> settles I J (fun fuel => if_ e (c fuel) (d fuel)) (if_ e c0 d0).
  Proof. intros Hc Hd s Hs. unfold if_. destruct (e s); [apply Hc|apply Hd]; exact Hs. Qed.
  Lemma settles_read {A} (e : S -> res A) c c0 : (forall a, settles I J (fun fuel => c fuel a) (c0 a)) -> settles I J (fun fuel => read e (c fuel)) (read e c0).
  Proof. intros H s Hs. unfold read. destruct (e s) as [a|x|]; [apply H, Hs|split; [apply eventually_now; reflexivity|exact Coq.Init.Logic.I]..]. Qed.
  Lemma settles_call {A} (K : A -> Prop) f f0 c c0 : (forall s, I s -> gives K (fun fuel => f fuel s) (f0 s)) ->
    (forall a, K a -> settles I J (fun fuel => c fuel a) (c0 a)) -> settles I J (fun fuel => call (f fuel) (c fuel)) (call f0 c0).
  Proof.
    intros Hf Hc s Hs. destruct (Hf s Hs) as [H1 H2]. unfold call. destruct (f0 s) as [x|x|x|x|a| |].
    5: destruct (Hc a (H2 a eq_refl) s Hs) as [H3 H4]; split; [|exact H4]; refine (eventually_map _ _ _ (eventually_and _ _ H1 H3)); intros fuel [-> ->]; reflexivity.
    all: split; [|exact Coq.Init.Logic.I]; refine (eventually_map _ _ _ H1); intros fuel ->; reflexivity.
  Qed.
  Lemma settles_var {L} (e : S -> L) c c0 : settles (fun s => I (fst s)) J c c0 -> settles I J (fun fuel => var e (c fuel)) (var e c0).
  Proof.
    intros H s Hs. destruct (H (s, e s) Hs) as [H1 H2]. unfold var. split; [refine (eventually_map _ _ _ H1); intros fuel ->; reflexivity|].
    destruct (c0 (s, e s)); exact H2.
  Qed.
  Lemma settles_for cond post c c0 : (forall s, I s -> I (post s)) -> settles I J c c0 -> forall n, settles I J (fun fuel => for_ n cond post (c fuel)) (for_ n cond post c0).
  Proof.
    intros Hp Hc. induction n as [|n IH]; intros s Hs; cbn [for_]; [split; [apply eventually_now; reflexivity|exact Coq.Init.Logic.I]|].
    destruct (cond s) as [[]|x|]; [|split; [apply eventually_now; reflexivity|first [exact Hs|exact Coq.Init.Logic.I]]..].
    destruct (Hc s Hs) as [H1 H2]. destruct (c0 s) as [s'|s'|s'|s'|r| |]; cbn [ends] in H2.
    1-2: destruct (IH (post s') (Hp s' H2)) as [H3 H4]; split; [|exact H4]; refine (eventually_map _ _ _ (eventually_and _ _ H1 H3)); intros fuel [-> E]; exact E.
    all: split; [|exact H2]; refine (eventually_map _ _ _ H1); intros fuel ->; reflexivity.
  Qed.
  Lemma settles_range {A} (xs : list A) c c0 : (forall i x, settles I J (fun fuel => c fuel i x) (c0 i x)) -> settles I J (fun fuel => range_ xs (c fuel)) (range_ xs c0).
  Proof.
    intro Hc. unfold range_. generalize 0. induction xs as [|x xs IH]; intros i s Hs; cbn [range_from]; [split; [apply eventually_now; reflexivity|exact Hs]|].
    destruct (Hc i x s Hs) as [H1 H2]. destruct (c0 i x s) as [s'|s'|s'|s'|r| |]; cbn [ends] in H2.
    1-2: destruct (IH (i + 1) s' H2) as [H3 H4]; split; [|exact H4]; refine (eventually_map _ _ _ (eventually_and _ _ H1 H3)); intros fuel [-> E]; exact E.
    all: split; [|exact H2]; refine (eventually_map _ _ _ H1); intros fuel ->; reflexivity.
  Qed.
  Lemma settles_func c c0 s : settles I J c c0 -> I s -> gives J (fun fuel => func (c fuel) s) (func c0 s).
  Proof.
    intros Hc Hs. destruct (Hc s Hs) as [H1 H2]. split; [refine (eventually_map _ _ _ H1); intros fuel E; unfold func; rewrite E; reflexivity|].
    unfold func. intro a. destruct (c0 s); cbn; intro E; try discriminate E. injection E as <-. exact H2.
  Qed.
End Settle.
(** The same call on both sides *)
Lemma gives_same {A} (f0 : flow unit A) : gives (fun _ => True) (fun _ => f0) f0.
Proof. split; [apply eventually_now; reflexivity|auto]. Qed.

(** ** What is called *)
Definition text_octets (r : bytes * option err) : Prop := octets (fst r).
Lemma outcome_two r : UpdateGoProofs.outcome r = two_upd r.
Proof. destruct r as [o|[o|] e|]; reflexivity. Qed.
Lemma gives_upd (f : nat -> flow unit (bytes * option err)) r (json : bytes) (path : list bytes) : (forall fuel, (length json < fuel)%nat -> (S (length path) < fuel)%nat -> f fuel = UpdateGoProofs.outcome r) ->
  keeps r -> gives text_octets f (two_upd r).
Proof.
  intros H Hk. split.
  - exists (S (length json) + S (S (length path)))%nat. intros fuel Hf. rewrite <- outcome_two. apply H; lia.
  - intros a E. destruct r as [o|o e|]; cbn in E; try discriminate E; injection E as <-; exact Hk.
Qed.
Section Called.
  Variable json : bytes.
  Hypothesis Hj : octets json.
  Notation W := as_written.
  Lemma gives_get path : gives (fun _ => True) (fun fuel => l_get (W fuel) json path) (l_get models json path).
  Proof.
    split; [|auto]. exists (S (length json) + S (length path))%nat. intros fuel Hf. cbn [l_get as_written models]. unfold two. rewrite SplitGoProofs.Get_go_spec by (assumption || lia). reflexivity.
  Qed.
  Lemma gives_set v path : octets v -> gives text_octets (fun fuel => l_set (W fuel) json v path) (l_set models json v path).
  Proof. intro Hv. apply (gives_upd _ _ json path); [|apply keeps_set; assumption]. intros. apply UpdateGoProofs.Set_go_spec; assumption || lia. Qed.
  Lemma gives_setKey v path : octets v -> gives text_octets (fun fuel => l_setKey (W fuel) json v path) (l_setKey models json v path).
  Proof. intro Hv. apply (gives_upd _ _ json path); [|apply keeps_set_key; assumption]. intros. apply UpdateGoProofs.SetKey_go_spec; assumption || lia. Qed.
  Lemma gives_delete path : gives text_octets (fun fuel => l_delete (W fuel) json path) (l_delete models json path).
  Proof. apply (gives_upd _ _ json path); [|apply keeps_delete; assumption]. intros. apply UpdateGoProofs.Delete_go_spec; assumption || lia. Qed.
  Lemma gives_addKeyValue k v path : octets k -> octets v -> gives text_octets (fun fuel => l_addKeyValue (W fuel) json k v path) (l_addKeyValue models json k v path).
  Proof. intros Hk Hv. apply (gives_upd _ _ json path); [|apply keeps_add_kv; assumption]. intros. apply UpdateGoProofs.AddKeyValue_go_spec; assumption || lia. Qed.
  Lemma gives_add v path : octets v -> gives text_octets (fun fuel => l_add (W fuel) json v path) (l_add models json v path).
  Proof. intro Hv. apply (gives_upd _ _ json path); [|apply keeps_add; assumption]. intros. apply UpdateGoProofs.Add_go_spec; assumption || lia. Qed.
  Lemma gives_insert i v path : octets v -> gives text_octets (fun fuel => l_insert (W fuel) json i v path) (l_insert models json i v path).
  Proof. intro Hv. apply (gives_upd _ _ json path); [|apply keeps_insert; assumption]. intros. apply UpdateGoProofs.Insert_go_spec; assumption || lia. Qed.
  Lemma gives_core h n : gives (fun _ => True) (fun fuel => l_core (W fuel) json h n) (l_core models json h n).
  Proof. split; [|auto]. exists (S (length json)). intros fuel Hf. cbn [l_core as_written models]. rewrite PCoreGoProofs.pCore_go_spec by (assumption || lia). reflexivity. Qed.
  Lemma gives_replace t i j : octets t -> gives octets (fun fuel => l_replace (W fuel) json t i j) (l_replace models json t i j).
  Proof.
    intro Ht. cbn [l_replace as_written models]. split.
    - apply eventually_now. intros _. destruct (Z.ltb_spec i 0) as [Hi|Hi]; [|destruct (Z.ltb_spec j 0) as [Hk|Hk]]; cbn [orb].
      + unfold UpdateGo.replace_go, func, then_, read, set_. destruct (zlen json - j + i + zlen t <? 0); [reflexivity|].
        replace (zslice json 0 i) with (@Panic bytes); [reflexivity|]. unfold zslice. replace (i <? 0) with true by (symmetry; apply Z.ltb_lt; exact Hi). reflexivity.
      + unfold UpdateGo.replace_go, func, then_, read, set_. destruct (zlen json - j + i + zlen t <? 0); [reflexivity|]. destruct (zslice json 0 i); [|reflexivity..].
        replace (zslice json j (zlen json)) with (@Panic bytes); [reflexivity|]. unfold zslice. replace (j <? 0) with true by (symmetry; apply Z.ltb_lt; exact Hk). reflexivity.
      + rewrite <- (Z2Nat.id i Hi) at 1. rewrite <- (Z2Nat.id j Hk) at 1. apply UpdateGoProofs.replace_go_spec.
    - intros a. destruct (_ || _); [discriminate|]. unfold replace. destruct (_ && _)%bool; cbn [of_res]; [|discriminate]. intro E. injection E as <-.
      apply octets_app; [apply octets_part; exact Hj|]. apply octets_app; [exact Ht|apply octets_part; exact Hj].
  Qed.
End Called.
Lemma gives_clean v : gives (fun _ => True) (fun fuel => l_clean (as_written fuel) v) (l_clean models v).
Proof. split; [|auto]. exists (S (length v)). intros fuel Hf. cbn [l_clean as_written models]. rewrite IterGoProofs.cleanValue_go_spec by lia. reflexivity. Qed.

(** ** The methods *)
Definition Is (s : pg) : Prop := octets (g_json s).
Definition Js (r : told) : Prop := octets (q_json (fst r)).
Definition always {A : Type} (_ : A) : Prop := True.

Lemma Get_settles p path : gives always (fun fuel => Get_p (as_written fuel) p path) (Get_p models p path).
Proof.
  unfold Get_p. apply (settles_func always); [|exact I]. apply settles_then; [apply settles_if; [apply settles_return; auto|apply settles_pass]|].
  apply (settles_call _ _ (fun _ => True)); [intros; apply gives_same|]. intros [curr [e|]] _; (apply settles_then; [first [apply settles_return; auto; exact (fun _ _ => I)|apply settles_pass]|]).
  all: apply settles_read; intro v; apply (settles_call _ _ (fun _ => True)); [intros; apply gives_clean|]; intros; apply settles_return; intros; exact I.
Qed.

Ltac kept := intros; first [exact I | assumption | (unfold Is, Js, always, text_octets in *; cbn; auto; fail)].
Ltac settle := repeat first
  [ apply settles_pass | apply settles_return; kept | apply settles_set; kept
  | apply settles_if | apply settles_then
  | apply settles_read; intro
  | apply settles_range; intros
  | match goal with |- settles _ _ (fun _ => match ?x with _ => _ end) _ => destruct x end ].

Lemma Parse_settles json : octets json -> gives always (fun fuel => Parse_go (as_written fuel) json) (Parse_go models json).
Proof.
  intro Hj. unfold Parse_go. apply (settles_func always); [|exact I]. apply settles_then; [settle|]. apply settles_then; [|settle].
  apply (settles_call _ _ (fun _ => True)); [intros [h [n|]] _; cbn [fst snd]; [apply gives_core; exact Hj|apply gives_same]|]. intros h _. settle.
Qed.
Lemma GetNew_settles fuel1 p path : gives always (fun fuel => GetNew_p (as_written fuel) fuel1 p path) (GetNew_p models fuel1 p path).
Proof.
  unfold GetNew_p. apply (settles_func always); [|exact I]. apply settles_then; [settle|].
  - apply (settles_call _ _ (fun _ => True)); [intros; apply gives_same|]. intros a _. settle.
  - apply settles_then.
    + settle. apply (settles_call _ _ (fun _ => True)); [intros; apply gives_clean|]. intros. settle.
    + apply (settles_call _ _ (fun _ => True)); [intros; apply gives_same|]. intros t _. apply (settles_call _ _ (fun _ => True)); [intros; apply gives_clean|]. intros. settle.
Qed.

Section Methods.
  Variable p : qparser.
  Notation W := as_written.
  Notation ok := (settles Is Js).
  Lemma return_settles e : ok (fun _ => return_err p e) (return_err p e).
  Proof. unfold return_err. settle. Qed.
  Lemma check_settles e : ok (fun _ => check p e) (check p e).
  Proof. destruct e; [apply return_settles|apply settles_pass]. Qed.
  Lemma assign_settles e : ok (fun _ => assign e) (assign e).
  Proof. unfold assign. settle. Qed.
  Lemma walked_settles path : ok (fun _ => walked p path) (walked p path).
  Proof. unfold walked. apply (settles_call _ _ (fun _ => True)); [intros; apply gives_same|]. intros a _. apply settles_then; [settle|apply check_settles]. Qed.
  Lemma texted_settles (f : nat -> bytes -> flow unit (bytes * option err)) f0 : (forall json, octets json -> gives text_octets (fun fuel => f fuel json) (f0 json)) ->
    ok (fun fuel => texted p (f fuel)) (texted p f0).
  Proof. intro H. unfold texted. apply (settles_call _ _ text_octets); [intros s Hs; apply H, Hs|]. intros [j e] Hj. apply settles_then; [settle|apply check_settles]. Qed.
  Lemma texted__settles (f : nat -> bytes -> flow unit (bytes * option err)) f0 : (forall json, octets json -> gives text_octets (fun fuel => f fuel json) (f0 json)) ->
    ok (fun fuel => texted_ (f fuel)) (texted_ f0).
  Proof. intro H. unfold texted_. apply (settles_call _ _ text_octets); [intros s Hs; apply H, Hs|]. intros [j e] Hj. settle. Qed.
  Lemma created_settles : ok (fun _ => created) created.
  Proof. unfold created. settle. Qed.
  Lemma parsed_settles v : octets v -> ok (fun fuel => parsed (W fuel) v) (parsed models v).
  Proof. intro Hv. unfold parsed. apply (settles_call _ _ (fun _ => True)); [|intros; settle]. intros s _. destruct (g_new s); [apply gives_core; exact Hv|apply gives_same]. Qed.
  Lemma refreshed_settles seen x to_x n m path : (forall u s, g_json (to_x u s) = g_json s) -> ok (fun fuel => refreshed (W fuel) p seen x to_x n m path) (refreshed models p seen x to_x n m path).
  Proof.
    intro Hx. unfold refreshed. apply settles_var. apply settles_for; [intros s H; exact H|]. apply settles_then.
    - apply settles_read. intro u. apply settles_set. intros s H. unfold Is in *. cbn [fst]. rewrite Hx. exact H.
    - apply settles_read. intro q. apply (settles_call _ _ (fun _ => True)); [intros s Hs; apply gives_get; exact Hs|]. intros r _. settle.
  Qed.
  Lemma refuse_settles ds key : ok (fun _ => refuse p ds key) (refuse p ds key).
  Proof. unfold refuse. settle. Qed.
  Lemma gotten_settles path c c0 : (forall j, ok (fun fuel => c fuel j) (c0 j)) -> ok (fun fuel => gotten_p (W fuel) p path (c fuel)) (gotten_p models p path c0).
  Proof. intro H. unfold gotten_p. apply (settles_call _ _ always); [intros; apply Get_settles|]. intros r _. apply settles_then; [apply check_settles|apply H]. Qed.
  Lemma inserted_settles i : ok (fun _ => inserted p i) (inserted p i).
  Proof. unfold inserted. apply (settles_call _ _ (fun _ => True)); [intros; apply gives_same|]. intros r _. apply settles_then; [settle|apply check_settles]. Qed.
  Lemma before_end_settles t : octets t -> ok (fun fuel => before_end (W fuel) t) (before_end models t).
  Proof. intro Ht. unfold before_end. apply (settles_call _ _ octets); [intros s Hs; apply gives_replace; assumption|]. intros j Hj. settle. Qed.
  Lemma deAttached_settles : ok (fun _ => call (fun s => deAttach_go (g_heap s) (g_curr s)) (fun h => set_ (g_to_heap h))) (call (fun s => deAttach_go (g_heap s) (g_curr s)) (fun h => set_ (g_to_heap h))).
  Proof. apply (settles_call _ _ (fun _ => True)); [intros; apply gives_same|]. intros. settle. Qed.
  Lemma getIndex_settles c : (forall i, ok (fun _ => c i) (c i)) -> ok (fun _ => call (fun s => getIndex_go (g_heap s) (g_curr s)) c) (call (fun s => getIndex_go (g_heap s) (g_curr s)) c).
  Proof. intro H. apply (settles_call _ _ (fun _ => True)); [intros; apply gives_same|]. intros. apply H. Qed.

  Ltac meth := repeat first [
      apply return_settles | apply check_settles | apply assign_settles | apply walked_settles | apply created_settles | apply refuse_settles | apply inserted_settles
    | apply deAttached_settles | apply getIndex_settles; intro | apply parsed_settles; assumption | apply refreshed_settles; reflexivity
    | apply before_end_settles; oct
    | apply texted_settles; intros; first [apply gives_delete | apply gives_addKeyValue | apply gives_add | apply gives_insert]; assumption
    | apply texted__settles; intros; first [apply gives_set | apply gives_setKey]; assumption
    | apply gotten_settles; intro
    | apply settles_pass | apply settles_set; kept | apply settles_if | apply settles_then | apply settles_read; intro
    | progress unfold to_label, to_value, to_down, to_up, to_next ].

  Hypothesis Hp : octets (q_json p).
  Lemma method_settles c c0 : ok c c0 -> gives Js (fun fuel => method p (c fuel)) (method p c0).
  Proof. intro H. unfold method. apply (settles_func Is); [exact H|exact Hp]. Qed.
  Lemma Set_settles v path : octets v -> gives Js (fun fuel => Set_p (W fuel) p v path) (Set_p models p v path).
  Proof. intro Hv. unfold Set_p. cbv zeta. apply method_settles. meth. Qed.
  Lemma SetKey_settles v path : octets v -> gives Js (fun fuel => SetKey_p (W fuel) p v path) (SetKey_p models p v path).
  Proof. intro Hv. unfold SetKey_p. cbv zeta. apply method_settles. meth. Qed.
  Lemma Delete_settles path : gives Js (fun fuel => Delete_p (W fuel) p path) (Delete_p models p path).
  Proof. unfold Delete_p. cbv zeta. apply method_settles. meth. Qed.
  Lemma AddKeyValue_settles k v path : octets k -> octets v -> gives Js (fun fuel => AddKeyValue_p (W fuel) p k v path) (AddKeyValue_p models p k v path).
  Proof. intros Hk Hv. unfold AddKeyValue_p. cbv zeta. apply method_settles. meth. Qed.
  Lemma Add_settles v path : octets v -> gives Js (fun fuel => Add_p (W fuel) p v path) (Add_p models p v path).
  Proof. intro Hv. unfold Add_p. cbv zeta. apply method_settles. meth. Qed.
  Lemma Insert_settles i v path : octets v -> gives Js (fun fuel => Insert_p (W fuel) p i v path) (Insert_p models p i v path).
  Proof. intro Hv. unfold Insert_p. cbv zeta. apply method_settles. meth. Qed.
End Methods.

(** ** With the models of the methods *)
Lemma then_is {A} (K : A -> Prop) f f0 (r : flow unit A) : gives K f f0 -> f0 = r -> eventually (fun fuel => f fuel = r).
Proof. intros [H _] <-. exact H. Qed.
Section Specs.
  Variable p : qparser.
  Hypothesis Hp : octets (q_json p).
  Notation said := ParserGoProofs.said.
  Theorem Set_written v path : octets v -> eventually (fun fuel => Set_p (as_written fuel) p v path = said (Q_Set p v path)).
  Proof. intro Hv. exact (then_is _ _ _ _ (Set_settles p Hp v path Hv) (ParserGoProofs.Set_p_spec p v path)). Qed.
  Theorem SetKey_written k path : octets k -> eventually (fun fuel => SetKey_p (as_written fuel) p k path = said (Q_SetKey p k path)).
  Proof. intro Hv. exact (then_is _ _ _ _ (SetKey_settles p Hp k path Hv) (ParserGoProofs.SetKey_p_spec p k path)). Qed.
  Theorem Delete_written path : eventually (fun fuel => Delete_p (as_written fuel) p path = said (Q_Delete p path)).
  Proof. exact (then_is _ _ _ _ (Delete_settles p Hp path) (ParserGoProofs.Delete_p_spec p path)). Qed.
  Theorem AddKeyValue_written k v path : octets k -> octets v -> eventually (fun fuel => AddKeyValue_p (as_written fuel) p k v path = said (Q_AddKeyValue p k v path)).
  Proof. intros Hk Hv. exact (then_is _ _ _ _ (AddKeyValue_settles p Hp k v path Hk Hv) (ParserGoProofs.AddKeyValue_p_spec p k v path)). Qed.
  Theorem Add_written v path : octets v -> eventually (fun fuel => Add_p (as_written fuel) p v path = said (Q_Add p v path)).
  Proof. intro Hv. exact (then_is _ _ _ _ (Add_settles p Hp v path Hv) (ParserGoProofs.Add_p_spec p v path)). Qed.
  Theorem Insert_written i v path : octets v -> eventually (fun fuel => Insert_p (as_written fuel) p i v path = said (Q_Insert p i v path)).
  Proof. intro Hv. exact (then_is _ _ _ _ (Insert_settles p Hp i v path Hv) (ParserGoProofs.Insert_p_spec p i v path)). Qed.
End Specs.
Theorem Get_written p path : eventually (fun fuel => Get_p (as_written fuel) p path = two (Q_Get p path)).
Proof. exact (then_is _ _ _ _ (Get_settles p path) (ParserGoProofs.Get_p_spec p path)). Qed.
Theorem Parse_written json : octets json ->
  eventually (fun fuel => Parse_go (as_written fuel) json = match Q_Parse json with Ok p => Ret (Some p, None) | Err e => Ret (None, Some e) | Panic => Pan end).
Proof. intro Hj. exact (then_is _ _ _ _ (Parse_settles json Hj) (ParserGoProofs.Parse_go_spec json)). Qed.

Lemma do_settles c p : octets (q_json p) -> pcall_octets c -> gives Js (fun fuel => do_p (as_written fuel) c p) (do_p models c p).
Proof.
  intros Hp Hc. destruct c; cbn [do_p pcall_octets] in *; try match type of Hc with _ /\ _ => destruct Hc end;
    [apply Set_settles|apply SetKey_settles|apply Delete_settles|apply AddKeyValue_settles|apply Add_settles|apply Insert_settles]; assumption.
Qed.
Lemma calls_settle cs : forall p, octets (q_json p) -> Forall pcall_octets cs -> eventually (fun fuel => calls_p (as_written fuel) cs p = calls_p models cs p).
Proof.
  induction cs as [|c r IH]; intros p Hp Hc; cbn [calls_p]; [apply eventually_now; reflexivity|]. apply Forall_cons_iff in Hc. destruct Hc as [Hc Hr].
  pose proof (do_settles c p Hp Hc) as H.
  destruct H as [H1 H2]. destruct (do_p models c p) as [x|x|x|x|[p' e]| |]; [| | | |specialize (H2 _ eq_refl); refine (eventually_map _ _ _ (eventually_and _ _ H1 (IH p' H2 Hr))); intros fuel [-> ->]; reflexivity|..];
    (refine (eventually_map _ _ _ H1); intros fuel ->; reflexivity).
Qed.
Lemma parse_octets json q : octets json -> Parse_go models json = Ret (Some q, None) -> octets (q_json q).
Proof.
  intros Hj. rewrite ParserGoProofs.Parse_go_spec. unfold Q_Parse. destruct (createNode [] None) as [h core]. destruct (q_core json h core) as [h1|e|]; cbn [bind]; [|discriminate..].
  destruct (deref h1 (Some core)) as [[a c]|e|]; cbn [bind]; [|discriminate..]. destruct (c_down c); [discriminate|]. intro E. injection E as <-. exact Hj.
Qed.
Theorem history_written json cs : octets json -> Forall pcall_octets cs ->
  match Parse json with
  | Ok p => exists q, eventually (fun fuel => Parse_go (as_written fuel) json = Ret (Some q, None)) /\
      match p_calls cs p with
      | Some (p', es) => exists q', eventually (fun fuel => calls_p (as_written fuel) cs q = Ret (q', es)) /\ q_json q' = p_json p' /\
          (forall path, eventually (fun fuel => Get_p (as_written fuel) q' path = match P_Get p' path with Ok v => Ret (v, None) | Err e => Ret ([], Some e) | Panic => Pan end)) /\
          forall levels, (length (q_heap q') <= levels)%nat ->
            (forall path, eventually (fun fuel => GetNew_p (as_written fuel) levels q' path = match P_GetNew p' path with Ok v => Ret v | _ => Pan end)) /\
            Tree_p levels q' = Ret (P_Tree p') /\ TreeFull_p levels q' = Ret (P_TreeFull p')
      | None => eventually (fun fuel => calls_p (as_written fuel) cs q = Pan)
      end
  | Err e => eventually (fun fuel => Parse_go (as_written fuel) json = Ret (None, Some e))
  | Panic => eventually (fun fuel => Parse_go (as_written fuel) json = Pan)
  end.
Proof.
  intros Hj Hc. pose proof (ParserGoProofs.history_spec json cs) as H. pose proof (Parse_settles json Hj) as Hp. destruct (Parse json) as [p|e|]; [|exact (then_is _ _ _ _ Hp H)..].
  destruct H as (q & Hq & H). exists q. split; [exact (then_is _ _ _ _ Hp Hq)|]. pose proof (calls_settle cs q (parse_octets _ _ Hj Hq) Hc) as Hs.
  destruct (p_calls cs p) as [[p' es]|]; [|rewrite H in Hs; exact Hs]. destruct H as (q' & Hq' & Hjs & Hg & Hl). exists q'. rewrite Hq' in Hs. split; [exact Hs|]. split; [exact Hjs|].
  split; [intro path; exact (then_is _ _ _ _ (Get_settles q' path) (Hg path))|]. intros levels Hlv. destruct (Hl levels Hlv) as (Hn & Ht). split; [|exact Ht].
  intro path. exact (then_is _ _ _ _ (GetNew_settles levels q' path) (Hn path)).
Qed.
