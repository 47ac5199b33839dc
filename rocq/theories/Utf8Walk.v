(** Walk, the Make functions and the Scheme's mutations keep UTF-8. *)
From Coq Require Import String.
From Verif Require Import GoStd Core Errors Api Iter Typed Walk Make SpecUtf8 Utf8Proofs Utf8More Utf8Calls.

Local Open Scope N_scope.

Section Walking.
  Context {St : Type}.
  Variables (P : St -> Prop) (pf : bytes -> bool) (json : bytes) (cb : St -> bytes -> bytes -> list bytes -> St * (bool * option err)).
  Hypothesis Hu : utf8 json.
  Hypothesis Hcb : forall s k v path, P s -> utf8 k -> utf8 v -> Forall utf8 path -> P (fst (cb s k v path)).
  Definition wholds (r : wres St) : Prop := match r with WDone s _ => P s | _ => True end.
  Definition whole_st (w : @wst St) : Prop := match w with Live s _ => P s | Dead r => wholds r end.
  Lemma below_utf8 w step : whole_st w -> (forall s i, P s -> wholds (step s i)) -> whole_st (fst (below w step)).
  Proof.
    intros Hw Hs. destruct w as [s i|r]; cbn [below]; [|exact Hw]. specialize (Hs s i Hw). destruct (step s i) as [s' [e|]| |]; exact Hs.
  Qed.
  Lemma after_utf8 r : holds whole_st r -> wholds (after r).
  Proof. destruct r as [[s i|r] e|]; intro H; exact H. Qed.
  Lemma last_utf8 path : Forall utf8 path -> utf8 (last path []).
  Proof. induction 1 as [|x l Hx Hl IH]; [apply utf8_nil|]. destruct l; [exact Hx|exact IH]. Qed.
  Lemma snoc_utf8 path k : Forall utf8 path -> utf8 k -> Forall utf8 (path ++ [k]).
  Proof. intros H1 H2. apply Forall_app. split; [exact H1|constructor; [exact H2|constructor]]. Qed.
  Theorem walk_utf8 : forall fuel path s, Forall utf8 path -> P s -> wholds (walk pf fuel json path cb s).
  Proof.
    induction fuel as [|fuel IH]; intros path s Hp HP; cbn [walk]; [exact I|]. destruct (GetType pf json path) as [t| |]; [|exact HP|exact I].
    assert (L : wholds match Get json path with Err e => WDone s (Some e) | Panic => WPanic | Ok val => let '(s', (_, e)) := cb s (last path []) val path in WDone s' e end).
    { destruct (Get json path) as [v| |] eqn:E; [|exact HP|exact I]. pose proof (Hcb s (last path []) v path HP (last_utf8 _ Hp) (get_utf8 _ _ _ Hu E) Hp) as K.
      destruct (cb s (last path []) v path) as [s' [g e]]. exact K. }
    destruct t; try exact L; apply after_utf8.
    - apply iterate_array_utf8; [exact Hu| |exact HP]. intros w v Hw _. apply below_utf8; [exact Hw|]. intros s0 i H0. apply IH; [apply snoc_utf8; [assumption|apply itoa_utf8]|exact H0].
    - apply iterate_kv_utf8; [exact Hu| |exact HP]. intros w k v Hw Hk _. apply below_utf8; [exact Hw|]. intros s0 _ H0. apply IH; [apply snoc_utf8; assumption|exact H0].
  Qed.
End Walking.

(** ** Make *)
Lemma items_utf8 items : Forall utf8 items -> utf8 (concat (map (fun i => i ++ [44]) items)).
Proof. induction 1 as [|x l Hx _ IH]; [apply utf8_nil|]. cbn [map concat]. apply utf8_app; [apply utf8_app; [exact Hx|apply utf8_low; lia]|exact IH]. Qed.
Lemma items_end : forall items, items <> [] -> exists t, concat (map (fun i => i ++ [44]) items) = t ++ [44].
Proof.
  induction items as [|x l IH]; intro H; [congruence|]. cbn [map concat]. destruct l as [|y l]; [exists x; cbn; apply app_nil_r|].
  destruct (IH ltac:(discriminate)) as [t ->]. exists ((x ++ [44]) ++ t). rewrite app_assoc. reflexivity.
Qed.
Lemma build_utf8 o c items : o < 128 -> c < 128 -> Forall utf8 items -> utf8 (build o c items).
Proof.
  intros Ho Hc H. unfold build. apply utf8_app; [|apply utf8_low, Hc]. pose proof (items_utf8 _ H) as U. destruct items as [|x l]; [apply utf8_nil|].
  destruct (items_end (x :: l) ltac:(discriminate)) as [t E]. rewrite E in *. change (o :: t ++ [44]) with ((o :: t) ++ [44]). rewrite removelast_last.
  apply utf8_cons; [exact Ho|]. refine (proj1 (utf8_cut t 44 [] _ U)). lia.
Qed.
Lemma formats_utf8 pf l : Forall utf8 l -> Forall utf8 (map (formatType pf) l).
Proof. induction 1; cbn; constructor; [apply format_utf8|]; assumption. Qed.
Lemma pair_item_utf8 pf k v : utf8 k -> utf8 v -> utf8 (pair_item pf (k, v)).
Proof.
  intros Hk Hv. unfold pair_item. cbn [fst snd]. apply utf8_cons; [lia|]. apply utf8_app; [exact Hk|]. apply utf8_cons; [lia|]. apply utf8_cons; [lia|apply format_utf8, Hv].
Qed.
Lemma pairs_utf8 pf ps : Forall (fun kv => utf8 (fst kv) /\ utf8 (snd kv)) ps -> Forall utf8 (map (pair_item pf) ps).
Proof. induction 1 as [|[k v] l [H1 H2] _ IH]; cbn [map]; constructor; [apply pair_item_utf8; assumption|exact IH]. Qed.
Lemma combine_utf8 : forall ks vs, Forall utf8 ks -> Forall utf8 vs -> Forall (fun kv => utf8 (fst kv) /\ utf8 (snd kv)) (combine ks vs).
Proof.
  induction ks as [|k ks IH]; intros vs Hk Hv; [constructor|]. destruct vs as [|v vs]; [constructor|]. inversion Hk; inversion Hv; subst. cbn [combine]. constructor; [split; assumption|apply IH; assumption].
Qed.
Lemma empty_utf8 a c : a < 128 -> c < 128 -> utf8 [a; c]. Proof. intros. apply utf8_cons; [assumption|apply utf8_low; assumption]. Qed.
Theorem make_arrays_utf8 pf l : Forall utf8 l -> utf8 (MakeArray pf (Some l)) /\ utf8 (MakeArrayString pf (Some l)) /\ utf8 (MakeArrayBytes (Some l)).
Proof. intro H. split; [|split]; apply build_utf8; try lia; try apply formats_utf8; assumption. Qed.
Theorem make_json_utf8 pf ks vs out : Forall utf8 ks -> Forall utf8 vs -> MakeJson pf (Some ks) (Some vs) = Some out \/ MakeJsonString pf (Some ks) (Some vs) = Some out -> utf8 out.
Proof.
  intros Hk Hv H. unfold MakeJson, MakeJsonString in H. destruct (negb _); destruct H as [H|H]; try discriminate; injection H as <-; (apply build_utf8; [lia|lia|]); apply pairs_utf8, combine_utf8; assumption.
Qed.
Theorem make_map_utf8 pf ps : Forall (fun kv => utf8 (fst kv) /\ utf8 (snd kv)) ps -> utf8 (MakeJsonWithMap pf (Some ps)).
Proof. intro H. apply build_utf8; [lia|lia|]. apply pairs_utf8, H. Qed.

Lemma add_string_utf8 pf new k v path out : utf8 new -> utf8 k -> utf8 v -> AddKeyValueString pf new k v path = Done out -> utf8 out.
Proof.
  intros Hn Hk Hv H. unfold AddKeyValueString in H. destruct k as [|c k]; [discriminate|]. eapply addkv_utf8; [exact Hn|exact Hk| |exact H]. intros v0 E. injection E as <-. apply format_utf8, Hv.
Qed.
Lemma add_string_fail pf new k v path o e : AddKeyValueString pf new k v path = Fail o e -> o = Some new \/ o = None.
Proof. intro H. unfold AddKeyValueString in H. destruct k as [|c k]; [injection H as <- _; right; reflexivity|]. left. eapply Updates.addkv_fail; exact H. Qed.
Lemma mutate_abs_utf8 pf json : utf8 json -> forall ks new out, Forall utf8 ks -> utf8 new -> mutate_abs pf json ks new = Ok out -> utf8 out.
Proof.
  intro Hu. induction ks as [|k r IH]; intros new out Hk Hn H; cbn [mutate_abs] in H; [injection H as <-; exact Hn|]. inversion Hk; subst. unfold GetString in H.
  destruct (Get json [k]) as [v| |] eqn:E; cbn [bind] in H; try discriminate. destruct (AddKeyValueString pf new k (formatType pf v) []) as [n'| |] eqn:E2; try discriminate.
  apply IH in H; [exact H|assumption|]. eapply (add_string_utf8 pf _ k); [exact Hn|assumption| |exact E2]. apply format_utf8. exact (get_utf8 _ _ _ Hu E).
Qed.
Definition maybe8 (o : option bytes) : Prop := match o with Some t => utf8 t | None => True end.
Lemma mutate_utf8 pf json : utf8 json -> forall ks new out, Forall utf8 ks -> maybe8 new -> mutate pf json ks new = Ok out -> maybe8 out.
Proof.
  intro Hu. induction ks as [|k r IH]; intros new out Hk Hn H; cbn [mutate] in H; [injection H as <-; exact Hn|]. inversion Hk; subst. unfold GetString in H. cbv zeta in H.
  assert (Ht : utf8 (match new with None => [] | Some t => t end)) by (destruct new; [exact Hn|apply utf8_nil]).
  destruct (Get json [k]) as [v| |] eqn:E; [| |discriminate].
  - destruct (AddKeyValueString pf _ k (formatType pf v) []) as [n'|o e|] eqn:E2; [|injection H as <-; exact I|discriminate].
    apply IH in H; [exact H|assumption|]. eapply (add_string_utf8 pf _ k); [exact Ht|assumption| |exact E2]. apply format_utf8. exact (get_utf8 _ _ _ Hu E).
  - destruct (AddKeyValueString pf _ k (formatType pf []) []) as [n'|o er|] eqn:E2; [| |discriminate].
    + apply IH in H; [exact H|assumption|]. eapply (add_string_utf8 pf _ k); [exact Ht|assumption| |exact E2]. apply format_utf8, utf8_nil.
    + apply IH in H; [exact H|assumption|]. destruct new; [|exact I]. apply add_string_fail in E2. destruct E2 as [->| ->]; [exact Ht|exact I].
Qed.
Theorem mutations_utf8 pf ks json : utf8 json -> Forall utf8 ks ->
  (forall out, MutateJsonAbs pf ks json = Ok out -> utf8 out) /\ (forall out, MutateJson pf ks json = Ok (Some out) -> utf8 out).
Proof.
  intros Hu Hk. assert (E : utf8 (b "{}")) by (apply (empty_utf8 123 125); lia).
  split; intros out H; [exact (mutate_abs_utf8 pf json Hu ks _ out Hk E H)|exact (mutate_utf8 pf json Hu ks (Some (b "{}")) (Some out) Hk E H)].
Qed.
