(** Histories of JO and of a Parser keep UTF-8. *)
From Coq Require Import String.
From Verif Require Import GoStd Json Core Errors Api Iter Typed Walk Updates TypedProofs AsWritten JO JOProofs SpecUtf8 Utf8Proofs Utf8More SpecUtf8Calls.

Local Open Scope N_scope.

Lemma encode_octets c : scalar_value c -> octets (encode c).
Proof.
  intro H. unfold scalar_value in H. unfold encode, octets.
  pose proof (N.mod_upper_bound c 64 ltac:(lia)). pose proof (N.mod_upper_bound (c / 64) 64 ltac:(lia)). pose proof (N.mod_upper_bound (c / 4096) 64 ltac:(lia)).
  destruct (c <? 128) eqn:E1; [apply N.ltb_lt in E1; repeat constructor; lia|].
  destruct (c <? 2048) eqn:E2; [apply N.ltb_lt in E2; assert (c / 64 < 32) by (apply N.div_lt_upper_bound; lia); repeat constructor; lia|].
  destruct (c <? 65536) eqn:E3; [apply N.ltb_lt in E3; assert (c / 4096 < 16) by (apply N.div_lt_upper_bound; lia); repeat constructor; lia|].
  assert (c / 262144 < 5) by (apply N.div_lt_upper_bound; lia). repeat constructor; lia.
Qed.
Lemma utf8_octets s : utf8 s -> octets s.
Proof.
  intros (cs & H & ->). induction H as [|c cs Hc _ IH]; [constructor|]. cbn [flat_map]. apply Forall_app. split; [apply encode_octets, Hc|exact IH].
Qed.
Lemma utf8_follow x y r : utf8 (x :: y :: r) -> 128 <= x -> 128 <= y < 192.
Proof.
  intros (cs & H & E) Hx. destruct cs as [|c cs]; [discriminate|]. inversion H as [|? ? Hc _]; subst. cbn [flat_map] in E. unfold encode in E.
  pose proof (N.mod_upper_bound c 64 ltac:(lia)). pose proof (N.mod_upper_bound (c / 64) 64 ltac:(lia)). pose proof (N.mod_upper_bound (c / 4096) 64 ltac:(lia)).
  destruct (c <? 128) eqn:E1; [apply N.ltb_lt in E1; cbn [app] in E; apply cons_eq in E; destruct E as [E _]; lia|].
  destruct (c <? 2048); [|destruct (c <? 65536)]; cbn [app] in E; apply cons_eq in E; destruct E as [_ E]; apply cons_eq in E; destruct E as [E _];
    rewrite E; (split; [apply N.le_add_r|apply (N.add_lt_mono_l _ 64 128); assumption]).
Qed.
Lemma utf8_lone x : utf8 [x] -> x < 128.
Proof.
  intros (cs & H & E). destruct cs as [|c cs]; [discriminate|]. cbn [flat_map] in E. unfold encode in E.
  destruct (c <? 128) eqn:E1; [apply N.ltb_lt in E1; cbn [app] in E; apply cons_eq in E; destruct E as [E _]; lia|].
  destruct (c <? 2048); [|destruct (c <? 65536)]; cbn [app] in E; apply cons_eq in E; destruct E as [_ E]; discriminate.
Qed.
Lemma bool_utf8 v : utf8 (bool_text v).
Proof. apply utf8_all_low. destruct v; repeat constructor; lia. Qed.

Definition gives8 (body : bytes) (r : upd) : Prop := (forall out, r = Done out -> utf8 out) /\ forall o e, r = Fail o e -> o = Some body \/ o = None.
Lemma gives_assign body r body' e : utf8 body -> gives8 body r -> assign r = JRet body' e -> utf8 body'.
Proof.
  intros Hb [H1 H2] H. destruct r as [out|o e0|]; cbn in H; [injection H as <- _; apply H1; reflexivity| |discriminate].
  destruct (H2 _ _ eq_refl) as [->| ->]; injection H as <- _; [exact Hb|apply utf8_nil].
Qed.
Lemma g_set body v p : utf8 body -> utf8 v -> gives8 body (Set_ body v p).
Proof. intros. split; [intros out; apply set_utf8; assumption|]. intros o e H1. left. eapply set_fail; exact H1. Qed.
Lemma g_setkey body v p : utf8 body -> utf8 v -> gives8 body (SetKey body v p).
Proof. intros. split; [intros out; apply setkey_utf8; assumption|]. intros o e H1. left. eapply setkey_fail; exact H1. Qed.
Lemma g_delete body p : utf8 body -> gives8 body (Delete body p).
Proof. intros. split; [intros out; apply delete_utf8; assumption|]. intros o e H1. left. eapply delete_fail; exact H1. Qed.
Lemma g_add body v p : utf8 body -> utf8 v -> gives8 body (Add_ body v p).
Proof. intros. split; [intros out; apply add_utf8; assumption|]. intros o e H1. left. eapply add_fail; exact H1. Qed.
Lemma g_addkv body k v p : utf8 body -> utf8 k -> (forall t, v = Some t -> utf8 t) -> gives8 body (AddKeyValue body k v p).
Proof. intros. split; [intros out; apply addkv_utf8; assumption|]. intros o e H2. left. eapply addkv_fail; exact H2. Qed.
Lemma g_store body k v p : utf8 body -> utf8 k -> (forall t, v = Some t -> utf8 t) -> gives8 body (Store body k v p).
Proof. intros. split; [intros out; apply store_utf8; assumption|]. intros o e H2. left. eapply store_fail; exact H2. Qed.
Lemma g_insert body i v p : utf8 body -> utf8 v -> gives8 body (Insert body i v p).
Proof. intros. split; [intros out; apply insert_utf8; assumption|]. intros o e H1. left. eapply insert_fail; exact H1. Qed.
Lemma g_fail body o e : o = Some body \/ o = None -> gives8 body (Fail o e).
Proof. intros H. split; [discriminate|]. intros o' e' E. injection E as <- _. exact H. Qed.
Lemma some8 v t : utf8 v -> Some v = Some t -> utf8 t. Proof. intros H E. injection E as <-. exact H. Qed.

Lemma jo_step8 pf body c body' e : utf8 body -> jcall_utf8 c -> jo_call pf body c = JRet body' e -> utf8 body'.
Proof.
  intros Hb Hc H. pose proof (format_utf8 pf) as F. pose proof itoa_utf8 as I. pose proof bool_utf8 as B.
  assert (G : forall k v p, utf8 k -> utf8 v -> gives8 body (AddKeyValue body k (Some v) p)) by (intros; apply g_addkv; auto; intro; apply some8; assumption).
  assert (G' : forall k v p, utf8 k -> utf8 v -> gives8 body (Store body k (Some v) p)) by (intros; apply g_store; auto; intro; apply some8; assumption).
  destruct c; cbn [jo_call jcall_utf8] in *; rewrite ?jo_store in H; try match type of Hc with _ /\ _ => destruct Hc end; (eapply gives_assign; [exact Hb| |exact H]); clear H;
    unfold AddKeyValueString, AddKeyValueInt, AddKeyValueFloat, AddKeyValueBool, AddString, AddInt, AddFloat, AddBool, InsertString, InsertInt, InsertFloat, InsertBool, SetString, SetInt, SetFloat, SetBool, null_key, neg_index;
    repeat match goal with |- gives8 _ (match ?x with _ => _ end) => destruct x | |- gives8 _ (if ?x then _ else _) => destruct x end;
    auto using g_set, g_setkey, g_delete, g_add, g_addkv, g_store, g_insert, g_fail; [exact (G' key _ path Hc (B true))|exact (G' key _ path Hc (B false))].
Qed.
Theorem jo_utf8 pf cs : forall body body' es, utf8 body -> Forall jcall_utf8 cs -> jo_run pf body cs = Some (body', es) -> utf8 body'.
Proof.
  induction cs as [|c cs IH]; intros body body' es Hb Hc H; cbn [jo_run] in H; [injection H as <- _; exact Hb|]. inversion Hc as [|? ? H1 H2]; subst.
  destruct (jo_call pf body c) as [body1 e|] eqn:E; [|discriminate]. destruct (jo_run pf body1 cs) as [[out es']|] eqn:E2; [|discriminate].
  injection H as <- _. exact (IH _ _ _ (jo_step8 _ _ _ _ _ Hb H1 E) H2 E2).
Qed.

(** ** GetAll, GetAllMap, GetMap *)
Theorem get_all_utf8 json path : utf8 json -> forall keys l, GetAll json keys path = Ok l -> Forall utf8 l.
Proof.
  intro Hu. induction keys as [|k r IH]; intros l H; cbn [GetAll] in H; [injection H as <-; constructor|].
  unfold GetString in H. destruct (Get json (path ++ [k])) as [v| |] eqn:E; cbn [bind] in H; try discriminate. destruct (GetAll json r path) as [l'| |]; cbn [bind] in H; try discriminate.
  injection H as <-. constructor; [exact (get_utf8 _ _ _ Hu E)|apply IH; reflexivity].
Qed.
Definition map8 (m : gomap) : Prop := Forall (fun kv => utf8 (fst kv) /\ utf8 (snd kv)) m.
Lemma put_utf8 k v m : utf8 k -> utf8 v -> map8 m -> map8 (map_put k v m).
Proof.
  intros Hk Hv H. induction H as [|[k' v'] r [H1 H2] H3 IH]; cbn [map_put]; [repeat constructor; assumption|].
  destruct (bytes_eqb k' k); constructor; auto; split; auto.
Qed.
Theorem get_map_utf8 json path m : utf8 json -> GetMap json path = Ok (Some m) -> map8 m.
Proof.
  intros Hu H. unfold GetMap in H. destruct (_ || _)%bool; [discriminate|]. destruct (getStartEnd json path) as [[st en]| |]; cbn [bind] in H; try discriminate.
  destruct (at_ json st) as [c| |]; cbn [bind] in H; try discriminate.
  assert (A : forall m, (match IterateArray json (fun '(m, n) v => ((map_put (itoa (Z.of_nat n)) v m, S n), (true, None))) path ([], O) with
      IDone s None => Ok (Some (fst s)) | IDone _ (Some e) => Err e | IPanic => Panic end) = Ok (Some m) -> map8 m).
  { clear H m. intros m H. pose proof (iterate_array_utf8 (fun s => map8 (fst s)) json (fun '(m, n) v => ((map_put (itoa (Z.of_nat n)) v m, S n), (true, None))) path ([], O) Hu) as K.
    match type of K with ?X -> _ => assert (C : X) end.
    { intros [m0 n0] v H1 H2. cbn. apply put_utf8; [apply itoa_utf8|exact H2|exact H1]. }
    specialize (K C (Forall_nil _)). destruct (IterateArray _ _ _ _) as [s [e|]|]; cbn [holds] in *; try discriminate. injection H as <-. exact K. }
  assert (D : (if c =? 91 then do d <- at_ json en; if d =? 93 then
      match IterateArray json (fun '(m, n) v => ((map_put (itoa (Z.of_nat n)) v m, S n), (true, None))) path ([], O) with
      IDone s None => Ok (Some (fst s)) | IDone _ (Some e) => Err e | IPanic => Panic end else Err (EBadJSON st) else Err (EBadJSON st)) = Ok (Some m) -> map8 m).
  { intro H'. destruct (c =? 91); [|discriminate]. destruct (at_ json en) as [d| |]; cbn [bind] in H'; try discriminate. destruct (d =? 93); [|discriminate]. apply A, H'. }
  destruct (c =? 123); [|apply D, H]. destruct (at_ json en) as [d| |] eqn:Ed; cbn [bind] in H; try discriminate. destruct (d =? 125); [|apply D, H].
  pose proof (iterate_kv_utf8 map8 json (fun m k v => (map_put k v m, (true, None))) Hu) as K.
  match type of K with ?X -> _ => assert (C : X) by (intros m0 k v H1 H2 H3; cbn; apply put_utf8; assumption) end.
  specialize (K C path [] (Forall_nil _)). destruct (IterateKeyValue _ _ _ _) as [s [e|]|]; cbn [holds] in *; try discriminate. injection H as <-. exact K.
Qed.

