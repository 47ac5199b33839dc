(** Facts about the typed updating functions. *)
From Coq Require Import String Decimal DecimalN.
From Verif Require Import GoStd Json Spec Core Skip Focus CoreProofs CoreNeg Errors Api SpecProofs ApiProofs Parse Domains Updates
  History Rfc RfcProofs Typed.
From Verif Require Export SpecTyped.

Local Open Scope N_scope.

(** ** Reading back a scalar or a string from the content of a document *)
Lemma get_content d p c s : wf_doc d = true -> p <> [] -> d_lookup (content (d_val d)) p = Some c ->
  c = DScalar s \/ c = DString s -> Get (text d) p = Ok s.
Proof.
  intros Hw Hp Hl Hc. rewrite lookup_content in Hl. destruct (lookup (d_val d) p) as [v|] eqn:E; [|discriminate].
  injection Hl as <-. rewrite (get_present d p v Hw Hp E). f_equal.
  destruct Hc as [Hc|Hc]; destruct v; try discriminate; injection Hc as ->; reflexivity.
Qed.

Lemma d_lookup_app t p q : d_lookup t (p ++ q) = match d_lookup t p with Some c => d_lookup c q | None => None end.
Proof.
  revert t. induction p as [|x p IH]; intro t; [reflexivity|]. cbn [app d_lookup].
  destruct (d_child t x); [apply IH|reflexivity].
Qed.

Lemma simple_content v s : simple v s -> content v = DScalar s \/ content v = DString s.
Proof. intros [[-> | ->] _]; auto. Qed.

Lemma content_is_obj t p w ms : lookup t p = Some (JObj w ms) -> d_lookup (content t) p = Some (DObj (map mpair ms)).
Proof. intro H. rewrite lookup_content, H. reflexivity. Qed.
Lemma content_is_arr t p w els : lookup t p = Some (JArr w els) ->
  d_lookup (content t) p = Some (DArr (map (fun e => content (e_val e)) els)).
Proof. intro H. rewrite lookup_content, H. reflexivity. Qed.

Lemma d_modify_some t p g c v : d_lookup t p = Some c -> g c = Some v -> exists t', d_modify t p g = Some t'.
Proof.
  revert t. induction p as [|x p IH]; intros t Hl Hg; cbn [d_lookup d_modify] in *.
  - injection Hl as ->. eauto.
  - destruct (d_child t x) as [c1|]; [|discriminate]. destruct (IH c1 Hl Hg) as (t' & ->). eauto.
Qed.

(** *** Set *)
Theorem set_read d p v s : wf_doc d = true -> simple v s -> p <> [] -> lookup (d_val d) p <> None ->
  exists out, Set_ (text d) (render v) p = Done out /\ Get out p = Ok s.
Proof.
  intros Hw [Hv Hwv] Hp Hl. destruct (get_after_set d p v Hw Hwv Hp Hl) as (out & H1 & H2). exists out. split; [exact H1|].
  rewrite H2. destruct Hv as [-> | ->]; reflexivity.
Qed.

(** *** Add *)
Lemma nth_z_snoc {A} (l : list A) a : nth_z (l ++ [a]) (Z.of_nat (length l)) = Some a.
Proof. apply nth_z_app. Qed.

Theorem add_read d p v s w els : wf_doc d = true -> simple v s -> lookup (d_val d) p = Some (JArr w els) ->
  in_int64 (Z.of_nat (length els)) = true ->
  exists out, Add_ (text d) (render v) p = Done out /\ Get out (p ++ [itoa (Z.of_nat (length els))]) = Ok s.
Proof.
  intros Hw Hs Hl Hlen. pose proof (content_is_arr _ _ _ _ Hl) as Hc.
  destruct (d_modify_some _ p (d_append (content v)) _ _ Hc eq_refl) as (c' & Hm).
  destruct (add_ok d p v c' Hw (proj2 Hs) Hm) as (d' & Hd & Hw' & _ & _ & Hc').
  exists (text d'). split; [exact Hd|]. eapply get_content; [exact Hw'|destruct p; discriminate| |apply simple_content; exact Hs].
  rewrite Hc', d_lookup_app, (d_lookup_modify_same _ _ _ _ _ _ Hm Hc eq_refl).
  cbn [d_lookup d_child]. rewrite atoi_itoa by exact Hlen.
  replace (length els) with (length (map (fun e => content (e_val e)) els)) by apply map_length.
  rewrite nth_z_snoc. reflexivity.
Qed.

(** *** AddKeyValue *)
Lemma assoc_snoc {V} k (v : V) ms : assoc k ms = None -> assoc k (ms ++ [(k, v)]) = Some v.
Proof.
  induction ms as [|[k' v'] ms IH]; cbn; [rewrite bytes_eqb_refl; reflexivity|].
  destruct (bytes_eqb k' k); [discriminate|exact IH].
Qed.

(** Whenever AddKeyValue reports success on an object, the pair is there: no condition on the layout. *)
Theorem add_kv_done d p k v w ms out : wf_doc d = true -> wf v = true -> str_ok k = true ->
  lookup (d_val d) p = Some (JObj w ms) -> AddKeyValue (text d) k (Some (render v)) p = Done out ->
  exists d' c', d_modify (content (d_val d)) p (d_add k (content v)) = Some c' /\ out = text d' /\ matches d d' c'.
Proof.
  intros Hw Hwv Hk Hl Hd. destruct (lookup_focus _ _ _ Hl) as (pre & post & Hf).
  pose proof (content_is_obj _ _ _ _ Hl) as Hc.
  assert (Hn : assoc k (map mpair ms) = None).
  { destruct (assoc k (map mpair ms)) as [u|] eqn:E; [|reflexivity]. exfalso.
    rewrite (add_kv_present d p k (Some (render v)) u Hw) in Hd; [discriminate Hd| |eauto].
    rewrite d_lookup_app, Hc. cbn [d_lookup d_child]. rewrite E. reflexivity. }
  pose proof (add_kv_at_obj d p pre w ms post k (Some v) Hw Hf) as E. cbn [option_map value_text] in E. cbv zeta in E.
  rewrite Hd in E.
  assert (Eo : out = d_pre d ++ pre ++ render (JObj w (ms ++ [new_mem k v])) ++ post ++ d_post d).
  { destruct ms; [congruence|]. destruct (core _ _ _) as [x|er|]; try discriminate.
    destruct (err_equal (Some er) 8); [congruence|discriminate]. }
  assert (Hg : d_add k (content v) (DObj (map mpair ms)) = Some (DObj (map mpair ms ++ [(k, content v)]))).
  { cbn [d_add]. rewrite Hn. reflexivity. }
  destruct (d_modify_some _ p _ _ _ Hc Hg) as (c' & Hm).
  unshelve epose proof (replaced d p pre _ post (JObj w (ms ++ [new_mem k v])) _ c' Hw Hf _ _ Hm) as (d' & Hd' & Ht & _).
  - apply wf_obj_snoc; [|exact Hk|exact Hwv]. eapply focus_wf; [exact Hf|]. apply wf_doc_val. exact Hw.
  - rewrite content_snoc. exact Hg.
  - exists d', c'. split; [exact Hm|]. split; [|exact Hd']. rewrite Ht. exact Eo.
Qed.

Lemma added_read d d' c' p k v s : matches d d' c' -> simple v s ->
  (exists w ms, lookup (d_val d) p = Some (JObj w ms)) ->
  d_modify (content (d_val d)) p (d_add k (content v)) = Some c' -> Get (text d') (p ++ [k]) = Ok s.
Proof.
  intros (Hw' & _ & _ & Hc') Hs (w & ms & Hl) Hm. pose proof (content_is_obj _ _ _ _ Hl) as Hc.
  eapply get_content; [exact Hw'|destruct p; discriminate| |apply simple_content; exact Hs].
  destruct (d_modify_inv _ _ _ _ Hm) as (u & cv & Hu & Hg). rewrite Hl in Hu. injection Hu as <-.
  rewrite Hc', d_lookup_app. rewrite (d_lookup_modify_same _ _ _ _ _ _ Hm Hc Hg).
  cbn [content d_add] in Hg. fold mpair in Hg. destruct (assoc k (map mpair ms)) eqn:En; [discriminate|].
  injection Hg as <-. cbn [d_lookup d_child]. rewrite assoc_snoc by exact En. reflexivity.
Qed.

Theorem add_kv_read d p k v s w ms out : wf_doc d = true -> simple v s -> str_ok k = true ->
  lookup (d_val d) p = Some (JObj w ms) -> AddKeyValue (text d) k (Some (render v)) p = Done out ->
  Get out (p ++ [k]) = Ok s.
Proof.
  intros Hw Hs Hk Hl Hd. destruct (add_kv_done d p k v w ms out Hw (proj2 Hs) Hk Hl Hd) as (d' & c' & Hm & -> & Hd').
  eapply added_read; [exact Hd'|exact Hs| |exact Hm]. eauto.
Qed.

(** *** Insert *)
Theorem insert_read d p z v s w els : wf_doc d = true -> simple v s -> (z <= int64_max)%Z ->
  lookup (d_val d) p = Some (JArr w els) -> insert_layout els z -> nth_z els z <> None ->
  exists out, Insert (text d) z (render v) p = Done out /\ Get out (p ++ [itoa z]) = Ok s.
Proof.
  intros Hw Hs Hz Hl Hlay Hn. pose proof (content_is_arr _ _ _ _ Hl) as Hc.
  set (ds := map (fun e => content (e_val e)) els) in *.
  assert (Hnz : nth_z ds z <> None) by (unfold ds; rewrite nth_z_map; destruct (nth_z els z); [discriminate|contradiction]).
  assert (Hg : d_insert z (content v) (DArr ds) = Some (DArr (firstn (Z.to_nat z) ds ++ content v :: skipn (Z.to_nat z) ds))).
  { cbn [d_insert]. destruct (nth_z ds z); [reflexivity|contradiction]. }
  destruct (d_modify_some _ p _ _ _ Hc Hg) as (c' & Hm).
  destruct (insert_ok d p z v c' w els Hw (proj2 Hs) Hz Hl Hlay Hm) as (d' & Hd & Hw' & _ & _ & Hc').
  exists (text d'). split; [exact Hd|]. eapply get_content; [exact Hw'|destruct p; discriminate| |apply simple_content; exact Hs].
  rewrite Hc', d_lookup_app, (d_lookup_modify_same _ _ _ _ _ _ Hm Hc Hg).
  destruct (nth_z ds z) as [x|] eqn:E; [|contradiction]. destruct (nth_z_split _ _ _ E) as (l1 & l2 & El & ->).
  cbn [d_lookup d_child]. rewrite atoi_itoa.
  2:{ unfold in_int64. apply andb_true_iff. split; apply Z.leb_le; [unfold int64_min|]; lia. }
  rewrite El, Nat2Z.id, firstn_app_len. rewrite nth_z_app. reflexivity.
Qed.

(** *** Store *)
Theorem store_read d p k v s w ms : wf_doc d = true -> simple v s -> str_ok k = true ->
  lookup (d_val d) p = Some (JObj w ms) ->
  (d_lookup (content (d_val d)) (p ++ [k]) <> None \/ seen_absent d p k) ->
  exists out, Store (text d) k (Some (render v)) p = Done out /\ Get out (p ++ [k]) = Ok s.
Proof.
  intros Hw Hs Hk Hl Hcase. pose proof (content_is_obj _ _ _ _ Hl) as Hc.
  set (cs := map mpair ms) in *.
  assert (Hg : exists cs', d_store k (content v) (DObj cs) = Some (DObj cs') /\ assoc k cs' = Some (content v)).
  { cbn [d_store]. destruct (assoc k cs) eqn:E; eexists; (split; [reflexivity|]);
      [eapply assoc_set_same; exact E|apply assoc_snoc; exact E]. }
  destruct Hg as (cs' & Hg & Ha).
  destruct (d_modify_some _ p _ _ _ Hc Hg) as (c' & Hm).
  destruct (store_ok d p k v c' Hw (proj2 Hs) Hk Hm Hcase) as (d' & Hd & Hw' & _ & _ & Hc').
  exists (text d'). split; [exact Hd|]. eapply get_content; [exact Hw'|destruct p; discriminate| |apply simple_content; exact Hs].
  rewrite Hc', d_lookup_app, (d_lookup_modify_same _ _ _ _ _ _ Hm Hc Hg). cbn [d_lookup d_child]. rewrite Ha. reflexivity.
Qed.

(** ** The texts of integers and booleans are tokens *)
Lemma itoa_N_token n : forallb is_token_char (itoa_N n) = true.
Proof.
  apply forallb_forall. intros c Hc. apply digit_token. unfold digit. apply itoa_N_digits in Hc.
  apply andb_true_iff. split; apply N.leb_le; lia.
Qed.

Lemma itoa_scalar z : scalar_ok (itoa z) = true.
Proof.
  unfold itoa. destruct (z <? 0)%Z.
  - cbn [scalar_ok forallb]. rewrite itoa_N_token. reflexivity.
  - destruct (itoa_N (Z.to_N z)) eqn:E; [exfalso; exact (itoa_N_nonnil _ E)|]. cbn [scalar_ok]. rewrite <- E. apply itoa_N_token.
Qed.

Lemma simple_int z : simple (JScalar (itoa z)) (itoa z).
Proof. split; [left; reflexivity|]. cbn [wf]. apply itoa_scalar. Qed.
Lemma simple_bool v : simple (JScalar (bool_text v)) (bool_text v).
Proof. split; [left; reflexivity|]. destruct v; reflexivity. Qed.

Lemma get_int json p z : in_int64 z = true -> Get json p = Ok (itoa z) -> GetInt json p = Ok z.
Proof. intros Hz H. unfold GetInt, GetString. rewrite H. cbn [bind]. rewrite atoi_itoa by exact Hz. reflexivity. Qed.
Lemma get_bool json p v : Get json p = Ok (bool_text v) -> GetBool json p = Ok v.
Proof. intro H. unfold GetBool, GetString. rewrite H. destruct v; reflexivity. Qed.

Ltac read_with L := let out := fresh "out" in destruct L as (out & ? & ?); exists out; split; [assumption|].

Theorem set_int d p z : wf_doc d = true -> in_int64 z = true -> p <> [] -> lookup (d_val d) p <> None ->
  exists out, SetInt (text d) z p = Done out /\ GetInt out p = Ok z.
Proof. intros. read_with (set_read d p _ _ H (simple_int z) H1 H2). apply get_int; assumption. Qed.
Theorem set_bool d p v : wf_doc d = true -> p <> [] -> lookup (d_val d) p <> None ->
  exists out, SetBool (text d) v p = Done out /\ GetBool out p = Ok v.
Proof. intros. read_with (set_read d p _ _ H (simple_bool v) H0 H1). apply get_bool; assumption. Qed.

Theorem add_int d p z w els : wf_doc d = true -> in_int64 z = true -> lookup (d_val d) p = Some (JArr w els) ->
  in_int64 (Z.of_nat (length els)) = true ->
  exists out, AddInt (text d) z p = Done out /\ GetInt out (p ++ [itoa (Z.of_nat (length els))]) = Ok z.
Proof. intros. read_with (add_read d p _ _ w els H (simple_int z) H1 H2). apply get_int; assumption. Qed.
Theorem add_bool d p v w els : wf_doc d = true -> lookup (d_val d) p = Some (JArr w els) ->
  in_int64 (Z.of_nat (length els)) = true ->
  exists out, AddBool (text d) v p = Done out /\ GetBool out (p ++ [itoa (Z.of_nat (length els))]) = Ok v.
Proof. intros. read_with (add_read d p _ _ w els H (simple_bool v) H0 H1). apply get_bool; assumption. Qed.

Lemma null_key_done json k u out : null_key json k u = Done out -> u = Done out.
Proof. destruct k; [discriminate|auto]. Qed.

Theorem add_kv_int d p k z w ms out : wf_doc d = true -> in_int64 z = true -> str_ok k = true ->
  lookup (d_val d) p = Some (JObj w ms) -> AddKeyValueInt (text d) k z p = Done out -> GetInt out (p ++ [k]) = Ok z.
Proof.
  intros Hw Hz Hk Hl Hd. apply null_key_done in Hd. apply get_int; [exact Hz|].
  exact (add_kv_read d p k _ _ w ms out Hw (simple_int z) Hk Hl Hd).
Qed.
Theorem add_kv_bool d p k v w ms out : wf_doc d = true -> str_ok k = true ->
  lookup (d_val d) p = Some (JObj w ms) -> AddKeyValueBool (text d) k v p = Done out -> GetBool out (p ++ [k]) = Ok v.
Proof.
  intros Hw Hk Hl Hd. apply null_key_done in Hd. apply get_bool.
  exact (add_kv_read d p k _ _ w ms out Hw (simple_bool v) Hk Hl Hd).
Qed.

Theorem store_int d p k z w ms : wf_doc d = true -> in_int64 z = true -> str_ok k = true ->
  lookup (d_val d) p = Some (JObj w ms) ->
  (d_lookup (content (d_val d)) (p ++ [k]) <> None \/ seen_absent d p k) ->
  exists out, StoreInt (text d) k z p = Done out /\ GetInt out (p ++ [k]) = Ok z.
Proof. intros. read_with (store_read d p k _ _ w ms H (simple_int z) H1 H2 H3). apply get_int; assumption. Qed.
Theorem store_bool d p k v w ms : wf_doc d = true -> str_ok k = true ->
  lookup (d_val d) p = Some (JObj w ms) ->
  (d_lookup (content (d_val d)) (p ++ [k]) <> None \/ seen_absent d p k) ->
  exists out, StoreBool (text d) k v p = Done out /\ GetBool out (p ++ [k]) = Ok v.
Proof. intros. read_with (store_read d p k _ _ w ms H (simple_bool v) H0 H1 H2). apply get_bool; assumption. Qed.

Lemma nth_z_nonneg {A} (l : list A) z : nth_z l z <> None -> (z <? 0)%Z = false.
Proof. unfold nth_z. destruct (Z.leb_spec 0 z); cbn [andb]; [|contradiction]. intros _. apply Z.ltb_ge. assumption. Qed.

Theorem insert_int d p i z w els : wf_doc d = true -> in_int64 z = true -> (i <= int64_max)%Z ->
  lookup (d_val d) p = Some (JArr w els) -> insert_layout els i -> nth_z els i <> None ->
  exists out, InsertInt (text d) i z p = Done out /\ GetInt out (p ++ [itoa i]) = Ok z.
Proof.
  intros. unfold InsertInt, neg_index. rewrite (nth_z_nonneg _ _ H4).
  read_with (insert_read d p i _ _ w els H (simple_int z) H1 H2 H3 H4). apply get_int; assumption.
Qed.
Theorem insert_bool d p i v w els : wf_doc d = true -> (i <= int64_max)%Z ->
  lookup (d_val d) p = Some (JArr w els) -> insert_layout els i -> nth_z els i <> None ->
  exists out, InsertBool (text d) i v p = Done out /\ GetBool out (p ++ [itoa i]) = Ok v.
Proof.
  intros. unfold InsertBool, neg_index. rewrite (nth_z_nonneg _ _ H3).
  read_with (insert_read d p i _ _ w els H (simple_bool v) H0 H1 H2 H3). apply get_bool; assumption.
Qed.

(** ** Failed updates return their input *)
Ltac typed_fail := intros; unfold null_key, neg_index, pbind in *;
  repeat match goal with
  | H : context [match ?k with [] => _ | _ => _ end] |- _ => destruct k
  | H : context [(?i <? 0)%Z] |- _ => destruct (i <? 0)%Z
  | H : context [FormatInt ?z ?n] |- _ => destruct (FormatInt z n)
  | H : context [FormatUint ?z ?n] |- _ => destruct (FormatUint z n)
  end; try discriminate; try congruence;
  eauto using set_fail, setkey_fail, delete_fail, add_fail, addkv_fail, insert_fail, store_fail.

(** The updating functions that keep the promise, as functions of the document. *)
Inductive typed_update : (bytes -> upd) -> Prop :=
| T_SetString pf v p : typed_update (fun json => SetString pf json v p)
| T_SetInt v p : typed_update (fun json => SetInt json v p)
| T_SetFloat v p : typed_update (fun json => SetFloat json v p)
| T_SetBool v p : typed_update (fun json => SetBool json v p)
| T_StoreString pf k v p : typed_update (fun json => StoreString pf json k v p)
| T_StoreInt k v p : typed_update (fun json => StoreInt json k v p)
| T_StoreFloat k v p : typed_update (fun json => StoreFloat json k v p)
| T_StoreBool k v p : typed_update (fun json => StoreBool json k v p)
| T_AddKeyValueString pf c k v p : typed_update (fun json => AddKeyValueString pf json (c :: k) v p)
| T_AddKeyValueInt k v p : typed_update (fun json => AddKeyValueInt json k v p)
| T_AddKeyValueUint k v p : typed_update (fun json => AddKeyValueUint json k v p)
| T_AddKeyValueInt32 k v p : typed_update (fun json => AddKeyValueInt32 json k v p)
| T_AddKeyValueInt64 k v p : typed_update (fun json => AddKeyValueInt64 json k v p)
| T_AddKeyValueUint32 k v p : typed_update (fun json => AddKeyValueUint32 json k v p)
| T_AddKeyValueUint64 k v p : typed_update (fun json => AddKeyValueUint64 json k v p)
| T_AddKeyValueFloat k v p : typed_update (fun json => AddKeyValueFloat json k v p)
| T_AddKeyValueBool k v p : typed_update (fun json => AddKeyValueBool json k v p)
| T_AddString pf v p : typed_update (fun json => AddString pf json v p)
| T_AddInt v p : typed_update (fun json => AddInt json v p)
| T_AddInt32 v p : typed_update (fun json => AddInt32 json v p)
| T_AddInt64 v p : typed_update (fun json => AddInt64 json v p)
| T_AddUint v p : typed_update (fun json => AddUint json v p)
| T_AddUint32 v p : typed_update (fun json => AddUint32 json v p)
| T_AddUint64 v p : typed_update (fun json => AddUint64 json v p)
| T_AddFloat v p : typed_update (fun json => AddFloat json v p)
| T_AddBool v p : typed_update (fun json => AddBool json v p)
| T_InsertString pf i v p : (0 <= i)%Z -> typed_update (fun json => InsertString pf json i v p)
| T_InsertInt i v p : typed_update (fun json => InsertInt json i v p)
| T_InsertInt32 i v p : typed_update (fun json => InsertInt32 json i v p)
| T_InsertInt64 i v p : typed_update (fun json => InsertInt64 json i v p)
| T_InsertUint i v p : typed_update (fun json => InsertUint json i v p)
| T_InsertUint32 i v p : typed_update (fun json => InsertUint32 json i v p)
| T_InsertUint64 i v p : typed_update (fun json => InsertUint64 json i v p)
| T_InsertFloat i v p : typed_update (fun json => InsertFloat json i v p)
| T_InsertBool i v p : typed_update (fun json => InsertBool json i v p).

Theorem typed_fail f json o e : typed_update f -> f json = Fail o e -> o = Some json.
Proof.
  intros Hf He. destruct Hf; cbv beta in He;
  unfold SetString, SetInt, SetFloat, SetBool, StoreString, StoreInt, StoreFloat, StoreBool,
    AddKeyValueString, AddKeyValueInt, AddKeyValueUint, AddKeyValueInt32, AddKeyValueInt64, AddKeyValueUint32,
    AddKeyValueUint64, AddKeyValueFloat, AddKeyValueBool, AddString, AddInt, AddInt32, AddInt64, AddUint, AddUint32,
    AddUint64, AddFloat, AddBool, InsertString, InsertInt, InsertInt32, InsertInt64, InsertUint, InsertUint32, InsertUint64,
    InsertFloat, InsertBool in He;
  try (rewrite (proj2 (Z.ltb_ge i 0)) in He by assumption); typed_fail.
Qed.

(** ** The digits written by FormatInt *)

Lemma digit_val_of d : d < 36 -> digit_val (digit_of d) = d.
Proof.
  intro H. unfold digit_of, digit_val. destruct (N.ltb_spec d 10).
  - replace (48 + d <? 58) with true by (symmetry; apply N.ltb_lt; lia). lia.
  - replace (87 + d <? 58) with false by (symmetry; apply N.ltb_ge; lia). lia.
Qed.

Lemma format_denotes base fuel n acc : 2 <= base -> base <= 36 -> n < 2 ^ N.of_nat fuel ->
  denote base 0 (format_digits fuel base n acc) = denote base n acc.
Proof.
  intros H2 H36. revert n acc. induction fuel as [|f IH]; intros n acc Hn.
  - cbn in Hn. replace n with 0 by lia. reflexivity.
  - cbn [format_digits]. rewrite Nat2N.inj_succ, N.pow_succ_r' in Hn.
    pose proof (N.mod_upper_bound n base ltac:(lia)) as Hm. pose proof (N.div_mod n base ltac:(lia)) as Hdm.
    destruct (N.ltb_spec n base) as [Hlt|Hge].
    + cbn [denote]. rewrite N.mod_small by exact Hlt. rewrite digit_val_of by lia. reflexivity.
    + rewrite IH.
      * cbn [denote]. rewrite digit_val_of by lia. f_equal. lia.
      * apply N.div_lt_upper_bound; [lia|]. nia.
Qed.

Lemma size_bound n : n < 2 ^ N.of_nat (S (N.size_nat n)).
Proof.
  assert (H : N.of_nat (N.size_nat n) = N.size n).
  { destruct n as [|p]; [reflexivity|]. cbn. induction p; cbn; rewrite ?Pos2Nat.inj_succ; [..|reflexivity];
      rewrite <- ?Nat2N.inj_succ; cbn in *; lia. }
  rewrite Nat2N.inj_succ, H, N.pow_succ_r'. pose proof (N.size_gt n). lia.
Qed.

Theorem FormatUint_denotes n base s : FormatUint n base = Ok s -> denote base 0 s = n.
Proof.
  unfold FormatUint. destruct (N.leb_spec 2 base); [|discriminate]. destruct (N.leb_spec base 36); [|discriminate].
  cbn [andb]. intro E. assert (Es : s = format_digits (S (N.size_nat n)) base n []) by congruence.
  rewrite Es, format_denotes by (try assumption; apply size_bound). reflexivity.
Qed.

(** *** Decimal *)
Lemma of_uint_acc_denote u : forall p, N.pos (Pos.of_uint_acc u p) = denote 10 (N.pos p) (bytes_of_uint u).
Proof.
  induction u; intro p; cbn -[Pos.mul Pos.add N.mul N.add]; [reflexivity|..];
    rewrite IHu; f_equal; unfold digit_val; cbn -[Pos.mul Pos.add N.mul N.add]; lia.
Qed.

Lemma of_uint_denote u : N.of_uint u = denote 10 0 (bytes_of_uint u).
Proof.
  unfold N.of_uint. induction u; cbn -[Pos.mul Pos.add N.mul N.add]; [reflexivity|exact IHu|..]; apply of_uint_acc_denote.
Qed.

Lemma itoa_N_denotes n : denote 10 0 (itoa_N n) = n.
Proof. unfold itoa_N. rewrite <- of_uint_denote. apply DecimalN.Unsigned.of_to. Qed.

(** The same digits mean more in a larger base, unless there is only one. *)
Lemma denote_mono s : forall a a', a <= a' -> denote 10 a s <= denote 32 a' s.
Proof. induction s as [|c r IH]; intros a a' H; cbn [denote]; [exact H|]. apply IH. lia. Qed.

Lemma denote_strict s : forall a a', a < a' -> denote 10 a s < denote 32 a' s.
Proof. induction s as [|c r IH]; intros a a' H; cbn [denote]; [exact H|]. apply IH. lia. Qed.

Lemma denote_base s : Forall (fun c => 48 <= c <= 57) s -> 10 <= denote 10 0 s -> denote 10 0 s < denote 32 0 s.
Proof.
  induction s as [|c r IH]; intros Hs H; cbn [denote] in *; [lia|].
  inversion Hs as [|? ? Hc Hr]; subst. rewrite !N.mul_0_l, !N.add_0_l in *.
  assert (Hv : digit_val c = c - 48) by (unfold digit_val; replace (c <? 58) with true by (symmetry; apply N.ltb_lt; lia); reflexivity).
  destruct (N.eq_dec (digit_val c) 0) as [E|E].
  - rewrite E in *. apply IH; assumption.
  - destruct r as [|c2 r]; cbn [denote] in *; [lia|]. apply denote_strict. lia.
Qed.

Theorem base32_is_decimal n : FormatUint n 32 = Ok (itoa_N n) <-> n < 10.
Proof.
  split.
  - intro H. apply FormatUint_denotes in H. destruct (N.ltb_spec n 10) as [|Hge]; [assumption|]. exfalso.
    pose proof (itoa_N_denotes n) as H10.
    pose proof (denote_base (itoa_N n)) as Hb. rewrite H, H10 in Hb.
    enough (n < n) by lia. apply Hb; [|exact Hge]. apply Forall_forall. intros c Hc. apply (itoa_N_digits n). exact Hc.
  - intro H. assert (Hn : In (N.to_nat n) (seq 0 10)) by (apply in_seq; lia).
    rewrite <- (N2Nat.id n). cbn [seq In] in Hn.
    repeat match goal with H : _ \/ _ |- _ => destruct H as [<-|H] | H : False |- _ => contradiction end; vm_compute; reflexivity.
Qed.

Theorem base32_int z : FormatInt z 32 = Ok (itoa z) <-> (-10 < z < 10)%Z.
Proof.
  unfold FormatInt, itoa. destruct (Z.ltb_spec z 0) as [Hz|Hz].
  - pose proof (base32_is_decimal (Z.to_N (- z))) as Hb.
    destruct (FormatUint (Z.to_N (- z)) 32) as [s|e|] eqn:E; cbn [bind]; split; intro H; try discriminate.
    + assert (s = itoa_N (Z.to_N (- z))) by congruence. subst s. apply proj1 in Hb. specialize (Hb eq_refl). lia.
    + f_equal. f_equal. apply proj2 in Hb. assert (Hlt : Z.to_N (- z) < 10) by lia. specialize (Hb Hlt). congruence.
  - rewrite base32_is_decimal. lia.
Qed.

Lemma base64_panics z : FormatInt z 64 = Panic.
Proof. unfold FormatInt. destruct (z <? 0)%Z; reflexivity. Qed.
Lemma base64_panics_N n : FormatUint n 64 = Panic. Proof. reflexivity. Qed.

(** ** formatType *)

(** What formatType does: the string as it is, or in quotes. *)
Lemma formatType_cases pf s :
  formatType pf s = quote s \/
  (formatType pf s = s /\ s <> [] /\
   (isBool s = true \/ (isInt s = true /\ ~ (hd 0 s = 48 /\ (1 < length s)%nat)) \/ (isInt s = false /\ pf s = true) \/ s = b "null" \/
    (hd 0 s = 34 /\ last s 0 = 34) \/ fenced s = true)).
Proof.
  unfold formatType. destruct s as [|c r]; [left; reflexivity|].
  destruct (isBool (c :: r)) eqn:E1; [right; auto using nil_cons|].
  destruct (isInt (c :: r)) eqn:E2.
  { destruct ((c =? 48) && (1 <? length (c :: r))%nat) eqn:E3; [left; reflexivity|].
    right. split; [reflexivity|]. split; [discriminate|]. right. left. split; [reflexivity|].
    cbn [hd]. intros [-> H]. apply Nat.ltb_lt in H. rewrite H in E3. discriminate. }
  destruct (pf (c :: r)) eqn:E3; [right; repeat split; [discriminate|auto]|].
  destruct (bytes_eqb_spec (c :: r) (b "null")) as [E4|E4]; [right; repeat split; [discriminate|tauto]|].
  cbv zeta. set (e := last (c :: r) 0).
  destruct ((c =? 34) && (e =? 34)) eqn:E5.
  { right. split; [reflexivity|]. split; [discriminate|]. nbool. cbn [hd]. tauto. }
  destruct ((c =? 91) && (e =? 93)) eqn:E6.
  { right. split; [reflexivity|]. split; [discriminate|]. do 5 right. unfold fenced. fold e. cbn [hd]. rewrite E6. reflexivity. }
  destruct ((c =? 123) && (e =? 125)) eqn:E7; [|left; reflexivity].
  right. split; [reflexivity|]. split; [discriminate|]. do 5 right. unfold fenced. fold e. cbn [hd]. rewrite E7. apply orb_true_r.
Qed.

Lemma hd_quote_chars s : chars s = true -> hd 0 s <> 34.
Proof.
  destruct s as [|c r]; [discriminate|]. cbn [chars hd]. destruct (N.eqb_spec c 92) as [->|]; [discriminate|].
  intros H ->. discriminate H.
Qed.
Lemma hd_quote_str s : str_ok s = true -> hd 0 s <> 34.
Proof. destruct s as [|c r]; [discriminate|]. cbn [str_ok hd]. intros H ->. discriminate H. Qed.

(** Texts ParseInt and ParseFloat accept that are not JSON numbers, and texts fenced by brackets, are the
    only plain strings written wrongly. *)
Theorem formatType_valid pf s : chars s = true ->
  (isInt s = true -> number_ok s = true \/ (hd 0 s = 48 /\ (1 < length s)%nat)) ->
  (isInt s = false -> pf s = true -> number_ok s = true) ->
  (fenced s = true -> value s) ->
  value (formatType pf s).
Proof.
  intros Hc Hi Hp Hf. destruct (formatType_cases pf s) as [-> |(-> & Hne & [H|[[H H']|[[H H']|[H|[[H H']|H]]]]])].
  - apply V_string. exact Hc.
  - apply V_literal. unfold literal. unfold isBool in H. rewrite H. reflexivity.
  - destruct (Hi H) as [Hn|Hn]; [apply V_number; exact Hn|contradiction].
  - apply V_number. auto.
  - subst s. apply V_literal. reflexivity.
  - exfalso. exact (hd_quote_chars s Hc H).
  - auto.
Qed.

(** Characters of JSON numbers and literals may stand in a string. *)
Lemma token_chars s : forallb (fun c => (33 <=? c) && negb (c =? 34) && negb (c =? 92)) s = true -> chars s = true.
Proof.
  induction s as [|c r IH]; [reflexivity|]. cbn [forallb chars]. intro H. nbool.
  rewrite (proj2 (N.eqb_neq c 92)), (proj2 (N.eqb_neq c 34)) by assumption. rewrite IH by assumption.
  apply N.leb_le in H. rewrite (proj2 (N.ltb_ge c 32)) by lia. reflexivity.
Qed.

(** A JSON value given as a string is written as a JSON value. *)
Lemma digit_plain c : digit c = true -> (33 <=? c) && negb (c =? 34) && negb (c =? 92) = true.
Proof.
  unfold digit. rewrite andb_true_iff, !N.leb_le. intro H. rewrite (proj2 (N.leb_le 33 c)), (proj2 (N.eqb_neq c 34)), (proj2 (N.eqb_neq c 92)) by lia.
  reflexivity.
Qed.
Definition nch (c : N) : bool := (33 <=? c) && negb (c =? 34) && negb (c =? 92).
Lemma digits_nch s : forallb digit s = true -> forallb nch s = true.
Proof. intro H. rewrite forallb_forall in *. intros c Hc. apply digit_plain. auto. Qed.
Lemma drop_nch s : forallb nch (drop_digits s) = true -> forallb nch s = true.
Proof.
  induction s as [|c r IH]; cbn [drop_digits]; [auto|]. destruct (digit c) eqn:E; [|auto].
  intro H. cbn [forallb]. unfold nch at 1. rewrite (digit_plain c E). auto.
Qed.
Lemma exp_nch s : exp_ok s = true -> forallb nch s = true.
Proof.
  destruct s as [|c r]; [reflexivity|]. cbn [exp_ok]. intro H. nbool.
  cbn [forallb]. replace (nch c) with true by (apply orb_true_iff in H; destruct H as [H|H]; apply N.eqb_eq in H; subst c; reflexivity).
  destruct r as [|d r']; [discriminate|]. cbn [andb].
  assert (D1 : forall t, digits1 t = true -> forallb nch t = true).
  { intros [|x t]; [discriminate|]. cbn [digits1 forallb]. intro K. nbool. unfold nch at 1. rewrite digit_plain by assumption. apply digits_nch. assumption. }
  destruct ((d =? 43) || (d =? 45)) eqn:E; [|auto].
  cbn [forallb]. rewrite (D1 r') by assumption.
  apply orb_true_iff in E; destruct E as [E|E]; apply N.eqb_eq in E; subst d; reflexivity.
Qed.
Lemma frac_nch s : frac_ok s = true -> forallb nch s = true.
Proof.
  unfold frac_ok. intro H.
  destruct s as [|c [|c2 r]].
  - reflexivity.
  - apply exp_nch. destruct c as [|p]; [exact H|]. do 6 (destruct p as [p|p|]; try exact H).
  - destruct (N.eqb_spec c 46) as [->|Hc].
    + nbool. cbn [forallb]. unfold nch at 2. rewrite (digit_plain c2) by assumption. cbn. apply drop_nch, exp_nch. assumption.
    + apply exp_nch. destruct c as [|p]; [exact H|]. do 6 (destruct p as [p|p|]; try exact H). contradiction.
Qed.
Lemma number_nch s : number_ok s = true -> forallb nch s = true.
Proof.
  assert (U : forall t, unsigned_ok t = true -> forallb nch t = true).
  { intros [|c r]; [discriminate|]. cbn [unsigned_ok forallb]. destruct (N.eqb_spec c 48) as [->|Hc]; intro H.
    - rewrite (frac_nch r H). reflexivity.
    - nbool. unfold nch at 1. rewrite (digit_plain c) by assumption. apply drop_nch, frac_nch. assumption. }
  destruct s as [|c r]; [discriminate|]. cbn [number_ok]. destruct (N.eqb_spec c 45) as [->|Hc]; [|apply U].
  intro H. cbn [forallb]. rewrite (U r H). reflexivity.
Qed.

Lemma last_app_one (l : bytes) c d : last (l ++ [c]) d = c.
Proof. apply last_last. Qed.

Lemma formatType_kept pf s : (hd 0 s = 34 /\ last s 0 = 34) \/ fenced s = true -> formatType pf s = s.
Proof.
  intro H. destruct s as [|c r].
  { destruct H as [[H _]|H]; discriminate H. }
  unfold formatType, fenced in *. cbn [hd] in H. cbv zeta. set (e := last (c :: r) 0) in *.
  assert (Hc : (c =? 48) = false).
  { apply N.eqb_neq. intros ->. destruct H as [[H _]|H]; discriminate H. }
  rewrite Hc. cbn [andb].
  destruct (isBool (c :: r)); [reflexivity|]. destruct (isInt (c :: r)); [reflexivity|]. destruct (pf (c :: r)); [reflexivity|].
  destruct (bytes_eqb (c :: r) (b "null")); [reflexivity|].
  destruct H as [[-> ->]|H]; [reflexivity|].
  destruct ((c =? 34) && (e =? 34)); [reflexivity|].
  destruct ((c =? 91) && (e =? 93)); [reflexivity|]. cbn [orb] in H. rewrite H. reflexivity.
Qed.

Theorem formatType_of_value pf s : value s -> value (formatType pf s).
Proof.
  intro H. assert (Hv := H). destruct (formatType_cases pf s) as [Hq|(-> & _)]; [|exact H].
  destruct H as [s Hl|s Hn|s Hc|w Hw|s He|w Hw|s Hm].
  - rewrite Hq. apply V_string. unfold literal in Hl. rewrite !orb_true_iff, !bytes_eqb_eq in Hl. destruct Hl as [[-> | ->]| ->]; reflexivity.
  - rewrite Hq. apply V_string. apply token_chars. exact (number_nch s Hn).
  - rewrite formatType_kept; [exact Hv|]. left. split; [reflexivity|]. change (34 :: s ++ [34]) with ((34 :: s) ++ [34]). apply last_app_one.
  - rewrite formatType_kept; [exact Hv|]. right. unfold fenced. change (91 :: w ++ [93]) with ((91 :: w) ++ [93]). rewrite last_app_one. reflexivity.
  - rewrite formatType_kept; [exact Hv|]. right. unfold fenced. change (91 :: s ++ [93]) with ((91 :: s) ++ [93]). rewrite last_app_one. reflexivity.
  - rewrite formatType_kept; [exact Hv|]. right. unfold fenced. change (123 :: w ++ [125]) with ((123 :: w) ++ [125]). rewrite last_app_one. reflexivity.
  - rewrite formatType_kept; [exact Hv|]. right. unfold fenced. change (123 :: s ++ [125]) with ((123 :: s) ++ [125]). rewrite last_app_one. reflexivity.
Qed.

(** *** Reading a string back *)
Lemma uint_token s u : uint_of_bytes s = Some u -> forallb is_token_char s = true.
Proof.
  revert u. induction s as [|c r IH]; intros u H; [reflexivity|]. cbn [uint_of_bytes] in H.
  destruct (uint_of_bytes r) as [u'|]; [|discriminate]. cbn [forallb]. rewrite (IH _ eq_refl), andb_true_r.
  apply digit_token. destruct c as [|p]; [discriminate|]. do 6 (destruct p as [p|p|]; try discriminate); reflexivity.
Qed.

Lemma parse_digits_token s n : parse_digits s = Some n -> s <> [] /\ forallb is_token_char s = true.
Proof.
  unfold parse_digits. destruct s as [|c r]; [discriminate|]. destruct (uint_of_bytes (c :: r)) eqn:E; [|discriminate].
  intros _. split; [discriminate|]. eapply uint_token. exact E.
Qed.

Lemma parse_signed_token s z : parse_signed s = Some z -> scalar_ok s = true.
Proof.
  assert (D : forall t (f : N -> Z) z, option_map f (parse_digits t) = Some z -> t <> [] /\ forallb is_token_char t = true).
  { intros t f z' H. destruct (parse_digits t) eqn:E; [|discriminate]. eapply parse_digits_token. exact E. }
  destruct s as [|c r]; [discriminate|].
  destruct (N.eqb_spec c 43) as [->|H43]; [cbn [parse_signed]; intro H; apply D in H; cbn [scalar_ok forallb]; rewrite (proj2 H); reflexivity|].
  destruct (N.eqb_spec c 45) as [->|H45]; [cbn [parse_signed]; intro H; apply D in H; cbn [scalar_ok forallb]; rewrite (proj2 H); reflexivity|].
  intro H. cbn [scalar_ok]. assert (H' : option_map Z.of_N (parse_digits (c :: r)) = Some z).
  { revert H. unfold parse_signed. destruct c as [|p]; [auto|]. do 6 (destruct p as [p|p|]; auto); contradiction. }
  apply D in H'. exact (proj2 H').
Qed.

Lemma isInt_token s : isInt s = true -> scalar_ok s = true.
Proof.
  unfold isInt, parse_int. destruct (parse_signed s) eqn:E; [|discriminate]. intros _. eapply parse_signed_token. exact E.
Qed.

Theorem formatType_simple pf s : str_ok s = true -> (pf s = true -> scalar_ok s = true) -> fenced s = false ->
  exists v, simple v s /\ formatType pf s = render v.
Proof.
  intros Hs Hp Hf. destruct (formatType_cases pf s) as [-> |(-> & Hne & H)].
  - exists (JString s). split; [|reflexivity]. split; [auto|exact Hs].
  - exists (JScalar s). split; [|reflexivity]. split; [auto|]. cbn [wf].
    destruct H as [H|[[H _]|[[_ H]|[H|[[H _]|H]]]]].
    + unfold isBool in H. apply orb_true_iff in H. rewrite !bytes_eqb_eq in H. destruct H as [-> | ->]; reflexivity.
    + apply isInt_token. exact H.
    + auto.
    + subst s. reflexivity.
    + exfalso. exact (hd_quote_str s Hs H).
    + congruence.
Qed.

Section Strings.
  Variables (pf : bytes -> bool) (d : doc) (p : list bytes) (s : bytes).
  Hypotheses (Hw : wf_doc d = true) (Hs : str_ok s = true) (Hp : pf s = true -> scalar_ok s = true) (Hf : fenced s = false).

  Theorem set_string : p <> [] -> lookup (d_val d) p <> None ->
    exists out, SetString pf (text d) s p = Done out /\ GetString out p = Ok s.
  Proof.
    intros Hp0 Hl. destruct (formatType_simple pf s Hs Hp Hf) as (v & Hv & He). unfold SetString. rewrite He.
    exact (set_read d p v s Hw Hv Hp0 Hl).
  Qed.
  Theorem add_string w els : lookup (d_val d) p = Some (JArr w els) -> in_int64 (Z.of_nat (length els)) = true ->
    exists out, AddString pf (text d) s p = Done out /\ GetString out (p ++ [itoa (Z.of_nat (length els))]) = Ok s.
  Proof.
    intros Hl Hn. destruct (formatType_simple pf s Hs Hp Hf) as (v & Hv & He). unfold AddString. rewrite He.
    exact (add_read d p v s w els Hw Hv Hl Hn).
  Qed.
  Theorem add_kv_string k w ms out : str_ok k = true -> lookup (d_val d) p = Some (JObj w ms) ->
    AddKeyValueString pf (text d) k s p = Done out -> GetString out (p ++ [k]) = Ok s.
  Proof.
    intros Hk Hl Hd. destruct (formatType_simple pf s Hs Hp Hf) as (v & Hv & He).
    apply (add_kv_read d p k v s w ms out Hw Hv Hk Hl). rewrite <- He.
    unfold AddKeyValueString in Hd. destruct k; [discriminate|exact Hd].
  Qed.
  Theorem insert_string i w els : (i <= int64_max)%Z ->
    lookup (d_val d) p = Some (JArr w els) -> insert_layout els i -> nth_z els i <> None ->
    exists out, InsertString pf (text d) i s p = Done out /\ GetString out (p ++ [itoa i]) = Ok s.
  Proof.
    intros Hi Hl Hlay Hn. destruct (formatType_simple pf s Hs Hp Hf) as (v & Hv & He). unfold InsertString.
    rewrite (nth_z_nonneg _ _ Hn), He. exact (insert_read d p i v s w els Hw Hv Hi Hl Hlay Hn).
  Qed.
  Theorem store_string k w ms : str_ok k = true -> lookup (d_val d) p = Some (JObj w ms) ->
    (d_lookup (content (d_val d)) (p ++ [k]) <> None \/ seen_absent d p k) ->
    exists out, StoreString pf (text d) k s p = Done out /\ GetString out (p ++ [k]) = Ok s.
  Proof.
    intros Hk Hl Hcase. destruct (formatType_simple pf s Hs Hp Hf) as (v & Hv & He). unfold StoreString. rewrite He.
    exact (store_read d p k v s w ms Hw Hv Hk Hl Hcase).
  Qed.
End Strings.

(** ** Sized integers *)
Lemma small_uint z : (0 <= z < 10)%Z -> FormatUint (Z.to_N z) 32 = Ok (itoa z).
Proof.
  intro H. unfold itoa. replace (z <? 0)%Z with false by (symmetry; apply Z.ltb_ge; lia). apply base32_is_decimal. lia.
Qed.

Theorem sized_small json z p k i : (-10 < z < 10)%Z ->
  AddInt32 json z p = AddInt json z p /\ AddKeyValueInt32 json k z p = AddKeyValueInt json k z p /\
  InsertInt32 json i z p = InsertInt json i z p /\
  ((0 <= z)%Z -> AddUint32 json (Z.to_N z) p = AddInt json z p /\
                 AddKeyValueUint32 json k (Z.to_N z) p = AddKeyValueInt json k z p /\
                 InsertUint32 json i (Z.to_N z) p = InsertInt json i z p).
Proof.
  intro H. pose proof (proj2 (base32_int z) H) as E.
  unfold AddInt32, AddKeyValueInt32, InsertInt32, AddUint32, AddKeyValueUint32, InsertUint32. rewrite E.
  repeat split; rewrite small_uint by lia; reflexivity.
Qed.

Theorem sized_panics json z n p k i : k <> [] -> (0 <= i)%Z ->
  AddInt64 json z p = UPanic /\ AddUint json n p = UPanic /\ AddUint64 json n p = UPanic /\
  AddKeyValueInt64 json k z p = UPanic /\ AddKeyValueUint json k n p = UPanic /\ AddKeyValueUint64 json k n p = UPanic /\
  InsertInt64 json i z p = UPanic /\ InsertUint json i n p = UPanic /\ InsertUint64 json i n p = UPanic.
Proof.
  intros Hk Hi. unfold AddInt64, AddKeyValueInt64, InsertInt64, AddUint, AddUint64, AddKeyValueUint, AddKeyValueUint64,
    InsertUint, InsertUint64, neg_index, null_key. rewrite base64_panics, (proj2 (Z.ltb_ge i 0)) by exact Hi.
  destruct k; [contradiction|]. repeat split.
Qed.

Theorem typed_nil :
  ~ (forall pf json k s i p o e, (AddKeyValueString pf json k s p = Fail o e -> o = Some json) /\
       (InsertString pf json i s p = Fail o e -> o = Some json)) /\
  (forall pf json s p, AddKeyValueString pf json [] s p = Fail None ENullKey) /\
  (forall pf json i s p, (i < 0)%Z -> InsertString pf json i s p = Fail None EIndexOutOfRange).
Proof.
  split; [|split].
  - intro H. destruct (H (fun _ => false) [] [] [] 0%Z [] None ENullKey) as [H1 _]. discriminate (H1 eq_refl).
  - reflexivity.
  - intros pf json i s p Hi. unfold InsertString. rewrite (proj2 (Z.ltb_lt i 0)) by exact Hi. reflexivity.
Qed.

(** ** Strings written wrongly *)
Lemma not_valid s : valid s = false -> ~ value s.
Proof. intros H Hv. apply value_text_ok, valid_spec in Hv. congruence. Qed.

Theorem formatType_bad pf :
  ~ (forall s, value (formatType pf s)) /\ ~ value (formatType pf (b "a""b")) /\ ~ value (formatType pf (b "+5")) /\
  ~ value (formatType pf (b "-01")) /\ ~ value (formatType pf (b "[x]")) /\ ~ value (formatType pf (b """")) /\
  ~ value (formatType pf [10]).
Proof.
  assert (H5 : ~ value (formatType pf (b "+5"))) by (apply not_valid; reflexivity).
  split; [intro H; exact (H5 (H _))|].
  assert (Hq : forall s, valid s = false -> valid (quote s) = false -> ~ value (formatType pf s)).
  { intros s H1 H2. destruct (formatType_cases pf s) as [-> |(-> & _)]; apply not_valid; assumption. }
  split; [apply Hq; reflexivity|]. split; [exact H5|].
  split; [apply not_valid; reflexivity|]. split; [|split].
  - rewrite formatType_kept by (right; reflexivity). apply not_valid. reflexivity.
  - rewrite formatType_kept by (left; split; reflexivity). apply not_valid. reflexivity.
  - apply Hq; reflexivity.
Qed.
