(** C58: a JO's methods on memory. *)
From Coq Require Import String.
From Verif Require Import GoStd Core Errors Api Typed JO JOProofs GoMem Mem SpecMem NoPanic MemProofs MemSession JOMem.

Local Open Scope nat_scope.

(** A method called on a JO whose body is [body]: nothing in memory changes; the body and the error are those of the methods
    on byte strings; the new body is memory of its own when the method succeeds, and the old slice (or nil) when it fails. *)
Definition jo_behaves (h : mem) (body : bsl) (r : option ((bsl * option err) * mem)) (u : jres) : Prop :=
  match r with
  | None => u = JPanic
  | Some ((body', e), h') => extends h h' /\ valid h' body' /\ u = JRet (content h' body') e /\
      (e = None -> fresh h body') /\ (e <> None -> body' = body \/ body' = nil_slice)
  end.

Lemma assign_behaves h body m u : valid h body -> behaves h body (m h) u -> jo_behaves h body (assignM m h) (assign u).
Proof.
  intros V B. unfold assignM, mbind. destruct (m h) as [[[o|o e] h']|]; cbn [behaves ret jo_behaves] in *.
  - destruct B as (B1 & B2 & B3 & ->). cbn [assign]. split; [exact B1|]. split; [exact B2|]. split; [reflexivity|]. split; [auto|congruence].
  - destruct B as (B1 & -> & ->). cbn [assign]. split; [exact B1|]. split; [exact (extends_valid _ _ _ B1 V)|].
    split; [rewrite (extends_content h h') by assumption; reflexivity|]. split; [discriminate|auto].
  - rewrite B. reflexivity.
Qed.

Section Calls.
  Variable grow : nat -> nat.

  Lemma bytes_behaves h body t (k : bsl -> M mupd) (u : bytes -> bytes -> upd) : valid h body ->
    (forall h1 s, valid h1 body -> valid h1 s -> behaves h1 body (k s h1) (u (content h1 body) (content h1 s))) ->
    behaves h body (mbind (bytes_of grow t) k h) (u (content h body) t).
  Proof.
    intros V K. unfold mbind, bytes_of, of_string. destruct (new_building h t (grow (length t))) as (s & h1 & -> & B1 & B2 & B3 & B4).
    apply (behaves_base h h1); [exact B1|exact V|]. rewrite <- (extends_content h h1) by assumption. rewrite <- B4.
    apply K; [exact (extends_valid _ _ _ B1 V)|exact B2].
  Qed.

  Lemma set_own h body t path : valid h body ->
    jo_behaves h body (assignM (let! s := bytes_of grow t in SetM grow body s path) h) (assign (Set_ (content h body) t path)).
  Proof.
    intro V. apply assign_behaves; [exact V|]. apply (bytes_behaves h body t _ (fun j x => Set_ j x path) V).
    intros h1 s V1 Vs. apply SetM_spec; assumption.
  Qed.
  Lemma add_own h body t path : valid h body ->
    jo_behaves h body (assignM (let! s := bytes_of grow t in AddM grow body s path) h) (assign (Add_ (content h body) t path)).
  Proof.
    intro V. apply assign_behaves; [exact V|]. apply (bytes_behaves h body t _ (fun j x => Add_ j x path) V).
    intros h1 s V1 Vs. apply AddM_spec; assumption.
  Qed.
  Lemma insert_own h body i t path : valid h body ->
    jo_behaves h body (assignM (let! s := bytes_of grow t in InsertM grow body i s path) h) (assign (Insert (content h body) i t path)).
  Proof.
    intro V. apply assign_behaves; [exact V|]. apply (bytes_behaves h body t _ (fun j x => Insert j i x path) V).
    intros h1 s V1 Vs. apply InsertM_spec; assumption.
  Qed.
  Lemma addkv_own h body key t path : valid h body ->
    jo_behaves h body (assignM (let! s := bytes_of grow t in AddKeyValueM grow body key (Some s) path) h) (assign (AddKeyValue (content h body) key (Some t) path)).
  Proof.
    intro V. apply assign_behaves; [exact V|]. apply (bytes_behaves h body t _ (fun j x => AddKeyValue j key (Some x) path) V).
    intros h1 s V1 Vs. apply (AddKeyValueM_spec grow h1 body key (Some s) path V1). intros v E. injection E as <-. exact Vs.
  Qed.
  Lemma store_own h body key t path : valid h body ->
    jo_behaves h body (assignM (let! s := bytes_of grow t in StoreM grow body key (Some s) path) h) (assign (Store (content h body) key (Some t) path)).
  Proof.
    intro V. apply assign_behaves; [exact V|]. apply (bytes_behaves h body t _ (fun j x => Store j key (Some x) path) V).
    intros h1 s V1 Vs. apply (StoreM_spec grow h1 body key (Some s) path V1). intros v E. injection E as <-. exact Vs.
  Qed.

  Lemma refused_own h body other e : valid h body -> (other = body \/ other = nil_slice) ->
    jo_behaves h body (assignM (ret (MFail other e)) h) (JRet (content h other) (Some e)).
  Proof.
    intros V H. cbn. split; [apply extends_refl|]. split; [destruct H as [->| ->]; [exact V|apply nil_valid]|]. split; [reflexivity|]. split; [discriminate|auto].
  Qed.

  Lemma store_method h body key value path : valid h body -> (forall v, value = Some v -> valid h v) ->
    jo_behaves h body (JO_StoreM grow body key value path h) (JO_Store (content h body) key (option_map (content h) value) path).
  Proof.
    intros V VV. unfold JO_StoreM, JO_Store, mbind at 1, look. cbv zeta.
    set (v := match value with None => nil_slice | Some v => v end).
    assert (Vv : valid h v) by (unfold v; destruct value; [apply VV; reflexivity|apply nil_valid]).
    assert (Ev : match option_map (content h) value with None => [] | Some x => x end = content h v) by (unfold v; destruct value; reflexivity).
    rewrite Ev. clear Ev.
    assert (R : forall s e, s <= b_len body -> jo_behaves h body ((let! out := replaceM grow body v s e in ret (out, None)) h)
      (match replace (content h body) (content h v) s e with Ok out => JRet out None | _ => JPanic end)).
    { intros s e Hs. pose proof (done_replaceM_spec grow h body v s e V Vv Hs) as D. unfold done_replaceM, done_replace, mbind in *.
      destruct (replaceM grow body v s e h) as [[o h']|]; cbn [ret behaves] in *.
      - destruct D as (D1 & D2 & D3 & D4). destruct (replace (content h body) (content h v) s e) as [out| |]; try discriminate. injection D4 as ->.
        cbn. split; [exact D1|]. split; [exact D2|]. split; [reflexivity|]. split; [auto|congruence].
      - destruct (replace (content h body) (content h v) s e); try discriminate; reflexivity. }
    destruct (core (content h body) false (path ++ [key])) as [[[ks s] e]|er|] eqn:E; [|destruct (err_equal (Some er) 8)|reflexivity].
    - apply core_end in E. rewrite content_len in E by exact V. destruct E as [E1 E2].
      unfold mbind at 1, eval. destruct (at_pred (content h body) s) as [c| |] eqn:Ec; [|reflexivity|reflexivity].
      cbn [ret]. unfold mbind at 1. destruct (if (c =? 34)%N then do d <- at_ (content h body) e; Ok (d =? 34)%N else Ok false) as [[|]| |] eqn:Eb; cbn [ret]; try reflexivity.
      + apply R. lia.
      + apply R. lia.
    - apply assign_behaves; [exact V|]. apply AddKeyValueM_spec; assumption.
    - cbn. split; [apply extends_refl|]. split; [exact V|]. split; [reflexivity|]. split; [discriminate|auto].
  Qed.

  Lemma base_behaves h h1 body r u : extends h h1 -> jo_behaves h1 body r u -> jo_behaves h body r u.
  Proof.
    intros E B. destruct r as [[[o e] h']|]; [|exact B]. cbn [jo_behaves] in *. destruct B as (B1 & B2 & B3 & B4 & B5).
    split; [exact (extends_trans _ _ _ E B1)|]. split; [exact B2|]. split; [exact B3|]. split; [|exact B5].
    intro H. specialize (B4 H). apply extends_len in E. unfold fresh in *. lia.
  Qed.

  Theorem own_behaves pf h body c : valid h body -> jo_behaves h body (own_call grow pf body c h) (jo_call pf (content h body) c).
  Proof.
    intro V. assert (AK : forall other key t path e0, (other = body \/ other = nil_slice) ->
      (key = [] -> e0 = JRet (content h other) (Some ENullKey)) -> (key <> [] -> e0 = assign (AddKeyValue (content h body) key (Some t) path)) ->
      jo_behaves h body (assignM (null_keyM other key (let! s := bytes_of grow t in AddKeyValueM grow body key (Some s) path)) h) e0).
    { intros other key t path e0 Ho H1 H2. destruct key as [|k0 key]; cbn [null_keyM].
      - rewrite H1 by reflexivity. apply refused_own; assumption.
      - rewrite H2 by discriminate. apply addkv_own. exact V. }
    assert (IN : forall other i t path e0, (other = body \/ other = nil_slice) ->
      ((i <? 0)%Z = true -> e0 = JRet (content h other) (Some EIndexOutOfRange)) -> ((i <? 0)%Z = false -> e0 = assign (Insert (content h body) i t path)) ->
      jo_behaves h body (assignM (neg_indexM other i (let! s := bytes_of grow t in InsertM grow body i s path)) h) e0).
    { intros other i t path e0 Ho H1 H2. unfold neg_indexM. destruct (i <? 0)%Z.
      - rewrite H1 by reflexivity. apply refused_own; assumption.
      - rewrite H2 by reflexivity. apply insert_own. exact V. }
    destruct c; cbn [own_call jo_call]; try (apply set_own; exact V); try (apply add_own; exact V); try (apply store_own; exact V).
    - destruct value as [t|]; [exact (addkv_own h body key t path V)|]. cbn [opt_bytes_of]. apply assign_behaves; [exact V|].
      apply (AddKeyValueM_spec grow h body key None path V). discriminate.
    - apply insert_own. exact V.
    - apply AK; [right; reflexivity| |]; intro H; [subst key; reflexivity|destruct key; [congruence|reflexivity]].
    - apply AK; [left; reflexivity| |]; intro H; [subst key; reflexivity|destruct key; [congruence|reflexivity]].
    - apply AK; [left; reflexivity| |]; intro H; [subst key; reflexivity|destruct key; [congruence|reflexivity]].
    - apply AK; [left; reflexivity| |]; intro H; [subst key; reflexivity|destruct key; [congruence|reflexivity]].
    - apply IN; [right; reflexivity| |]; intro H; unfold InsertString; rewrite H; reflexivity.
    - apply IN; [left; reflexivity| |]; intro H; unfold InsertInt, neg_index; rewrite H; reflexivity.
    - apply IN; [left; reflexivity| |]; intro H; unfold InsertFloat, neg_index; rewrite H; reflexivity.
    - apply IN; [left; reflexivity| |]; intro H; unfold InsertBool, neg_index; rewrite H; reflexivity.
    - destruct value as [t|]; cbn [opt_bytes_of].
      + unfold mbind at 1 2, bytes_of, of_string. destruct (new_building h t (grow (length t))) as (s & h1 & -> & B1 & B2 & B3 & B4). cbn [ret].
        apply (base_behaves h h1 body _ _ B1). rewrite <- (extends_content h h1) by assumption. rewrite <- B4.
        apply (store_method h1 body key (Some s) path (extends_valid _ _ _ B1 V)). intros v E. injection E as <-. exact B2.
      + apply (store_method h body key None path V). discriminate.
    - destruct v; apply store_own; exact V.
    - apply assign_behaves; [exact V|]. apply SetKeyM_spec. exact V.
    - apply assign_behaves; [exact V|]. apply DeleteM_spec. exact V.
  Qed.

  Theorem call_behaves pf h body c : valid h body -> Forall (valid h) (args c) ->
    jo_behaves h body (jo_callM grow pf body c h) (jo_call pf (content h body) (shown h c)).
  Proof.
    intros V A. assert (VO : forall value : option bsl, Forall (valid h) (match value with Some v => [v] | None => [] end) -> forall v, value = Some v -> valid h v).
    { intros value F v ->. inversion F. assumption. }
    destruct c; cbn [jo_callM shown jo_call args] in *.
    - apply assign_behaves; [exact V|]. apply AddKeyValueM_spec; [exact V|]. apply VO. destruct value; exact A.
    - apply assign_behaves; [exact V|]. inversion A. apply AddM_spec; assumption.
    - apply assign_behaves; [exact V|]. inversion A. apply InsertM_spec; assumption.
    - apply store_method; [exact V|]. apply VO. destruct value; exact A.
    - apply assign_behaves; [exact V|]. inversion A. apply SetM_spec; assumption.
    - apply own_behaves. exact V.
  Qed.

  Lemma shown_later h h' c : extends h h' -> Forall (valid h) (args c) -> shown h' c = shown h c.
  Proof.
    intros E A. destruct c as [key [v|] path|v path|i v path|key [v|] path|v path|c]; cbn [shown args option_map] in *; try reflexivity;
      inversion A; rewrite (extends_content h h') by assumption; reflexivity.
  Qed.

  Theorem run_behaves pf : forall cs h body, valid h body -> Forall (fun c => Forall (valid h) (args c)) cs ->
    match jo_runM grow pf body cs h with
    | None => jo_run pf (content h body) (map (shown h) cs) = None
    | Some ((body', es), h') => extends h h' /\ valid h' body' /\ jo_run pf (content h body) (map (shown h) cs) = Some (content h' body', es) /\
        (In None es -> fresh h body' \/ body' = nil_slice) /\ (~ In None es -> body' = body \/ body' = nil_slice)
    end.
  Proof.
    induction cs as [|c cs IH]; intros h body V A; cbn [jo_runM jo_run map].
    - cbn [ret]. split; [apply extends_refl|]. split; [exact V|]. split; [reflexivity|]. split; [intros []|auto].
    - inversion A as [|? ? A1 A2]. subst. pose proof (call_behaves pf h body c V A1) as B. unfold mbind. unfold jo_behaves in B.
      destruct (jo_callM grow pf body c h) as [[[b1 e] h1]|]; [|rewrite B; reflexivity]. cbn [fst snd]. destruct B as (B1 & B2 & -> & B4 & B5).
      assert (A2' : Forall (fun c => Forall (valid h1) (args c)) cs).
      { eapply Forall_impl; [|exact A2]. intros x Hx. eapply Forall_impl; [|exact Hx]. intros s Hs. exact (extends_valid _ _ _ B1 Hs). }
      specialize (IH h1 b1 B2 A2'). replace (map (shown h1) cs) with (map (shown h) cs) in IH.
      2:{ apply map_ext_in. intros x Hx. symmetry. apply shown_later; [exact B1|]. rewrite Forall_forall in A2. apply A2. exact Hx. }
      destruct (jo_runM grow pf b1 cs h1) as [[[b2 es] h2]|]; [|rewrite IH; reflexivity]. cbn [ret fst snd].
      destruct IH as (I1 & I2 & -> & I4 & I5). split; [exact (extends_trans _ _ _ B1 I1)|]. split; [exact I2|]. split; [reflexivity|].
      assert (D : In None es \/ ~ In None es).
      { clear. induction es as [|[x|] es [IH|IH]]; cbn [In]; auto; right; intros [H|H]; try discriminate; auto. }
      assert (F : fresh h1 b2 -> fresh h b2) by (pose proof (extends_len _ _ B1); unfold fresh; lia).
      split.
      + intros [He|Hn].
        * destruct D as [D|D]; [destruct (I4 D); auto|]. destruct (I5 D) as [->| ->]; [|auto]. left. apply B4. exact He.
        * destruct (I4 Hn); auto.
      + intro Hn. cbn [In] in Hn. assert (D' : ~ In None es) by tauto. destruct (I5 D') as [->| ->]; [|auto]. apply B5. intro. apply Hn. auto.
  Qed.

  (** Whatever the caller holds keeps its bytes, and after a success no one shares the body. *)
  Theorem run_keeps pf cs h body body' es h' : valid h body -> Forall (fun c => Forall (valid h) (args c)) cs ->
    jo_runM grow pf body cs h = Some ((body', es), h') -> forall s, valid h s ->
    content h' s = content h s /\
    (In None es -> forall p c h'',
       (store s p c h' = Some (tt, h'') -> content h'' body' = content h' body') /\
       (store (JO_JSONM body') p c h' = Some (tt, h'') -> content h'' s = content h s)).
  Proof.
    intros V A R s Vs. pose proof (run_behaves pf cs h body V A) as B. rewrite R in B. destruct B as (B1 & B2 & _ & B4 & _).
    split; [apply extends_content; assumption|]. intros Hn p c h''. unfold JO_JSONM. destruct (B4 Hn) as [F| ->].
    - destruct (Nat.lt_ge_cases (b_arr s) (length h)) as [L|L].
      + assert (N : b_arr s <> b_arr body') by (unfold fresh in F; lia). split; intro H.
        * exact (store_apart _ _ _ _ _ _ N H).
        * rewrite (store_apart _ _ s _ _ _ (not_eq_sym N) H). apply extends_content; assumption.
      + destruct (nowhere h s Vs L) as (_ & Z & _). split; intro H.
        * unfold store in H. rewrite Z in H. destruct p; discriminate H.
        * unfold content. rewrite Z. reflexivity.
    - split; intro H; [reflexivity|]. unfold store in H. cbn in H. destruct p; discriminate H.
  Qed.
End Calls.

(** NewJSON: memory of its own. *)
Lemma new_json grow h : behaves_res h (NewJSONM grow h) (Ok (b "{}")).
Proof.
  unfold NewJSONM, of_string, behaves_res. destruct (new_building h (b "{}") (grow 2)) as (s & h1 & E & B1 & B2 & B3 & B4).
  rewrite E. rewrite B4. auto.
Qed.

(** Witnesses against copying *)
Definition s_mem : mem := [b "{""a"":1}"].
Definition s_buffer : bsl := Bsl 0 0 7 7.
Lemma s_valid : valid s_mem s_buffer.
Proof. vm_compute. repeat split; repeat constructor. Qed.
Lemma new_shares : ~ (forall h buffer p c h', valid h buffer -> store buffer p c h = Some (tt, h') -> content h' buffer = content h buffer).
Proof. intro F. assert (E := F s_mem s_buffer 5 (hd 0%N (b "9")) [b "{""a"":9}"] s_valid eq_refl). vm_compute in E. discriminate. Qed.
Lemma failed_shares : ~ (forall grow pf call h buffer body' e h' p c h'', valid h buffer -> Forall (valid h) (args call) ->
  jo_callM grow pf buffer call h = Some ((body', e), h') -> store buffer p c h' = Some (tt, h'') -> content h'' body' = content h' body').
Proof.
  intro F. assert (E := F (fun _ => 0) (fun _ => true) (MOwn (JO.CDelete [b "z"])) s_mem s_buffer s_buffer (Some (EKeyNotFound (b "z"))) s_mem
    5 (hd 0%N (b "9")) [b "{""a"":9}"] s_valid (Forall_nil _) eq_refl eq_refl). vm_compute in E. discriminate.
Qed.
Lemma get_shares : ~ (forall grow pf call h buffer body' h' path v p c h'', valid h buffer -> Forall (valid h) (args call) ->
  jo_callM grow pf buffer call h = Some ((body', None), h') -> JO_GetM body' path h' = Some (inr v, h') ->
  store v p c h' = Some (tt, h'') -> content h'' body' = content h' body').
Proof.
  intro F. assert (E := F (fun _ => 0) (fun _ => true) (MOwn (JO.CSetInt 2 [b "a"])) s_mem s_buffer (Bsl 2 0 7 7) [b "{""a"":1}"; b "2"; b "{""a"":2}"]
    [b "a"] (Bsl 2 5 1 2) 0 (hd 0%N (b "9")) [b "{""a"":1}"; b "2"; b "{""a"":9}"] s_valid (Forall_nil _) eq_refl eq_refl eq_refl). vm_compute in E. discriminate.
Qed.
