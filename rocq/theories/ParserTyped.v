(** The typed writers of the Parser (parse_set.go:55-84, parse_add.go:341-444): what they write is what the typed readers
    of the Parser and of the package read. *)
From Coq Require Import String.
From Verif Require Import GoStd Json Spec SpecProofs Focus Domains Core Errors Api Updates Ops History Iter Typed TypedProofs SpecNumber GoFloat FloatProofs FloatApi
  SpecParser Parser ParserProofs ParserGet ParserUpd ParserOps ParserInsert TreeProofs.

Local Open Scope N_scope.

(** ** Paths on abstract documents *)
Lemma lonely_content v : lonely v = lonely_in (content v).
Proof. destruct v as [s|s|w els|w ms]; [reflexivity|reflexivity| |reflexivity]. destruct els as [|[a u c] [|e els]]; [reflexivity| |destruct u; reflexivity]. destruct u; reflexivity. Qed.
Lemma exact_content v x : exact_step v x = exact_in (content v) x.
Proof. destruct v; reflexivity. Qed.
Lemma straight_content q : forall v, straight v q = straight_in (content v) q.
Proof.
  induction q as [|x q IH]; intro v; [reflexivity|]. cbn [straight straight_in]. rewrite lonely_content, exact_content, child_content.
  destruct (child v x) as [c|]; cbn [option_map]; [rewrite IH|]; reflexivity.
Qed.

(** ** Where the written value is *)
Lemma modify_target c q g c' : d_modify c q g = Some c' -> exists u u', d_lookup c q = Some u /\ g u = Some u' /\ d_lookup c' q = Some u'.
Proof.
  intro H. assert (Hl : exists u u', d_lookup c q = Some u /\ g u = Some u').
  { clear -H. revert c c' H. induction q as [|x q IH]; intros c c' H; cbn [d_modify d_lookup] in *; [eauto|].
    destruct (d_child c x) as [a|]; [|discriminate]. destruct (d_modify a q g) as [a'|] eqn:E; [|discriminate]. eapply IH. exact E. }
  destruct Hl as (u & u' & Hl & Hg). exists u, u'. split; [exact Hl|]. split; [exact Hg|]. exact (d_lookup_modify_same _ _ _ _ _ _ H Hl Hg).
Qed.
Lemma set_target c q v c' : meaning (OSet q v) c = Some c' -> d_lookup c' q = Some (content v).
Proof. intro H. destruct (modify_target _ _ _ _ H) as (u & u' & _ & Hg & Hl). injection Hg as <-. exact Hl. Qed.
Lemma addkv_target c q k v c' : meaning (OAddKV q k v) c = Some c' -> d_lookup c' (q ++ [k]) = Some (content v).
Proof.
  intro H. destruct (modify_target _ _ _ _ H) as (u & u' & _ & Hg & Hl). rewrite d_lookup_app, Hl.
  destruct u as [s|s|ds|ms]; try discriminate. cbn [d_add] in Hg. destruct (assoc k ms) eqn:E; [discriminate|]. injection Hg as <-.
  cbn [d_lookup d_child]. rewrite assoc_snoc by exact E. reflexivity.
Qed.
Lemma add_target c q v c' l x : meaning (OAdd q v) c = Some c' -> d_lookup c' q = Some (DArr (l ++ [x])) ->
  in_int64 (Z.of_nat (length l)) = true -> d_lookup c' (q ++ [itoa (Z.of_nat (length l))]) = Some (content v).
Proof.
  intros H Hx Hi. destruct (modify_target _ _ _ _ H) as (u & u' & _ & Hg & Hl). rewrite d_lookup_app, Hl.
  destruct u as [s|s|ds|ms]; try discriminate. injection Hg as <-. rewrite Hl in Hx. injection Hx as Hx. apply app_inj_tail in Hx. destruct Hx as [-> <-].
  cbn [d_lookup d_child]. rewrite atoi_itoa by exact Hi. rewrite nth_z_snoc. reflexivity.
Qed.
Lemma insert_target c q z v c' : meaning (OInsert q z v) c = Some c' -> (z <= int64_max)%Z -> (z <? 0)%Z = false /\ d_lookup c' (q ++ [itoa z]) = Some (content v).
Proof.
  intros H Hz. destruct (modify_target _ _ _ _ H) as (u & u' & _ & Hg & Hl). rewrite d_lookup_app, Hl.
  destruct u as [s|s|ds|ms]; try discriminate. cbn [d_insert] in Hg. destruct (nth_z ds z) as [a|] eqn:E; [|discriminate]. injection Hg as <-.
  assert (Hz0 : (z <? 0)%Z = false) by (apply (nth_z_nonneg ds); congruence).
  split; [exact Hz0|]. destruct (nth_z_split _ _ _ E) as (l1 & l2 & El & ->). cbn [d_lookup d_child]. rewrite atoi_itoa.
  2:{ unfold in_int64. apply andb_true_iff. split; apply Z.leb_le; [unfold int64_min|]; lia. }
  rewrite El, Nat2Z.id, firstn_app_len, nth_z_app. reflexivity.
Qed.

(** ** Histories with a last call *)
Lemma p_lawful_meanings i d ops c' : p_lawful i d ops c' -> wf_doc d = true -> meanings ops (content (d_val d)) = Some c'.
Proof.
  induction 1 as [i d|i d o ops c1 c2 Hl Hpl Hm _ IH|d q z v ops c1 c2 Hl Hpl Hm _ IH]; intro Hw; [reflexivity| |];
    cbn [meanings]; rewrite Hm;
    (match type of Hl with legal _ ?o => destruct (call_ok d o c1 Hw Hl Hm) as (d' & Hc & Hw' & _ & _ & Hc') end);
    rewrite <- Hc'; (apply IH; [exact Hw'|exact Hc|exact Hc'|exact Hw']).
Qed.
Lemma meanings_snoc ops o : forall c c', meanings (ops ++ [o]) c = Some c' -> exists c1, meaning o c1 = Some c'.
Proof.
  induction ops as [|a ops IH]; intros c c' H; cbn [app meanings] in H.
  - destruct (meaning o c) eqn:E; [|discriminate]. exists c. congruence.
  - destruct (meaning a c); [|discriminate]. eapply IH. exact H.
Qed.
Lemma p_lawful_last o c' i d l : p_lawful i d l c' -> wf_doc d = true -> forall ops, l = ops ++ [o] -> exists d1, legal d1 o.
Proof.
  induction 1 as [i d|i d a l c1 c2 Hl Hpl Hm _ IH|d q z v l c1 c2 Hl Hpl Hm _ IH]; intros Hw ops E; [destruct ops; discriminate E| |];
    (destruct ops as [|a' ops]; cbn [app] in E; injection E as <- E; [eexists; exact Hl|];
     match type of Hl with legal _ ?o => destruct (call_ok d o c1 Hw Hl Hm) as (d' & Hc & Hw' & _ & _ & Hc') end;
     exact (IH d' Hw' Hc Hc' Hw' ops E)).
Qed.
Lemma p_run_snoc ops o : forall p p', p_run (ops ++ [o]) p = Some p' -> exists p1, p_run ops p = Some p1 /\ p_call o p1 = PRet p' None.
Proof.
  induction ops as [|a ops IH]; intros p p' H; cbn [app p_run] in *.
  - exists p. split; [reflexivity|]. destruct (p_call o p) as [p2 [e|]|]; congruence.
  - destruct (p_call a p) as [p2 [e|]|]; try discriminate. apply IH. exact H.
Qed.

(** Parse, the calls of [ops] and the call [w], none of which fails: the text is the one the functions of the package make
    with the calls [ops] and [o], and the parser satisfies [ok]. *)
Definition after (d : doc) (ops : list op) (o : op) (w : parser -> pres) (ok : parser -> Prop) : Prop :=
  exists p p1 p2, Parse (text d) = Ok p /\ p_run ops p = Some p1 /\ w p1 = PRet p2 None /\
    run (ops ++ [o]) (text d) = Some (p_json p2) /\ ok p2.

Section Written.
  Variable d : doc.
  Variable ops : list op.
  Variable c' : jd.
  Hypothesis Hw : wf_doc d = true.
  Hypothesis Hc : container (d_val d) = true.

  Lemma written o v s t w (ok : parser -> Prop) : simple v s -> p_lawful true d (ops ++ [o]) c' -> t <> [] ->
    (forall c, meaning o c = Some c' -> d_lookup c' t = Some (content v)) -> straight_in c' t = true ->
    (forall p, p_call o p = w p) ->
    (forall p, P_Get p t = Ok s -> Get (p_json p) t = Ok s -> ok p) -> after d ops o w ok.
  Proof.
    intros Hs Hl Ht Htg Hst Hcall Hok. destruct (parse_history d _ c' Hw Hc Hl) as (p & d' & p' & Hp & Hr & Hrun & Hw' & Hc' & Ha).
    destruct (p_run_snoc _ _ _ _ Hr) as (p1 & Hr1 & Hpc). pose proof (p_lawful_meanings _ _ _ _ Hl Hw) as Hm.
    destruct (meanings_snoc _ _ _ _ Hm) as (c1 & Hm1). specialize (Htg c1 Hm1).
    exists p, p1, p'. split; [exact Hp|]. split; [exact Hr1|]. split; [rewrite <- Hcall; exact Hpc|]. destruct Ha as (Hj & Hg & _).
    split; [rewrite Hj; exact Hrun|]. rewrite <- Hc' in Htg. rewrite lookup_content in Htg.
    destruct (lookup (d_val d') t) as [u|] eqn:Hu; [|discriminate]. cbn [option_map] in Htg. injection Htg as Htg.
    rewrite <- Hc', <- straight_content in Hst. destruct (Hg t u Hu Ht Hst) as [H1 H2].
    assert (Hb : bare u = s) by (destruct Hs as [[-> | ->] _]; destruct u; try discriminate; cbn in *; congruence).
    rewrite Hb in *. apply Hok; [exact H1|]. rewrite Hj. exact H2.
  Qed.

  Lemma written_set v s q w (ok : parser -> Prop) : simple v s -> p_lawful true d (ops ++ [OSet q v]) c' -> straight_in c' q = true ->
    (forall p, P_Set p (render v) q = w p) -> (forall p, P_Get p q = Ok s -> Get (p_json p) q = Ok s -> ok p) -> after d ops (OSet q v) w ok.
  Proof.
    intros Hs Hl Hst Hcall. destruct (p_lawful_last _ _ _ _ _ Hl Hw ops eq_refl) as (d1 & Hq & _).
    eapply written; try eassumption. intro c. apply set_target.
  Qed.

  Lemma not_nil' (q : list bytes) x : q ++ [x] <> []. Proof. destruct q; discriminate. Qed.
  Lemma written_addkv v s q k w (ok : parser -> Prop) : simple v s -> p_lawful true d (ops ++ [OAddKV q k v]) c' -> straight_in c' (q ++ [k]) = true ->
    (forall p, P_AddKeyValue p k (render v) q = w p) -> (forall p, P_Get p (q ++ [k]) = Ok s -> Get (p_json p) (q ++ [k]) = Ok s -> ok p) ->
    after d ops (OAddKV q k v) w ok.
  Proof. intros Hs Hl Hst Hcall. eapply written; try eassumption; [apply not_nil'|]. intro c. apply addkv_target. Qed.

  Lemma written_add v s q l x w (ok : parser -> Prop) : simple v s -> p_lawful true d (ops ++ [OAdd q v]) c' ->
    d_lookup c' q = Some (DArr (l ++ [x])) -> in_int64 (Z.of_nat (length l)) = true -> straight_in c' (q ++ [itoa (Z.of_nat (length l))]) = true ->
    (forall p, P_Add p (render v) q = w p) ->
    (forall p, P_Get p (q ++ [itoa (Z.of_nat (length l))]) = Ok s -> Get (p_json p) (q ++ [itoa (Z.of_nat (length l))]) = Ok s -> ok p) ->
    after d ops (OAdd q v) w ok.
  Proof. intros Hs Hl Hd Hi Hst Hcall. eapply written; try eassumption; [apply not_nil'|]. intros c Hm. eapply add_target; eassumption. Qed.

  Lemma written_insert v s q z w (ok : parser -> Prop) : simple v s -> p_lawful true d (ops ++ [OInsert q z v]) c' ->
    straight_in c' (q ++ [itoa z]) = true ->
    (forall p, (if (z <? 0)%Z then PRet p (Some EIndexOutOfRange) else P_Insert p z (render v) q) = w p) ->
    (forall p, P_Get p (q ++ [itoa z]) = Ok s -> Get (p_json p) (q ++ [itoa z]) = Ok s -> ok p) -> after d ops (OInsert q z v) w ok.
  Proof.
    intros Hs Hl Hst Hcall Hok. destruct (p_lawful_last _ _ _ _ _ Hl Hw ops eq_refl) as (d1 & _ & Hz & _). pose proof (p_lawful_meanings _ _ _ _ Hl Hw) as Hm. destruct (meanings_snoc _ _ _ _ Hm) as (c1 & Hm1).
    destruct (insert_target _ _ _ _ _ Hm1 Hz) as [Hz0 _]. rewrite Hz0 in Hcall.
    eapply written; try eassumption; [apply not_nil'|]. intros c H. eapply insert_target; eassumption.
  Qed.
End Written.

(** ** Readers *)
Lemma read_int p q z : in_int64 z = true -> P_Get p q = Ok (itoa z) -> Get (p_json p) q = Ok (itoa z) -> P_GetInt p q = Ok z /\ GetInt (p_json p) q = Ok z.
Proof.
  intros Hz H1 H2. destruct (same_text_typed unit (fun _ => None) p (p_json p) q (itoa z) H1 H2) as (_ & -> & _). split; apply get_int; assumption.
Qed.
Lemma read_bool p q v : P_Get p q = Ok (bool_text v) -> Get (p_json p) q = Ok (bool_text v) -> P_GetBool p q = Ok v /\ GetBool (p_json p) q = Ok v.
Proof.
  intros H1 H2. destruct (same_text_typed unit (fun _ => None) p (p_json p) q (bool_text v) H1 H2) as (_ & _ & -> & _). split; apply get_bool; assumption.
Qed.
Lemma read_float' p q x t : formats x t -> P_Get p q = Ok t -> Get (p_json p) q = Ok t ->
  P_GetFloat ParseFloat p q = Ok x /\ GetFloat ParseFloat (p_json p) q = Ok x.
Proof.
  intros Hf H1 H2. destruct (same_text_typed _ ParseFloat p (p_json p) q t H1 H2) as (_ & _ & _ & -> & _). split; eapply get_float; eassumption.
Qed.

Lemma addkv_key k v (p : parser) q : P_AddKeyValue p k v q = match k with [] => PRet p (Some ENullKey) | _ => P_AddKeyValue p k v q end.
Proof. destruct k; reflexivity. Qed.

(** ** The writers *)
Definition lawful_doc (d : doc) : Prop := wf_doc d = true /\ container (d_val d) = true.

Theorem p_set_int d ops c' q z : lawful_doc d -> in_int64 z = true ->
  p_lawful true d (ops ++ [OSet q (JScalar (itoa z))]) c' -> straight_in c' q = true ->
  after d ops (OSet q (JScalar (itoa z))) (fun p => P_SetInt p z q) (fun p => P_GetInt p q = Ok z /\ GetInt (p_json p) q = Ok z).
Proof.
  intros [Hw Hc] Hz Hl Hs. eapply written_set; try eassumption; [apply simple_int|reflexivity|]. intros p. apply read_int. exact Hz.
Qed.
Theorem p_add_kv_int d ops c' q k z : lawful_doc d -> in_int64 z = true ->
  p_lawful true d (ops ++ [OAddKV q k (JScalar (itoa z))]) c' -> straight_in c' (q ++ [k]) = true ->
  after d ops (OAddKV q k (JScalar (itoa z))) (fun p => P_AddKeyValueInt p k z q) (fun p => P_GetInt p (q ++ [k]) = Ok z /\ GetInt (p_json p) (q ++ [k]) = Ok z).
Proof.
  intros [Hw Hc] Hz Hl Hs. eapply written_addkv; try eassumption; [apply simple_int|intro; apply addkv_key|]. intros p. apply read_int. exact Hz.
Qed.
Theorem p_add_int d ops c' q l x z : lawful_doc d -> in_int64 z = true -> p_lawful true d (ops ++ [OAdd q (JScalar (itoa z))]) c' ->
  d_lookup c' q = Some (DArr (l ++ [x])) -> in_int64 (Z.of_nat (length l)) = true ->
  let t := q ++ [itoa (Z.of_nat (length l))] in straight_in c' t = true ->
  after d ops (OAdd q (JScalar (itoa z))) (fun p => P_AddInt p z q) (fun p => P_GetInt p t = Ok z /\ GetInt (p_json p) t = Ok z).
Proof.
  intros [Hw Hc] Hz Hl Hd Hi t Hs. eapply written_add; try eassumption; [apply simple_int|reflexivity|]. intros p. apply read_int. exact Hz.
Qed.
Theorem p_insert_int d ops c' q i z : lawful_doc d -> in_int64 z = true -> p_lawful true d (ops ++ [OInsert q i (JScalar (itoa z))]) c' ->
  straight_in c' (q ++ [itoa i]) = true ->
  after d ops (OInsert q i (JScalar (itoa z))) (fun p => P_InsertInt p i z q) (fun p => P_GetInt p (q ++ [itoa i]) = Ok z /\ GetInt (p_json p) (q ++ [itoa i]) = Ok z).
Proof.
  intros [Hw Hc] Hz Hl Hs. eapply written_insert; try eassumption; [apply simple_int|reflexivity|]. intros p. apply read_int. exact Hz.
Qed.

Theorem p_set_bool d ops c' q v : lawful_doc d ->
  p_lawful true d (ops ++ [OSet q (JScalar (bool_text v))]) c' -> straight_in c' q = true ->
  after d ops (OSet q (JScalar (bool_text v))) (fun p => P_SetBool p v q) (fun p => P_GetBool p q = Ok v /\ GetBool (p_json p) q = Ok v).
Proof.
  intros [Hw Hc] Hl Hs. eapply written_set; try eassumption; [apply simple_bool|reflexivity|]. intros p. apply read_bool.
Qed.
Theorem p_add_kv_bool d ops c' q k v : lawful_doc d ->
  p_lawful true d (ops ++ [OAddKV q k (JScalar (bool_text v))]) c' -> straight_in c' (q ++ [k]) = true ->
  after d ops (OAddKV q k (JScalar (bool_text v))) (fun p => P_AddKeyValueBool p k v q) (fun p => P_GetBool p (q ++ [k]) = Ok v /\ GetBool (p_json p) (q ++ [k]) = Ok v).
Proof.
  intros [Hw Hc] Hl Hs. eapply written_addkv; try eassumption; [apply simple_bool|intro; apply addkv_key|]. intros p. apply read_bool.
Qed.
Theorem p_add_bool d ops c' q l x v : lawful_doc d -> p_lawful true d (ops ++ [OAdd q (JScalar (bool_text v))]) c' ->
  d_lookup c' q = Some (DArr (l ++ [x])) -> in_int64 (Z.of_nat (length l)) = true ->
  let t := q ++ [itoa (Z.of_nat (length l))] in straight_in c' t = true ->
  after d ops (OAdd q (JScalar (bool_text v))) (fun p => P_AddBool p v q) (fun p => P_GetBool p t = Ok v /\ GetBool (p_json p) t = Ok v).
Proof.
  intros [Hw Hc] Hl Hd Hi t Hs. eapply written_add; try eassumption; [apply simple_bool|reflexivity|]. intros p. apply read_bool.
Qed.
Theorem p_insert_bool d ops c' q i v : lawful_doc d -> p_lawful true d (ops ++ [OInsert q i (JScalar (bool_text v))]) c' ->
  straight_in c' (q ++ [itoa i]) = true ->
  after d ops (OInsert q i (JScalar (bool_text v))) (fun p => P_InsertBool p i v q) (fun p => P_GetBool p (q ++ [itoa i]) = Ok v /\ GetBool (p_json p) (q ++ [itoa i]) = Ok v).
Proof.
  intros [Hw Hc] Hl Hs. eapply written_insert; try eassumption; [apply simple_bool|reflexivity|]. intros p. apply read_bool.
Qed.

Theorem p_set_float d ops c' q x t : lawful_doc d -> formats x t ->
  p_lawful true d (ops ++ [OSet q (JScalar t)]) c' -> straight_in c' q = true ->
  after d ops (OSet q (JScalar t)) (fun p => P_SetFloat p t q) (fun p => P_GetFloat ParseFloat p q = Ok x /\ GetFloat ParseFloat (p_json p) q = Ok x).
Proof.
  intros [Hw Hc] Hf Hl Hs. eapply written_set; try eassumption; [eapply formats_simple; exact Hf|reflexivity|]. intros p. apply read_float'. exact Hf.
Qed.
Theorem p_add_kv_float d ops c' q k x t : lawful_doc d -> formats x t ->
  p_lawful true d (ops ++ [OAddKV q k (JScalar t)]) c' -> straight_in c' (q ++ [k]) = true ->
  after d ops (OAddKV q k (JScalar t)) (fun p => P_AddKeyValueFloat p k t q)
    (fun p => P_GetFloat ParseFloat p (q ++ [k]) = Ok x /\ GetFloat ParseFloat (p_json p) (q ++ [k]) = Ok x).
Proof.
  intros [Hw Hc] Hf Hl Hs. eapply written_addkv; try eassumption; [eapply formats_simple; exact Hf|intro; apply addkv_key|]. intros p. apply read_float'. exact Hf.
Qed.
Theorem p_add_float d ops c' q l y x t : lawful_doc d -> formats x t -> p_lawful true d (ops ++ [OAdd q (JScalar t)]) c' ->
  d_lookup c' q = Some (DArr (l ++ [y])) -> in_int64 (Z.of_nat (length l)) = true ->
  let r := q ++ [itoa (Z.of_nat (length l))] in straight_in c' r = true ->
  after d ops (OAdd q (JScalar t)) (fun p => P_AddFloat p t q) (fun p => P_GetFloat ParseFloat p r = Ok x /\ GetFloat ParseFloat (p_json p) r = Ok x).
Proof.
  intros [Hw Hc] Hf Hl Hd Hi r Hs. eapply written_add; try eassumption; [eapply formats_simple; exact Hf|reflexivity|]. intros p. apply read_float'. exact Hf.
Qed.
Theorem p_insert_float d ops c' q i x t : lawful_doc d -> formats x t -> p_lawful true d (ops ++ [OInsert q i (JScalar t)]) c' ->
  straight_in c' (q ++ [itoa i]) = true ->
  after d ops (OInsert q i (JScalar t)) (fun p => P_InsertFloat p i t q)
    (fun p => P_GetFloat ParseFloat p (q ++ [itoa i]) = Ok x /\ GetFloat ParseFloat (p_json p) (q ++ [itoa i]) = Ok x).
Proof.
  intros [Hw Hc] Hf Hl Hs. eapply written_insert; try eassumption; [eapply formats_simple; exact Hf|reflexivity|]. intros p. apply read_float'. exact Hf.
Qed.

(** Strings.  SetString puts quotes around the text unless it has one at an end; the others ask formatType. *)
Lemma set_string_quotes p s q : s <> [] -> str_ok s = true -> last s 0 <> 34 -> P_Set p (render (JString s)) q = P_SetString p s q.
Proof.
  intros Hn Hs Hl. unfold P_SetString. destruct s as [|c s]; [contradiction|]. pose proof (hd_quote_str _ Hs) as Hh. cbn [hd] in Hh.
  apply N.eqb_neq in Hh, Hl. rewrite Hh, Hl. reflexivity.
Qed.
Theorem p_set_string d ops c' q s : lawful_doc d -> s <> [] -> str_ok s = true -> last s 0 <> 34 ->
  p_lawful true d (ops ++ [OSet q (JString s)]) c' -> straight_in c' q = true ->
  after d ops (OSet q (JString s)) (fun p => P_SetString p s q) (fun p => P_GetString p q = Ok s /\ GetString (p_json p) q = Ok s).
Proof.
  intros [Hw Hc] Hn Hs Hla Hl Hst. eapply written_set; try eassumption; [|intro p; apply set_string_quotes; assumption|intros p H1 H2; exact (conj H1 H2)].
  split; [auto|exact Hs].
Qed.
Theorem p_add_kv_string d ops c' q k s v : lawful_doc d -> simple v s -> formatType float_ok s = render v ->
  p_lawful true d (ops ++ [OAddKV q k v]) c' -> straight_in c' (q ++ [k]) = true ->
  after d ops (OAddKV q k v) (fun p => P_AddKeyValueString float_ok p k s q)
    (fun p => P_GetString p (q ++ [k]) = Ok s /\ GetString (p_json p) (q ++ [k]) = Ok s).
Proof.
  intros [Hw Hc] Hv Hf Hl Hst. eapply written_addkv; try eassumption; [|intros p H1 H2; exact (conj H1 H2)]. intro p. unfold P_AddKeyValueString. rewrite Hf. apply addkv_key.
Qed.
Theorem p_add_string d ops c' q l x s v : lawful_doc d -> simple v s -> formatType float_ok s = render v ->
  p_lawful true d (ops ++ [OAdd q v]) c' -> d_lookup c' q = Some (DArr (l ++ [x])) -> in_int64 (Z.of_nat (length l)) = true ->
  let t := q ++ [itoa (Z.of_nat (length l))] in straight_in c' t = true ->
  after d ops (OAdd q v) (fun p => P_AddString float_ok p s q) (fun p => P_GetString p t = Ok s /\ GetString (p_json p) t = Ok s).
Proof.
  intros [Hw Hc] Hv Hf Hl Hd Hi t Hst. eapply written_add; try eassumption; [|intros p H1 H2; exact (conj H1 H2)]. intro p. unfold P_AddString. rewrite Hf. reflexivity.
Qed.
Theorem p_insert_string d ops c' q i s v : lawful_doc d -> simple v s -> formatType float_ok s = render v ->
  p_lawful true d (ops ++ [OInsert q i v]) c' -> straight_in c' (q ++ [itoa i]) = true ->
  after d ops (OInsert q i v) (fun p => P_InsertString float_ok p i s q)
    (fun p => P_GetString p (q ++ [itoa i]) = Ok s /\ GetString (p_json p) (q ++ [itoa i]) = Ok s).
Proof.
  intros [Hw Hc] Hv Hf Hl Hst. eapply written_insert; try eassumption; [|intros p H1 H2; exact (conj H1 H2)]. intro p. unfold P_InsertString. rewrite Hf. reflexivity.
Qed.

(** ** What they refuse *)
Lemma negative_index pf p i z v t q : (i < 0)%Z ->
  P_InsertInt p i z q = PRet p (Some EIndexOutOfRange) /\ P_InsertBool p i v q = PRet p (Some EIndexOutOfRange) /\
  P_InsertFloat p i t q = PRet p (Some EIndexOutOfRange) /\ P_InsertString pf p i t q = PRet p (Some EIndexOutOfRange).
Proof. intro H. apply Z.ltb_lt in H. unfold P_InsertInt, P_InsertBool, P_InsertFloat, P_InsertString. rewrite H. repeat split. Qed.
Lemma empty_key pf p z v t q :
  P_AddKeyValueInt p [] z q = PRet p (Some ENullKey) /\ P_AddKeyValueBool p [] v q = PRet p (Some ENullKey) /\
  P_AddKeyValueFloat p [] t q = PRet p (Some ENullKey) /\ P_AddKeyValueString pf p [] t q = PRet p (Some ENullKey).
Proof. repeat split. Qed.
