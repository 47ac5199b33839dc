(** The grammar of Rfc.v and the trees of Json.v describe the same texts. *)
From Coq Require Import String.
From Verif Require Import GoStd Json Spec Skip Focus SpecProofs CoreProofs Parse Rfc.

Local Open Scope N_scope.

(** ** Tokens *)
Lemma digit_token c : digit c = true -> is_token_char c = true.
Proof.
  unfold digit. rewrite andb_true_iff, !N.leb_le. intro H. unfold is_token_char, is_ws.
  repeat match goal with |- context [c =? ?y] => rewrite (proj2 (N.eqb_neq c y)) by lia end.
  reflexivity.
Qed.

Lemma drop_digits_token s : forallb is_token_char (drop_digits s) = true -> forallb is_token_char s = true.
Proof.
  induction s as [|c r IH]; cbn [drop_digits]; [auto|].
  destruct (digit c) eqn:E; [|auto]. intro H. cbn [forallb]. rewrite (digit_token c E). auto.
Qed.

Lemma digits_token s : forallb digit s = true -> forallb is_token_char s = true.
Proof. intro H. rewrite forallb_forall in *. intros c Hc. apply digit_token. auto. Qed.

Lemma digits1_token s : digits1 s = true -> forallb is_token_char s = true.
Proof. destruct s; cbn; [discriminate|]. intro H. nbool. rewrite digit_token by assumption. apply digits_token. assumption. Qed.

Lemma exp_token s : exp_ok s = true -> forallb is_token_char s = true.
Proof.
  destruct s as [|c r]; [reflexivity|]. cbn [exp_ok]. intro H. nbool.
  assert (Hc : is_token_char c = true) by (apply orb_true_iff in H; destruct H as [H|H]; apply N.eqb_eq in H; subst c; reflexivity).
  cbn [forallb]. rewrite Hc. destruct r as [|d r']; [discriminate|]. cbn [andb].
  destruct ((d =? 43) || (d =? 45)) eqn:E; [|apply digits1_token; assumption].
  cbn [forallb]. rewrite (digits1_token r') by assumption.
  apply orb_true_iff in E; destruct E as [E|E]; apply N.eqb_eq in E; subst d; reflexivity.
Qed.

Lemma frac_token s : frac_ok s = true -> forallb is_token_char s = true.
Proof.
  assert (D : forall t, exp_ok t = true -> forallb is_token_char t = true) by exact exp_token.
  unfold frac_ok. intro H.
  destruct s as [|c [|c2 r]].
  - reflexivity.
  - apply D. destruct c as [|p]; [exact H|]. do 6 (destruct p as [p|p|]; try exact H).
  - destruct (N.eqb_spec c 46) as [->|Hc].
    + nbool. cbn [forallb]. rewrite (digit_token c2) by assumption. cbn. apply drop_digits_token, D. assumption.
    + apply D. destruct c as [|p]; [exact H|]. do 6 (destruct p as [p|p|]; try exact H). contradiction.
Qed.

Lemma unsigned_token s : unsigned_ok s = true -> scalar_ok s = true.
Proof.
  destruct s as [|c r]; [discriminate|]. cbn [unsigned_ok scalar_ok forallb].
  destruct (N.eqb_spec c 48) as [->|Hc]; intro H.
  - rewrite (frac_token r H). reflexivity.
  - nbool. rewrite (digit_token c) by assumption. apply drop_digits_token, frac_token. assumption.
Qed.

Lemma number_token s : number_ok s = true -> scalar_ok s = true.
Proof.
  destruct s as [|c r]; [discriminate|]. cbn [number_ok].
  destruct (N.eqb_spec c 45) as [->|Hc]; [|apply unsigned_token].
  intro H. apply unsigned_token in H. destruct r; [discriminate|]. exact H.
Qed.

Lemma literal_token s : literal s = true -> scalar_ok s = true.
Proof.
  unfold literal. rewrite !orb_true_iff, !bytes_eqb_eq. intros [[->| ->]| ->]; reflexivity.
Qed.

Lemma hex_plain c : hex c = true -> (c =? 34) = false /\ (c =? 92) = false.
Proof.
  unfold hex, digit. rewrite !orb_true_iff, !andb_true_iff, !N.leb_le, !N.eqb_neq. lia.
Qed.

Lemma chars_str_ok s : chars s = true -> str_ok s = true.
Proof.
  remember (length s) as n eqn:Hn. assert (Hl : (length s <= n)%nat) by lia. clear Hn. revert s Hl.
  induction n as [|n IH]; intros s Hl H; (destruct s as [|c r]; [reflexivity|]); cbn [length] in Hl; [lia|].
  cbn [chars] in H. cbn [str_ok]. destruct (N.eqb_spec c 92) as [->|Hc].
  - cbn [N.eqb Pos.eqb]. destruct r as [|x r']; [discriminate|]. cbn [length] in Hl.
    destruct (short_escape x); [apply IH; [lia|exact H]|].
    destruct (x =? 117); [|discriminate]. destruct r' as [|h1 [|h2 [|h3 [|h4 r'']]]]; try discriminate.
    nbool. cbn [str_ok length] in *.
    repeat match goal with K : hex _ = true |- _ => apply hex_plain in K; destruct K as [-> ->] end.
    apply IH; [lia|assumption].
  - nbool. rewrite (proj2 (N.eqb_neq c 34)) by assumption. apply IH; [lia|assumption].
Qed.

(** ** From the grammar to trees *)
Lemma forallb_map {A B} (f : A -> B) g l : forallb g (map f l) = forallb (fun x => g (f x)) l.
Proof. induction l; cbn; congruence. Qed.

Scheme value_mind := Minimality for value Sort Prop
  with elements_mind := Minimality for elements Sort Prop
  with members_mind := Minimality for members Sort Prop
  with member_mind := Minimality for member Sort Prop.
Combined Scheme grammar_ind from value_mind, elements_mind, members_mind, member_mind.

Definition value_tree (s : bytes) : Prop := exists v, wf v = true /\ render v = s /\ strict (content v) = true.

Lemma grammar_trees :
  (forall s, value s -> value_tree s) /\
  (forall s, elements s -> exists els, els <> [] /\ forallb elem_ok els = true /\ join (map elem_text els) = s /\
     forallb (fun e => strict (content (e_val e))) els = true) /\
  (forall s, members s -> exists ms, ms <> [] /\ forallb mem_ok ms = true /\ join (map mem_text ms) = s /\
     forallb (fun m => chars (m_key m) && strict (content (m_val m))) ms = true) /\
  (forall s, member s -> exists m, mem_ok m = true /\ mem_text m = s /\ chars (m_key m) && strict (content (m_val m)) = true).
Proof.
  apply grammar_ind.
  - intros s H. exists (JScalar s). split; [apply literal_token; exact H|]. split; [reflexivity|]. cbn. rewrite H. reflexivity.
  - intros s H. exists (JScalar s). split; [apply number_token; exact H|]. split; [reflexivity|]. cbn. rewrite H. apply orb_true_r.
  - intros s H. exists (JString s). split; [apply chars_str_ok; exact H|]. split; [reflexivity|exact H].
  - intros w H. exists (JArr w []). split; [cbn; rewrite H; reflexivity|]. split; reflexivity.
  - intros s _ (els & Hne & Hok & Hj & Hs). exists (JArr [] els). rewrite wf_arr, render_arr, Hok, Hj.
    split; [reflexivity|]. split; [reflexivity|]. cbn [content strict]. rewrite forallb_map. exact Hs.
  - intros w H. exists (JObj w []). split; [cbn; rewrite H; reflexivity|]. split; reflexivity.
  - intros s _ (ms & Hne & Hok & Hj & Hs). exists (JObj [] ms). rewrite wf_obj, render_obj, Hok, Hj.
    split; [reflexivity|]. split; [reflexivity|]. cbn [content strict]. rewrite forallb_map. exact Hs.
  - intros w1 s w2 H1 _ (v & Hv & Hr & Hs) H2. exists [Elem w1 v w2]. split; [discriminate|].
    cbn [forallb map join]. unfold elem_ok, elem_text. cbn [e_pre e_val e_post]. rewrite H1, Hv, H2, Hr, Hs. auto.
  - intros w1 s w2 r H1 _ (v & Hv & Hr & Hs) H2 _ (els & Hne & Hok & Hj & Hss). exists (Elem w1 v w2 :: els).
    split; [discriminate|]. cbn [forallb map]. rewrite Hok, Hss. unfold elem_ok, elem_text at 1. cbn [e_pre e_val e_post].
    rewrite H1, Hv, H2, Hr, Hs. split; [reflexivity|]. split; [|reflexivity].
    destruct els as [|e els]; [contradiction|]. cbn [map] in *. rewrite <- Hj. reflexivity.
  - intros m _ (t & Hok & Ht & Hs). exists [t]. split; [discriminate|]. cbn [forallb map join]. rewrite Hok, Ht, Hs. auto.
  - intros m r _ (t & Hok & Ht & Hs) _ (ms & Hne & Hoks & Hj & Hss). exists (t :: ms). split; [discriminate|].
    cbn [forallb map]. rewrite Hok, Ht, Hs, Hoks, Hss. split; [reflexivity|]. split; [|reflexivity].
    destruct ms as [|m2 ms]; [contradiction|]. cbn [map] in *. rewrite <- Hj. reflexivity.
  - intros w1 k w2 w3 s w4 H1 Hk H2 H3 _ (v & Hv & Hr & Hs) H4. exists (Mem w1 k w2 w3 v w4).
    unfold mem_ok, mem_text. cbn [m_pre m_key m_mid m_mid2 m_val m_post].
    rewrite H1, (chars_str_ok k Hk), H2, H3, Hv, H4, Hr, Hs, Hk. auto.
Qed.

(** ** From trees to the grammar *)
Lemma E_list els : els <> [] -> forallb elem_ok els = true -> Forall (fun e => value (render (e_val e))) els ->
  elements (join (map elem_text els)).
Proof.
  induction els as [|e els IH]; intros Hne Hok Hv; [contradiction|].
  cbn [forallb] in Hok. apply andb_true_iff in Hok. destruct Hok as [He Hok].
  inversion Hv as [|? ? Hve Hvs]; subst. unfold elem_ok in He. nbool.
  destruct els as [|e2 els].
  - cbn [map join]. unfold elem_text. apply E_last; assumption.
  - change (join (map elem_text (e :: e2 :: els))) with (elem_text e ++ 44 :: join (map elem_text (e2 :: els))).
    unfold elem_text at 1. apply E_more; try assumption. apply IH; [discriminate|assumption..].
Qed.

Lemma M_list ms : ms <> [] -> forallb mem_ok ms = true ->
  Forall (fun m => chars (m_key m) = true /\ value (render (m_val m))) ms -> members (join (map mem_text ms)).
Proof.
  induction ms as [|m ms IH]; intros Hne Hok Hv; [contradiction|].
  cbn [forallb] in Hok. apply andb_true_iff in Hok. destruct Hok as [He Hok].
  inversion Hv as [|? ? [Hk Hvm] Hvs]; subst. unfold mem_ok in He. nbool.
  assert (Hm : member (mem_text m)) by (unfold mem_text; apply M_pair; assumption).
  destruct ms as [|m2 ms].
  - apply M_last. exact Hm.
  - change (join (map mem_text (m :: m2 :: ms))) with (mem_text m ++ 44 :: join (map mem_text (m2 :: ms))).
    apply M_more; [exact Hm|]. apply IH; [discriminate|assumption..].
Qed.

Lemma E_front w s : ws_ok w = true -> elements s -> elements (w ++ s).
Proof.
  intros Hw H. inversion H; subst.
  - rewrite app_assoc. apply E_last; try assumption. rewrite ws_ok_app, Hw. assumption.
  - rewrite !app_assoc. rewrite <- (app_assoc (w ++ w1)). apply E_more; try assumption. rewrite ws_ok_app, Hw. assumption.
Qed.

Lemma member_front w s : ws_ok w = true -> member s -> member (w ++ s).
Proof.
  intros Hw H. inversion H; subst. rewrite app_assoc. apply M_pair; try assumption. rewrite ws_ok_app, Hw. assumption.
Qed.

Lemma M_front w s : ws_ok w = true -> members s -> members (w ++ s).
Proof.
  intros Hw H. inversion H; subst.
  - apply M_last. apply member_front; assumption.
  - rewrite app_assoc. apply M_more; [|assumption]. apply member_front; assumption.
Qed.

Lemma tree_grammar v : wf v = true -> strict (content v) = true -> value (render v).
Proof.
  induction v as [s|s|w els IH|w ms IH] using jv_ind'; intros Hw Hs.
  - cbn in Hs. apply orb_true_iff in Hs. destruct Hs; [apply V_literal|apply V_number]; assumption.
  - apply V_string. exact Hs.
  - rewrite wf_arr in Hw. nbool. rewrite render_arr. destruct els as [|e els].
    + apply V_array0. assumption.
    + rewrite app_assoc. apply V_array. apply E_front; [assumption|]. apply E_list; [discriminate|assumption|].
      cbn [content strict] in Hs. rewrite forallb_map in Hs. rewrite forallb_forall in *.
      rewrite Forall_forall in *. intros x Hx. apply IH; [exact Hx| |apply Hs; exact Hx].
      specialize (H0 x Hx). unfold elem_ok in H0. nbool. assumption.
  - rewrite wf_obj in Hw. nbool. rewrite render_obj. destruct ms as [|m ms].
    + apply V_object0. assumption.
    + rewrite app_assoc. apply V_object. apply M_front; [assumption|]. apply M_list; [discriminate|assumption|].
      cbn [content strict] in Hs. rewrite forallb_map in Hs. rewrite forallb_forall in *.
      rewrite Forall_forall in *. intros x Hx. specialize (Hs x Hx). cbn [fst snd] in Hs. nbool. split; [assumption|].
      apply IH; [exact Hx| |assumption].
      specialize (H0 x Hx). unfold mem_ok in H0. nbool. assumption.
Qed.

(** ** Documents *)
Theorem json_text_doc t : json_text t <-> exists d, wf_doc d = true /\ text d = t /\ strict (content (d_val d)) = true.
Proof.
  split.
  - intros (w1 & s & w2 & -> & H1 & Hv & H2). destruct (proj1 grammar_trees s Hv) as (v & Hw & Hr & Hs).
    exists (Doc w1 v w2). unfold wf_doc, text. cbn [d_pre d_val d_post]. rewrite H1, Hw, H2, Hr. auto.
  - intros (d & Hw & <- & Hs). unfold wf_doc in Hw. nbool. exists (d_pre d), (render (d_val d)), (d_post d).
    repeat split; try assumption. apply tree_grammar; assumption.
Qed.

(** A decision procedure. *)
Definition valid (t : bytes) : bool :=
  match parse_doc t with Some d => strict (content (d_val d)) | None => false end.

Theorem valid_spec t : json_text t <-> valid t = true.
Proof.
  rewrite json_text_doc. unfold valid. split.
  - intros (d & Hw & <- & Hs). destruct (parse_doc_complete d Hw) as (d' & -> & ->). exact Hs.
  - destruct (parse_doc t) as [d|] eqn:E; [|discriminate]. intro Hs. destruct (parse_doc_sound _ _ E) as [Ht Hw].
    exists d. auto.
Qed.

Lemma value_text_ok s : value s -> json_text s.
Proof. intro H. exists [], s, []. rewrite app_nil_r. auto. Qed.
