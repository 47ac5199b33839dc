(** Proofs for C74, the functions as written in Go. *)
From Coq Require Import String Lia.
From Verif Require Import GoStd Json SpecPanic Core Errors Api Typed Iter Parser SpecPtr Pointers GoLang ParserGo AsWritten Octets ParserTypedGo PointerProofs ParserGoWritten SpecQuiet QuietProofs SpecQuietGo.
From Verif Require SpecScan ParseAny JO TypedGo TypedGoProofs ParserTypedGoProofs Focus TypedProofs.

Local Open Scope N_scope.

Theorem jo_written pf : takes_scalars pf -> forall cs body, octets body -> Forall jcall_octets cs -> complete body -> Forall keeps_end cs ->
  exists body' es, complete body' /\ eventually (fun fuel => TypedGo.calls_j fuel pf cs body = Ret (body', es)).
Proof.
  intros Hp cs body Ho Hoc Hb Hc. destruct (jo_quiet pf Hp cs body Hb Hc) as (body' & es & E & Hb').
  exists body', es. split; [exact Hb'|]. pose proof (TypedGoProofs.calls_j_spec pf cs body Ho Hoc) as K. rewrite E in K. exact K.
Qed.

Lemma ws_app_quote w : ws_ok w = true -> In 34 w -> False.
Proof. intros Hw H. unfold ws_ok in Hw. rewrite forallb_forall in Hw. specialize (Hw 34 H). discriminate. Qed.
Lemma unquoted_not_lone v : ~ In 34 v -> ~ lone_quote v.
Proof. intros H (w1 & w2 & E & _). apply H. rewrite E, in_app_iff. right. left. reflexivity. Qed.
Lemma quote_fair v : fair (quote v).
Proof.
  split; [apply (complete_last (34 :: v) 34); [reflexivity|cbn; intuition discriminate]|]. split.
  - intros (w1 & w2 & E & H1 & H2). unfold quote in E. destruct w1 as [|c w1]; cbn in E; injection E as E.
    + apply (ws_app_quote w2 H2). rewrite <- E. apply in_app_iff. right. left. reflexivity.
    + subst c. apply (ws_app_quote _ H1). left. reflexivity.
  - intros c r E Hc. unfold quote in E. cbn in E. injection E as <- _. discriminate.
Qed.
Lemma scalar_fair v : scalar_ok v = true -> fair v.
Proof.
  intro H. split; [apply scalar_complete, H|]. destruct v as [|c0 r0]; [discriminate|]. cbn [scalar_ok] in H. rewrite forallb_forall in H. split.
  - apply unquoted_not_lone. intro Hi. specialize (H 34 Hi). discriminate.
  - intros c r E Hc. injection E as <- <-. specialize (H c0 (or_introl eq_refl)). unfold SpecScan.opening in Hc. apply orb_true_iff in Hc.
    destruct Hc as [Hc|Hc]; apply N.eqb_eq in Hc; subst c0; discriminate.
Qed.
Lemma last_ws w : ws_ok w = true -> w <> [] -> last w 0 <> 34.
Proof. intros Hw Hn E. apply (ws_app_quote w Hw). rewrite <- E. rewrite (app_removelast_last 0 Hn) at 2. apply in_app_iff. right. left. reflexivity. Qed.
Lemma format_fair pf v : takes_scalars pf -> fair_string v -> fair (formatType pf v).
Proof.
  intros Hp [Hl Ho]. assert (K : formatType pf v = quote v \/ scalar_ok (formatType pf v) = true \/ (formatType pf v = v /\ In (hd 0 v) [34; 91; 123] /\ ~ is_ws (last v 0) = true)).
  { unfold formatType. destruct v as [|c0 r]; [left; reflexivity|].
    destruct (isBool (c0 :: r)) eqn:E1.
    { unfold isBool in E1. apply orb_true_iff in E1. right; left. destruct E1 as [E1|E1]; apply bytes_eqb_eq in E1; rewrite E1; reflexivity. }
    destruct (isInt (c0 :: r)) eqn:E2; [destruct ((c0 =? 48) && (1 <? length (c0 :: r))%nat); [left; reflexivity|right; left; apply TypedProofs.isInt_token, E2]|].
    destruct (pf (c0 :: r)) eqn:E3; [right; left; apply Hp, E3|].
    destruct (bytes_eqb (c0 :: r) (b "null")) eqn:E4; [apply bytes_eqb_eq in E4; right; left; rewrite E4; reflexivity|].
    set (z := last (c0 :: r) 0) in *.
    destruct ((c0 =? 34) && (z =? 34)) eqn:E5; [apply andb_true_iff in E5; destruct E5 as [E5 E6]; apply N.eqb_eq in E5, E6; right; right; cbn [hd]; rewrite E6, E5; cbn; intuition discriminate|].
    destruct ((c0 =? 91) && (z =? 93)) eqn:E6; [apply andb_true_iff in E6; destruct E6 as [E6 E7]; apply N.eqb_eq in E6, E7; right; right; cbn [hd]; rewrite E7, E6; cbn; intuition discriminate|].
    destruct ((c0 =? 123) && (z =? 125)) eqn:E7; [apply andb_true_iff in E7; destruct E7 as [E7 E8]; apply N.eqb_eq in E7, E8; right; right; cbn [hd]; rewrite E8, E7; cbn; intuition discriminate|].
    left. reflexivity. }
  destruct K as [K|[K|(K & Hh & Hz)]]; [rewrite K; apply quote_fair|apply scalar_fair, K|].
  pose proof (format_complete pf v Hp) as Hc. rewrite K in Hc |- *. split; [exact Hc|]. split; [|exact Ho].
  intros (w1 & w2 & -> & H1 & H2). destruct w1 as [|c w1].
  - cbn [app] in *. destruct w2 as [|d w2]; [apply Hl; reflexivity|]. apply Hz. change (last (34 :: d :: w2) 0) with (last (d :: w2) 0).
    unfold ws_ok in H2. rewrite forallb_forall in H2. apply H2. rewrite (app_removelast_last 0 (l := d :: w2)) at 2 by discriminate. apply in_app_iff. right. left. reflexivity.
  - cbn [app hd] in Hh. unfold ws_ok in H1. rewrite forallb_forall in H1. specialize (H1 c (or_introl eq_refl)).
    destruct Hh as [<-|[<-|[<-|[]]]]; discriminate.
Qed.

(** ** Calls *)
Lemma t_fit pf c p : takes_scalars pf -> fit p -> t_fair c -> goes_on (t_do pf c p).
Proof.
  intros Hp Hf Hc. rewrite ParserTypedGoProofs.t_do_plain.
  assert (B : forall v, fair (bool_text v)) by (intros []; apply scalar_fair; reflexivity).
  assert (I : forall z, fair (itoa z)) by (intro z; apply scalar_fair, TypedProofs.itoa_scalar).
  assert (U : forall g e d, (g = false -> goes_on (p_do d p)) -> goes_on (match ParserTypedGoProofs.unless g e d with Ok c => p_do c p | Err e => PRet p (Some e) | Panic => PPanic end)).
  { intros [] e d H; cbn; [apply stays, Hf|apply H; reflexivity]. }
  assert (S1 : forall v path, fair v -> goes_on (p_do (CSet v path) p)) by (intros; apply pset_fit; assumption).
  assert (S2 : forall v path, fair v -> goes_on (p_do (CAdd v path) p)) by (intros; apply padd_fit; assumption).
  assert (S3 : forall k v path, fair v -> goes_on (p_do (CAddKeyValue k v path) p)) by (intros; apply paddkv_fit; assumption).
  destruct c; cbn [t_fair ParserTypedGoProofs.plain] in *; try contradiction; try (apply U; intros _); auto using format_fair.
  - destruct c; try contradiction; auto. apply psetkey_fit, Hf.
  - destruct v as [|c r]; [destruct Hc; contradiction|]. destruct Hc as [_ Hc]. apply S1. cbn [hd] in Hc.
    destruct (negb (c =? 34) && negb (last (c :: r) 0 =? 34))%bool eqn:E; [apply quote_fair|]. apply Hc.
    apply andb_false_iff in E. destruct E as [E|E]; apply negb_false_iff, N.eqb_eq in E; auto.
Qed.
Lemma t_calls_fit pf : takes_scalars pf -> forall cs p, fit p -> Forall t_fair cs -> exists p' es, t_calls pf cs p = Some (p', es) /\ fit p'.
Proof.
  intro Hp. induction cs as [|c cs IH]; intros p Hf Hc; cbn [t_calls]; [eauto|]. inversion Hc as [|? ? H1 H2]; subst.
  destruct (t_fit pf c p Hp Hf H1) as (q & e & -> & Hq). destruct (IH q Hq H2) as (p' & es & -> & H). eauto.
Qed.
Theorem parser_written pf : takes_scalars pf -> forall t p cs, octets t -> Forall tcall_octets cs -> complete t -> Parse t = Ok p -> Forall t_fair cs ->
  exists q q' es, eventually (fun fuel => Parse_go (as_written fuel) t = Ret (Some q, None)) /\
    eventually (fun fuel => calls_t (as_written fuel) pf cs q = Ret (q', es)) /\ complete (q_json q') /\
    forall path, exists v e, eventually (fun fuel => Get_p (as_written fuel) q' path = Ret (v, e)).
Proof.
  intros Hp t p cs Ho Hoc Ht HP Hc.
  assert (Hf : fit p).
  { destruct (ParseAny.parse_weak t p HP) as (E & Hw & _). split; [rewrite E; exact Ht|apply weak_quiet, Hw]. }
  destruct (t_calls_fit pf Hp cs p Hf Hc) as (p' & es & E & Hf').
  pose proof (ParserTypedGoProofs.typed_history_written pf t cs Ho Hoc) as K. rewrite HP, E in K. destruct K as (q & K1 & q' & K2 & K3 & K4).
  exists q, q', es. split; [exact K1|]. split; [exact K2|]. split; [rewrite K3; apply Hf'|].
  intro path. pose proof (Get_written q' path) as G. rewrite (K4 path) in G. pose proof (pget_fit p' path Hf') as N.
  destruct (P_Get p' path) as [v|e|]; [exists v, None|exists [], (Some e)|contradiction]; exact G.
Qed.
