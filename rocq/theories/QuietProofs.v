(** Proofs for C74. *)
From Coq Require Import String.
From Verif Require Import GoStd Json Parse SpecPanic Core Skip Focus CoreProofs Errors Api Typed Iter SpecSplice Splice NoPanic NoPanicB NoPanicC NoPanicD TypedProofs SpecJO JO JOProofs Parser ParserProofs SpecQuiet.
From Verif Require SpecScan ParseAny.

Local Open Scope N_scope.

(** ** The last non-blank byte *)
Definition lastnb (l : bytes) : option N := find (fun c => negb (is_ws c)) (rev l).

Lemma find_app {A} (f : A -> bool) : forall l1 l2, find f (l1 ++ l2) = match find f l1 with Some x => Some x | None => find f l2 end.
Proof. induction l1 as [|a l1 IH]; intro l2; cbn; [reflexivity|]. destruct (f a); [reflexivity|apply IH]. Qed.
Lemma lastnb_app X C : lastnb (X ++ C) = match lastnb C with Some c => Some c | None => lastnb X end.
Proof. unfold lastnb. rewrite rev_app_distr. apply find_app. Qed.
Lemma lastnb_ws w : ws_ok w = true -> lastnb w = None.
Proof.
  intro H. unfold lastnb. destruct (find _ (rev w)) as [c|] eqn:E; [|reflexivity]. apply find_some in E. destruct E as [Hi Hc].
  apply in_rev in Hi. unfold ws_ok in H. rewrite forallb_forall in H. rewrite (H _ Hi) in Hc. discriminate.
Qed.
Lemma lastnb_split l c : lastnb l = Some c -> exists a w, l = a ++ c :: w /\ ws_ok w = true /\ is_ws c = false.
Proof.
  induction l as [|x l IH] using rev_ind; [discriminate|]. rewrite lastnb_app. unfold lastnb at 1. cbn [rev app find].
  destruct (is_ws x) eqn:Ex; cbn [negb].
  - intro H. destruct (IH H) as (a & w & -> & Hw & Hc). exists a, (w ++ [x]). rewrite <- app_assoc. split; [reflexivity|]. split; [|exact Hc].
    unfold ws_ok in *. rewrite forallb_app, Hw. cbn. rewrite Ex. reflexivity.
  - intros [= <-]. exists l, []. repeat split. exact Ex.
Qed.
Lemma complete_iff json : complete json <-> exists c, lastnb json = Some c /\ ~ In c [58; 44; 91; 123].
Proof.
  split.
  - intros (l & c & w & -> & Hw & Hc & Ho). exists c. split; [|exact Ho]. rewrite lastnb_app. change (c :: w) with ([c] ++ w).
    rewrite lastnb_app, (lastnb_ws w Hw). unfold lastnb at 1. cbn [rev app find]. rewrite Hc. reflexivity.
  - intros (c & H & Ho). destruct (lastnb_split _ _ H) as (a & w & -> & Hw & Hc). exists a, c, w. auto.
Qed.
Lemma lastnb_in C c : In c C -> is_ws c = false -> exists d, lastnb C = Some d.
Proof.
  intros H Hc. destruct (lastnb C) as [d|] eqn:E; [eauto|]. unfold lastnb in E. apply (find_none _ _ E) in H || (apply in_rev in H; apply (find_none _ _ E) in H).
  rewrite Hc in H. discriminate.
Qed.

(** What stands before the last non-blank byte does not count. *)
Lemma complete_tail X Y C c : In c C -> is_ws c = false -> complete (X ++ C) -> complete (Y ++ C).
Proof.
  intros Hi Hc H. apply complete_iff in H. apply complete_iff. destruct H as (d & H & Ho). exists d. split; [|exact Ho].
  destruct (lastnb_in _ _ Hi Hc) as (x & E). rewrite lastnb_app, E in *. exact H.
Qed.
Lemma complete_splice A old new C : complete (A ++ old ++ C) -> complete new -> complete (A ++ new ++ C).
Proof.
  intros H Hn. apply complete_iff in H. apply complete_iff in Hn. apply complete_iff. destruct H as (d & H & Ho), Hn as (e & Hn & He).
  rewrite !lastnb_app in *. destruct (lastnb C) as [x|]; [exists d; auto|]. rewrite Hn. exists e. auto.
Qed.

(** ** The five functions *)
Lemma set_keeps json new path out : complete json -> complete new -> Set_ json new path = Done out -> complete out.
Proof.
  intros Hj Hn H. destruct (set_splice _ _ _ _ H) as (A & r & C & A' & old & C' & HJ & _ & _ & Hw & ->).
  apply (complete_splice A' old); [|exact Hn]. rewrite HJ in Hj.
  destruct Hw as [(-> & -> & -> & _)|(-> & -> & ->)]; [exact Hj|]. rewrite <- !app_assoc in *. cbn [app] in *. rewrite <- ?app_assoc. exact Hj.
Qed.
Lemma grown_keeps get json path o c item out : In c [93; 125] -> complete json -> grown get json path o c item out -> complete out.
Proof.
  intros Hc Hj (A & m & C & (HJ & _) & ->). rewrite HJ in Hj.
  assert (Hw : is_ws c = false) by (destruct Hc as [<-|[<-|[]]]; reflexivity).
  set (it := if forallb is_ws m then item else 44 :: item). clearbody it.
  replace (A ++ (o :: m ++ it ++ [c]) ++ C) with ((A ++ o :: m ++ it) ++ c :: C) by same_text.
  apply (complete_tail (A ++ o :: m) _ (c :: C) c); [left; reflexivity|exact Hw|].
  replace ((A ++ o :: m) ++ c :: C) with (A ++ (o :: m ++ [c]) ++ C) by same_text. exact Hj.
Qed.
Lemma add_keeps json value path out : complete json -> Add_ json value path = Done out -> complete out.
Proof. intros Hj H. apply add_splice in H. eapply grown_keeps; [|exact Hj|exact H]. cbn. auto. Qed.
Lemma addkv_keeps json key value path out : complete json -> AddKeyValue json key value path = Done out -> complete out.
Proof. intros Hj H. apply addkv_splice in H. eapply grown_keeps; [|exact Hj|exact H]. cbn. auto. Qed.
Lemma set_shape_keeps get json path new out : complete json -> complete new -> set_shape get json path new out -> complete out.
Proof.
  intros Hj Hn (A & r & C & A' & old & C' & HJ & _ & _ & Hw & ->).
  apply (complete_splice A' old); [|exact Hn]. rewrite HJ in Hj.
  destruct Hw as [(-> & -> & -> & _)|(-> & -> & ->)]; [exact Hj|]. rewrite <- !app_assoc in *. cbn [app] in *. rewrite <- ?app_assoc. exact Hj.
Qed.
Lemma store_keeps json key v path out : complete json -> complete v -> Store json key (Some v) path = Done out -> complete out.
Proof.
  intros Hj Hn H. apply store_splice in H. destruct H as [H|[_ H]]; [exact (set_shape_keeps _ _ _ _ _ Hj Hn H)|].
  eapply grown_keeps; [|exact Hj|exact H]. cbn. auto.
Qed.
Lemma setkey_le : forall n rest i bound j, (length rest <= n)%nat -> setkey_loop rest i bound = Ok (Some j) -> (j < bound)%nat.
Proof.
  induction n as [|n IH]; intros [|c r] i bound j Hn H; cbn [setkey_loop length] in *; try (destruct (i <? bound)%nat; discriminate); [lia|].
  destruct (Nat.ltb_spec i bound) as [Hi|Hi]; [|discriminate]. destruct (c =? 92).
  - destruct r as [|d r]; [destruct (S (S i) <? bound)%nat; discriminate|]. cbn [length] in Hn. apply IH in H; lia.
  - destruct (c =? 34); [injection H as <-; exact Hi|]. apply IH in H; lia.
Qed.
Lemma value_solid A r C : value_in A r C -> exists c, In c (r ++ C) /\ is_ws c = false.
Proof.
  intros [H|[(_ & _ & C' & ->)|(Hr & Hh & Hd & _)]].
  - destruct r as [|c r]; [destruct H|]. destruct H as [Hc _]. exists c. split; [left; reflexivity|]. destruct Hc as [<-|[<-|[]]]; reflexivity.
  - exists 34. split; [apply in_app_iff; right; left; reflexivity|reflexivity].
  - destruct r as [|c r]; [congruence|]. exists c. split; [left; reflexivity|]. cbn [forallb] in Hd. apply andb_true_iff in Hd. destruct Hd as [Hd _].
    unfold delimiter in Hd. destruct (is_ws c); [discriminate|reflexivity].
Qed.
Lemma setkey_keeps json newKey path out : complete json -> SetKey json newKey path = Done out -> complete out.
Proof.
  intros Hj H. unfold SetKey in H. destruct newKey as [|k0 newKey]; [discriminate|]. set (nk := k0 :: newKey) in *.
  destruct path as [|p0 path]; [discriminate|]. set (P := p0 :: path) in *.
  destruct (core json false (removelast P ++ [nk])) as [?|er|]; try discriminate.
  destruct (err_equal (Some er) 8); [|discriminate].
  destruct (core json false P) as [[[ks s] e]| |] eqn:E; cbn [ubind] in H; try discriminate. destruct ks as [n|]; [|discriminate].
  destruct (core_get _ _ _ _ _ E) as (A & r & C & HJ & HA & He & Hv & Hg).
  destruct (setkey_loop (skipn n json) n s) as [[j|]| |] eqn:El; cbn [pbind] in H; try discriminate.
  pose proof (setkey_ge _ _ _ _ _ (le_n _) El) as Hnj. pose proof (setkey_le _ _ _ _ _ (le_n _) El) as Hjs.
  destruct (done_replace_shape _ _ _ _ _ Hnj H) as (A1 & old & C1 & HJ1 & HA1 & Ho & ->).
  destruct (value_solid _ _ _ Hv) as (c & Hc & Hs).
  assert (HC : exists M, C1 = M ++ r ++ C).
  { exists (skipn (length (A1 ++ old)) A). assert (L : (length (A1 ++ old) <= length A)%nat) by (rewrite app_length; lia).
    assert (E1 : skipn (length (A1 ++ old)) json = C1) by (rewrite HJ1, app_assoc; apply skipn_app_len; reflexivity).
    rewrite <- E1, HJ. rewrite skipn_app. replace (length (A1 ++ old) - length A)%nat with O by lia. reflexivity. }
  destruct HC as (M & ->). replace (A1 ++ nk ++ M ++ r ++ C) with ((A1 ++ nk ++ M) ++ r ++ C) by same_text.
  apply (complete_tail (A1 ++ old ++ M) _ (r ++ C) c Hc Hs). replace ((A1 ++ old ++ M) ++ r ++ C) with (A1 ++ old ++ M ++ r ++ C) by same_text.
  rewrite <- HJ1. exact Hj.
Qed.

(** ** Texts that are written *)
Lemma complete_last l c : is_ws c = false -> ~ In c [58; 44; 91; 123] -> complete (l ++ [c]).
Proof. intros H1 H2. exists l, c, []. auto. Qed.
Lemma scalar_complete s : scalar_ok s = true -> complete s.
Proof.
  intro H. destruct s as [|c s _] using rev_ind; [discriminate|].
  assert (Hc : is_token_char c = true).
  { unfold scalar_ok in H. destruct (s ++ [c]) eqn:E; [destruct s; discriminate|]. rewrite <- E, forallb_app in H. apply andb_true_iff in H.
    destruct H as [_ H]. cbn in H. rewrite andb_true_r in H. exact H. }
  unfold is_token_char in Hc. apply negb_true_iff in Hc. repeat (apply orb_false_iff in Hc; destruct Hc as [Hc ?]).
  apply complete_last; [unfold is_ws; rewrite Hc, H10, H9, H8; reflexivity|]. intros [<-|[<-|[<-|[<-|[]]]]]; discriminate.
Qed.
Lemma format_complete pf s : takes_scalars pf -> complete (formatType pf s).
Proof.
  intro Hp. unfold formatType. destruct s as [|c0 r]; [apply (complete_last [34] 34); [reflexivity|cbn; intuition discriminate]|].
  assert (Hq : complete (quote (c0 :: r))) by (apply (complete_last (34 :: c0 :: r) 34); [reflexivity|cbn; intuition discriminate]).
  assert (Hl : forall c, last (c0 :: r) 0 = c -> is_ws c = false -> ~ In c [58; 44; 91; 123] -> complete (c0 :: r)).
  { intros c <- H1 H2. rewrite (app_removelast_last 0 (l := c0 :: r)) by discriminate. apply complete_last; assumption. }
  destruct (isBool (c0 :: r)) eqn:E1.
  { unfold isBool in E1. apply orb_true_iff in E1. destruct E1 as [E1|E1]; apply bytes_eqb_eq in E1; rewrite E1; apply scalar_complete; reflexivity. }
  destruct (isInt (c0 :: r)) eqn:E2; [destruct ((c0 =? 48) && (1 <? length (c0 :: r))%nat); [exact Hq|apply scalar_complete, isInt_token, E2]|].
  destruct (pf (c0 :: r)) eqn:E3; [apply scalar_complete, Hp, E3|].
  destruct (bytes_eqb (c0 :: r) (b "null")) eqn:E4; [apply bytes_eqb_eq in E4; rewrite E4; apply scalar_complete; reflexivity|].
  set (z := last (c0 :: r) 0) in *.
  destruct ((c0 =? 34) && (z =? 34)) eqn:E5; [apply andb_true_iff in E5; destruct E5 as [_ E5]; apply N.eqb_eq in E5; apply (Hl 34); [exact E5|reflexivity|cbn; intuition discriminate]|].
  destruct ((c0 =? 91) && (z =? 93)) eqn:E6; [apply andb_true_iff in E6; destruct E6 as [_ E6]; apply N.eqb_eq in E6; apply (Hl 93); [exact E6|reflexivity|cbn; intuition discriminate]|].
  destruct ((c0 =? 123) && (z =? 125)) eqn:E7; [apply andb_true_iff in E7; destruct E7 as [_ E7]; apply N.eqb_eq in E7; apply (Hl 125); [exact E7|reflexivity|cbn; intuition discriminate]|].
  exact Hq.
Qed.
Lemma itoa_complete z : complete (itoa z). Proof. apply scalar_complete, itoa_scalar. Qed.
Lemma bool_complete v : complete (bool_text v). Proof. destruct v; apply scalar_complete; reflexivity. Qed.

(** ** JO *)
Lemma assign_step body r : complete body -> r <> UPanic -> (forall out, r = Done out -> complete out) ->
  (forall b' e, assign r = JRet b' (Some e) -> b' = body) -> exists b' e, assign r = JRet b' e /\ complete b'.
Proof.
  intros Hb Hp Hd Hf. destruct r as [out|out e|]; [|destruct out as [out|]|contradiction]; cbn [assign].
  - do 2 eexists. split; [reflexivity|auto].
  - do 2 eexists. split; [reflexivity|]. rewrite (Hf out e eq_refl). exact Hb.
  - do 2 eexists. split; [reflexivity|]. rewrite (Hf [] e eq_refl). exact Hb.
Qed.
Lemma jo_step pf body c : takes_scalars pf -> complete body -> keeps_end c -> exists body' e, jo_call pf body c = JRet body' e /\ complete body'.
Proof.
  intros Hp Hb Hc. pose proof (writes_complete body Hb) as W.
  assert (Hk : keeps_body c) by (destruct c; cbn in *; auto; contradiction).
  pose proof (fun b' e => jo_fail pf body c b' e Hk) as Hf.
  assert (S1 : forall v p, complete v -> (forall b' e, assign (Set_ body v p) = JRet b' (Some e) -> b' = body) -> exists b' e, assign (Set_ body v p) = JRet b' e /\ complete b').
  { intros v p Hv. apply assign_step; [exact Hb|apply (proj1 (W [] v None p))|intro out; apply set_keeps; assumption]. }
  assert (S2 : forall k v p, (forall b' e, assign (AddKeyValue body k v p) = JRet b' (Some e) -> b' = body) -> exists b' e, assign (AddKeyValue body k v p) = JRet b' e /\ complete b').
  { intros k v p. apply assign_step; [exact Hb|apply (proj1 (proj2 (proj2 (W k [] v p))))|intro out; apply addkv_keeps; assumption]. }
  assert (S3 : forall v p, (forall b' e, assign (Add_ body v p) = JRet b' (Some e) -> b' = body) -> exists b' e, assign (Add_ body v p) = JRet b' e /\ complete b').
  { intros v p. apply assign_step; [exact Hb|apply (proj1 (proj2 (proj2 (proj2 (W [] v None p)))))|intro out; apply add_keeps; assumption]. }
  assert (S4 : forall k v p, complete v -> (forall b' e, assign (Store body k (Some v) p) = JRet b' (Some e) -> b' = body) -> exists b' e, assign (Store body k (Some v) p) = JRet b' e /\ complete b').
  { intros k v p Hv. apply assign_step; [exact Hb|apply (proj2 (proj2 (proj2 (proj2 (W k [] (Some v) p)))))|intro out; apply store_keeps; assumption]. }
  assert (S5 : forall k p, (forall b' e, assign (SetKey body k p) = JRet b' (Some e) -> b' = body) -> exists b' e, assign (SetKey body k p) = JRet b' e /\ complete b').
  { intros k p. apply assign_step; [exact Hb|apply (proj1 (proj2 (W k [] None p)))|intro out; apply setkey_keeps; assumption]. }
  destruct c; cbn [jo_call keeps_end] in *; try contradiction; rewrite ?jo_store in *.
  - apply S2, Hf.
  - apply S3, Hf.
  - unfold AddKeyValueString in *. destruct key; [contradiction|]. apply S2, Hf.
  - unfold AddKeyValueInt, null_key in *. destruct key; [|apply S2, Hf]. eapply assign_step; [exact Hb|discriminate|discriminate|exact Hf].
  - unfold AddKeyValueFloat, null_key in *. destruct key; [|apply S2, Hf]. eapply assign_step; [exact Hb|discriminate|discriminate|exact Hf].
  - unfold AddKeyValueBool, null_key in *. destruct key; [|apply S2, Hf]. eapply assign_step; [exact Hb|discriminate|discriminate|exact Hf].
  - apply S3, Hf.
  - apply S3, Hf.
  - apply S3, Hf.
  - apply S3, Hf.
  - destruct value as [v|]; [|contradiction]. apply S4; assumption.
  - apply S4; assumption.
  - apply S4; [apply itoa_complete|exact Hf].
  - apply S4; assumption.
  - destruct v; apply S4; try exact Hf; apply scalar_complete; reflexivity.
  - apply S1; assumption.
  - apply S1; [apply format_complete; exact Hp|exact Hf].
  - apply S1; [apply itoa_complete|exact Hf].
  - apply S1; assumption.
  - apply S1; [apply bool_complete|exact Hf].
  - apply S5, Hf.
Qed.
Theorem jo_quiet pf : takes_scalars pf -> forall cs body, complete body -> Forall keeps_end cs ->
  exists body' es, jo_run pf body cs = Some (body', es) /\ complete body'.
Proof.
  intros Hp. induction cs as [|c cs IH]; intros body Hb Hc; cbn [jo_run]; [eauto|]. inversion Hc as [|? ? H1 H2]; subst.
  destruct (jo_step pf body c Hp Hb H1) as (b' & e & -> & Hb'). destruct (IH b' Hb' H2) as (b2 & es & -> & H). eauto.
Qed.

(** ** The Parser: no value in the tree is a lone quote *)
Fixpoint quiet (n : node) : Prop :=
  match n with Node _ v d => cleanValue v <> Panic /\ (fix go (ds : list node) : Prop := match ds with [] => True | x :: r => quiet x /\ go r end) d end.
Lemma quiet_node l v d : quiet (Node l v d) <-> cleanValue v <> Panic /\ Forall quiet d.
Proof.
  cbn [quiet]. split; intros [H1 H2]; (split; [exact H1|]).
  - induction d as [|x d IH]; [constructor|]. destruct H2 as [H2 H3]. constructor; [exact H2|auto].
  - induction d as [|x d IH]; [exact I|]. inversion H2; subst. split; [assumption|apply IH; assumption].
Qed.
Lemma weak_quiet n : ParseAny.weak n -> quiet n.
Proof.
  induction n as [l v d IH] using ParseAny.node_ind'. intro H. apply ParseAny.weak_node in H. destruct H as [H1 H2]. apply quiet_node.
  split; [apply ParseAny.clean_paired, H1|]. clear H1. induction d as [|x d IHd]; [constructor|]. inversion IH; inversion H2; subst. constructor; auto.
Qed.
Lemma walk_quiet p : forall n m, quiet n -> n_walk n p = Ok m -> quiet m.
Proof.
  induction p as [|x p IH]; intros n m Hn; cbn [n_walk]; [intro H; injection H as <-; exact Hn|]. destruct (find_node x (n_down n)) as [c|] eqn:E; [|discriminate].
  apply IH. destruct n as [l v d]. apply quiet_node in Hn. destruct Hn as [_ Hn]. rewrite Forall_forall in Hn. apply Hn. apply ParseAny.find_in in E. exact E.
Qed.
Lemma upd_quiet f : (forall n, quiet n -> quiet (f n)) -> forall path n, quiet n -> quiet (upd_node path f n).
Proof.
  intros Hf. induction path as [|x p IH]; intros n Hn; cbn [upd_node]; [apply Hf; exact Hn|]. destruct n as [l v d]. apply quiet_node in Hn. destruct Hn as [H1 H2].
  apply quiet_node. split; [exact H1|]. induction d as [|a d IHd]; cbn [upd_first]; [constructor|]. inversion H2; subst.
  destruct (bytes_eqb (n_label a) x); constructor; auto.
Qed.
Lemma value_quiet v n : cleanValue v <> Panic -> quiet n -> quiet (with_value v n).
Proof. intros Hv Hn. destruct n as [l u d]. cbn [with_value]. apply quiet_node in Hn. apply quiet_node. tauto. Qed.
Lemma label_quiet l n : quiet n -> quiet (with_label l n).
Proof. intro Hn. destruct n as [k u d]. cbn [with_label]. apply quiet_node in Hn. apply quiet_node. exact Hn. Qed.
Lemma append_quiet c n : quiet c -> quiet n -> quiet (append_node c n).
Proof.
  intros Hc Hn. destruct n as [l u d]. unfold append_node. cbn [with_down n_down]. apply quiet_node in Hn. apply quiet_node. destruct Hn as [H1 H2].
  split; [exact H1|]. apply Forall_app. split; [exact H2|]. constructor; [exact Hc|constructor].
Qed.

(** Only a lone quote makes cleanValue panic, and Get returns none. *)
Lemma clean_lone v : ~ lone_quote v -> cleanValue v <> Panic.
Proof.
  intros Hl. unfold cleanValue. destruct v as [|c0 v0]; [discriminate|]. set (v := c0 :: v0) in *.
  assert (Htrim : forall s, exists ws, s = ws ++ trim1 s /\ ws_ok ws = true).
  { induction s as [|c s IH]; [exists []; split; reflexivity|]. cbn [trim1]. destruct s as [|c1 s]; [exists []; split; reflexivity|].
    change (space c) with (is_ws c). destruct (is_ws c) eqn:E; [|exists []; split; reflexivity]. destruct IH as (ws & Hs & Hw). exists (c :: ws).
    cbn [app]. rewrite <- Hs. split; [reflexivity|]. unfold ws_ok in *. cbn [forallb]. rewrite E, Hw. reflexivity. }
  destruct (Htrim v) as (ws & Hv & Hws). destruct (Htrim (rev (trim1 v))) as (ws2 & Hv2 & Hws2). set (t := rev (trim1 (rev (trim1 v)))) in *.
  destruct ((hd 0 t =? 34) && (last t 0 =? 34)) eqn:Eq; [|discriminate]. destruct t as [|c [|c1 r]] eqn:Et; [discriminate Eq| |discriminate].
  apply andb_true_iff in Eq. destruct Eq as [Eq _]. cbn [hd] in Eq. apply N.eqb_eq in Eq.
  exfalso. apply Hl. exists ws, (rev ws2). split.
  - rewrite Hv at 1. f_equal. rewrite <- (rev_involutive (trim1 v)), Hv2, rev_app_distr. subst t. rewrite Et, Eq. reflexivity.
  - split; [exact Hws|]. unfold ws_ok in *. rewrite forallb_forall in *. intros x Hx. apply in_rev in Hx. auto.
Qed.
Lemma ws_first w1 w2 : ws_ok w1 = true -> forall c r, w1 ++ 34 :: w2 = c :: r -> is_ws c = true \/ (w1 = [] /\ c = 34 /\ r = w2).
Proof. intros H c r E. destruct w1 as [|x w1]; cbn in E; injection E as <- <-; [auto|]. unfold ws_ok in H. cbn in H. apply andb_true_iff in H. left. apply H. Qed.
Lemma get_not_lone json path r : path <> [] -> Get json path = Ok r -> ~ lone_quote r.
Proof.
  intros Hp Hg (w1 & w2 & E & H1 & H2). destruct (get_splice _ _ _ Hp Hg) as (A & C & _ & [Hv|[(_ & Hs & _)|(Hr & Hh & Hd & _)]]).
  - destruct r as [|c r]; [destruct Hv|]. destruct Hv as [Hc _]. destruct (ws_first w1 w2 H1 c r (eq_sym E)) as [K|(_ & -> & _)].
    + destruct Hc as [<-|[<-|[]]]; discriminate.
    + destruct Hc as [Hc|[Hc|[]]]; discriminate.
  - subst r. clear -Hs H1. induction w1 as [|c w1 IH]; [discriminate|]. unfold ws_ok in *. cbn [forallb] in H1. apply andb_true_iff in H1. destruct H1 as [Hc H1].
    apply IH; [exact H1|]. cbn [app str_ok] in Hs. destruct (N.eqb_spec c 34) as [->|]; [discriminate|]. destruct (N.eqb_spec c 92) as [->|]; [discriminate|]. exact Hs.
  - destruct r as [|c r]; [congruence|]. destruct (ws_first w1 w2 H1 c r (eq_sym E)) as [K|(_ & -> & _)].
    + cbn [forallb] in Hd. unfold delimiter in Hd. rewrite K in Hd. discriminate.
    + apply Hh. left. reflexivity.
Qed.

Definition fit (p : parser) : Prop := complete (p_json p) /\ quiet (p_core p).
Definition goes_on (r : pres) : Prop := exists p e, r = PRet p e /\ fit p.

Lemma refresh_fit : forall paths p, Forall (fun a => a <> []) paths -> fit p -> goes_on (refresh paths p) /\ goes_on (refresh_quiet paths p).
Proof.
  induction paths as [|a paths IH]; intros p Ha [Hc Hq]; cbn [refresh refresh_quiet]; [split; (do 2 eexists; split; [reflexivity|split; assumption])|].
  inversion Ha; subst. pose proof (Get_total (p_json p) (complete_ended _ Hc) a) as Ht. destruct (Get (p_json p) a) as [v|e|] eqn:E; [| |contradiction].
  - apply IH; [assumption|]. split; [exact Hc|]. cbn [p_core]. apply upd_quiet; [|exact Hq]. intro n. apply value_quiet. apply clean_lone. eapply get_not_lone; eassumption.
  - assert (Hf : fit (Par (upd_node a (with_value []) (p_core p)) (p_json p))).
    { split; [exact Hc|]. cbn [p_core]. apply upd_quiet; [|exact Hq]. intro n. apply value_quiet. discriminate. }
    split; [do 2 eexists; split; [reflexivity|exact Hf]|apply IH; assumption].
Qed.
Lemma ancestors_ne path : Forall (fun a => a <> []) (ancestors path).
Proof.
  induction path as [|x path IH]; cbn [ancestors]; [constructor|]. apply Forall_app. split; [|repeat constructor; discriminate].
  apply Forall_map. eapply Forall_impl; [|exact IH]. discriminate.
Qed.
Lemma Forall_tl {A} (P : A -> Prop) l : Forall P l -> Forall P (tl l).
Proof. intros [|? ? ? H]; [constructor|exact H]. Qed.
Lemma Forall_removelast {A} (P : A -> Prop) l : Forall P l -> Forall P (removelast l).
Proof. intro H. induction H as [|x l Hx Hl IH]; [constructor|]. cbn. destruct l; [constructor|]. constructor; assumption. Qed.

Lemma fair_pcore v : fair v -> opens v = true -> exists ds, pCore v = Ok ds /\ Forall quiet ds.
Proof.
  intros (Hc & _ & Ho) Hop. destruct v as [|c r]; [discriminate|]. cbn [opens] in Hop. specialize (Ho c r eq_refl Hop).
  assert (Hb : is_ws c = false) by (unfold is_open in Hop; apply orb_true_iff in Hop; destruct Hop as [H|H]; apply N.eqb_eq in H; rewrite H; reflexivity).
  destruct r as [|c1 r].
  { exfalso. apply complete_iff in Hc. destruct Hc as (d & E & Hn). unfold lastnb in E. cbn in E. rewrite Hb in E. cbn in E. injection E as <-.
    unfold is_open in Hop. apply orb_true_iff in Hop. destruct Hop as [H|H]; apply N.eqb_eq in H; subst; cbn in Hn; tauto. }
  pose proof (ParseAny.pCore_outcome (c :: c1 :: r) ltac:(cbn; lia)) as HO. cbn [forallb] in HO. change (SpecScan.blank c) with (is_ws c) in HO. rewrite Hb in HO. specialize (HO eq_refl).
  unfold ParseAny.outcome in HO. destruct (pCore (c :: c1 :: r)) as [ds|e|]; [|contradiction|].
  - exists ds. split; [reflexivity|]. destruct HO as (_ & HO & _). eapply Forall_impl; [|exact HO]. intro. apply weak_quiet.
  - exfalso. apply ParseAny.bad_spec in HO. destruct HO as [HO|[HO _]]; [apply Ho, HO|]. cbn [ParseAny.starts_blank] in HO. change (SpecScan.blank c) with (is_ws c) in HO. congruence.
Qed.

Lemma pget_fit p path : fit p -> P_Get p path <> Panic.
Proof.
  intros [_ Hq]. destruct path as [|x path]; [discriminate|]. unfold P_Get. destruct (n_walk (p_core p) (x :: path)) as [m|e|] eqn:E; cbn [bind]; [|discriminate|exact (fun _ => ParseAny.walk_no_panic _ _ E)].
  pose proof (walk_quiet _ _ _ Hq E) as Hm. destruct m as [l v d]. apply quiet_node in Hm. apply Hm.
Qed.
Lemma stays (p : parser) e : fit p -> goes_on (PRet p e).
Proof. intro H. exists p, e. auto. Qed.
Lemma take_fit p r k : fit p -> r <> UPanic -> (forall out, r = Done out -> complete out) -> (forall b' e, assign r = JRet b' (Some e) -> b' = p_json p) ->
  (forall q, fit q -> goes_on (k q)) -> goes_on (take_text p r k) /\ goes_on (take_or_fail p r k).
Proof.
  intros [Hc Hq] Hp Hd Hf Hk. destruct r as [out|out e|]; cbn [take_text take_or_fail]; [| |contradiction].
  - split; apply Hk; (split; [apply Hd; reflexivity|exact Hq]).
  - assert (E : odef out = p_json p) by (destruct out as [out|]; cbn [odef]; eapply Hf; reflexivity). rewrite E. destruct p as [pc pj]. split; [apply Hk|apply stays]; split; assumption.
Qed.
Lemma node_quiet l v ds : fair v -> Forall quiet ds -> quiet (Node l v ds).
Proof. intros (_ & Hl & _) Hd. apply quiet_node. split; [apply clean_lone, Hl|exact Hd]. Qed.

Lemma pset_fit p v path : fit p -> fair v -> goes_on (P_Set p v path).
Proof.
  intros Hf Hv. unfold P_Set. destruct path as [|x path]; [apply stays; exact Hf|]. set (P := x :: path) in *.
  destruct (n_walk (p_core p) P) as [n|e|] eqn:E; cbn [p_bind]; [|apply stays; exact Hf|exfalso; exact (ParseAny.walk_no_panic _ _ E)].
  assert (G : forall f, (forall m, quiet m -> quiet (f m)) ->
    goes_on (take_text (Par (upd_node P f (p_core p)) (p_json p)) (Set_ (p_json p) v P) (refresh (tl (ancestors P))))).
  { intros f Hn. apply take_fit.
    - split; [apply Hf|]. apply upd_quiet; [exact Hn|apply Hf].
    - apply (proj1 (writes_complete _ (proj1 Hf) [] v None P)).
    - intro out. apply set_keeps; [apply Hf|apply Hv].
    - intros b' e. exact (jo_fail (fun _ => false) _ (JO.CSet v P) b' e I).
    - intros q Hq. apply refresh_fit; [|exact Hq]. apply Forall_tl, ancestors_ne. }
  destruct ((2 <=? length v)%nat && opens v)%bool eqn:Eo.
  - apply andb_true_iff in Eo. destruct (fair_pcore v Hv (proj2 Eo)) as (ds & -> & Hd). cbn [p_pure]. apply G. intros m _. apply node_quiet; assumption.
  - apply G. intro m. apply value_quiet. apply clean_lone, Hv.
Qed.
Lemma walk_removelast n : forall path m, n_walk n path = Ok m -> exists u, n_walk n (removelast path) = Ok u.
Proof.
  intros path m H. destruct path as [|x path _] using rev_ind; [cbn in *; eauto|]. rewrite removelast_last.
  revert n H. induction path as [|y path IH]; intros n H; cbn [app n_walk] in *; [eauto|]. destruct (find_node y (n_down n)) as [c|]; [|discriminate]. apply IH in H. exact H.
Qed.
Lemma psetkey_fit p key path : fit p -> goes_on (P_SetKey p key path).
Proof.
  intros Hf. unfold P_SetKey. destruct path as [|x path]; [apply stays; exact Hf|]. set (P := x :: path) in *. destruct key as [|k0 key]; [apply stays; exact Hf|].
  set (K := k0 :: key) in *.
  destruct (n_walk (p_core p) P) as [n|e|] eqn:E; cbn [p_bind]; [|apply stays; exact Hf|exfalso; exact (ParseAny.walk_no_panic _ _ E)].
  destruct (walk_removelast _ _ _ E) as (u & ->). cbn [p_pure]. destruct (has_label K (n_down u)); [apply stays; exact Hf|]. apply take_fit.
  - split; [apply Hf|]. apply upd_quiet; [intro; apply label_quiet|apply Hf].
  - apply (proj1 (proj2 (writes_complete _ (proj1 Hf) K [] None P))).
  - intro out. apply setkey_keeps, Hf.
  - intros b' e. exact (jo_fail (fun _ => false) _ (JO.CSetKey K P) b' e I).
  - intros q Hq. apply refresh_fit; [|exact Hq]. apply Forall_tl, ancestors_ne.
Qed.

(** At the root the text goes in before the last byte. *)
Lemma put_fit p t c : fit p -> last (p_json p) 0 = c -> In c [93; 125] -> goes_on (put_before_end p t (fun q => PRet q None)).
Proof.
  intros [Hc Hq] Hl Hi. unfold put_before_end. set (j := p_json p) in *.
  assert (Hj : j = removelast j ++ [c]).
  { rewrite <- Hl. apply app_removelast_last. intros E. rewrite E in Hl. cbn in Hl. subst c. cbn in Hi. intuition discriminate. }
  assert (Hw : is_ws c = false) by (destruct Hi as [<-|[<-|[]]]; reflexivity).
  remember (removelast j) as a eqn:Ea. clear Ea. rewrite Hj, app_length. cbn [length]. replace (pred (length a + 1)) with (length a) by lia.
  unfold replace. rewrite app_length. replace (length a <=? length a + length [c])%nat with true by (symmetry; apply Nat.leb_le; lia). cbn [andb p_pure].
  apply stays. split; [|exact Hq]. cbn [p_json]. rewrite skipn_app_len by reflexivity. rewrite firstn_at by reflexivity. rewrite app_assoc.
  apply (complete_tail a _ [c] c); [left; reflexivity|exact Hw|]. rewrite <- Hj. exact Hc.
Qed.
Lemma padd_fit p v path : fit p -> fair v -> goes_on (P_Add p v path).
Proof.
  intros Hf Hv. unfold P_Add. destruct v as [|c0 v0] eqn:Ev; [apply stays; exact Hf|]. rewrite <- Ev in *. clear Ev c0 v0.
  pose proof (pget_fit p path Hf) as Hg. destruct (P_Get p path) as [json|e|] eqn:Eg; cbn [p_bind]; [|apply stays; exact Hf|contradiction].
  assert (N : forall g1 g2, (forall ds, Forall quiet ds -> goes_on (g1 ds)) -> goes_on g2 ->
    goes_on (if (2 <=? length v)%nat && opens v then p_pure (pCore v) g1 else g2)).
  { intros g1 g2 H1 H2. destruct ((2 <=? length v)%nat && opens v)%bool eqn:Eo; [|exact H2]. apply andb_true_iff in Eo.
    destruct (fair_pcore v Hv (proj2 Eo)) as (ds & -> & Hd). cbn [p_pure]. apply H1. exact Hd. }
  destruct path as [|x path].
  - destruct (2 <=? length json)%nat; [|apply stays; exact Hf]. destruct ((hd 0 json =? 91) && (last json 0 =? 93))%bool eqn:El; [|apply stays; exact Hf].
    cbn [P_Get] in Eg. injection Eg as <-. apply andb_true_iff in El. destruct El as [_ El]. apply N.eqb_eq in El.
    assert (R : forall l ds t, Forall quiet ds -> goes_on (put_before_end (Par (append_node (Node l v ds) (p_core p)) (p_json p)) t (fun q => PRet q None))).
    { intros l ds t Hd. apply (put_fit _ _ 93); [|exact El|cbn; auto]. split; [apply Hf|]. cbn [p_core]. apply append_quiet; [apply node_quiet; assumption|apply Hf]. }
    apply N; [intros ds Hd|]; apply R; [exact Hd|constructor].
  - set (P := x :: path) in *. destruct (n_walk (p_core p) P) as [n|e|] eqn:E; cbn [p_bind]; [|apply stays; exact Hf|exfalso; exact (ParseAny.walk_no_panic _ _ E)].
    destruct (2 <=? length json)%nat; [|apply stays; exact Hf]. destruct ((hd 0 json =? 91) && (last json 0 =? 93))%bool; [|apply stays; exact Hf].
    assert (R : forall l ds k, Forall quiet ds -> (forall q, fit q -> goes_on (k q)) ->
      goes_on (take_or_fail (Par (upd_node P (append_node (Node l v ds)) (p_core p)) (p_json p)) (Add_ (p_json p) v P) k)).
    { intros l ds k Hd Hk. apply take_fit; [| | | |exact Hk].
    + split; [apply Hf|]. apply upd_quiet; [|apply Hf]. intro m. apply append_quiet. apply node_quiet; assumption.
    + apply (proj1 (proj2 (proj2 (proj2 (writes_complete _ (proj1 Hf) [] v None P))))).
    + intro out. apply add_keeps, Hf.
    + intros b' e. exact (jo_fail (fun _ => false) _ (JO.CAdd v P) b' e I). }
    apply N; [intros ds Hd|]; (apply R; [auto|intros q Hq; apply refresh_fit; [|exact Hq]]); [apply Forall_removelast|]; apply ancestors_ne.
Qed.
Lemma paddkv_fit p key v path : fit p -> fair v -> goes_on (P_AddKeyValue p key v path).
Proof.
  intros Hf Hv. unfold P_AddKeyValue. destruct key as [|c0 k0] eqn:Ev; [apply stays; exact Hf|]. rewrite <- Ev in *. clear Ev c0 k0.
  pose proof (pget_fit p path Hf) as Hg. destruct (P_Get p path) as [json|e|] eqn:Eg; cbn [p_bind]; [|apply stays; exact Hf|contradiction].
  assert (N : forall g1 g2, (forall ds, Forall quiet ds -> goes_on (g1 ds)) -> goes_on g2 ->
    goes_on (if (2 <=? length key)%nat then p_pure (at_ v 0) (fun c => if is_open c then p_pure (pCore v) g1 else g2) else g2)).
  { intros g1 g2 H1 H2. destruct (2 <=? length key)%nat; [|exact H2]. destruct v as [|c r] eqn:Ev.
    - destruct Hv as [(l & c & w & E & _) _]. destruct l; discriminate.
    - unfold at_. cbn [nth_error p_pure]. destruct (is_open c) eqn:Eo; [|exact H2]. rewrite <- Ev in *.
      destruct (fair_pcore v Hv) as (ds & -> & Hd); [rewrite Ev; exact Eo|]. cbn [p_pure]. apply H1. exact Hd. }
  destruct path as [|x path].
  - destruct (has_label key (n_down (p_core p))); [apply stays; exact Hf|].
    destruct (2 <=? length json)%nat; [|apply stays; exact Hf]. destruct ((hd 0 json =? 123) && (last json 0 =? 125))%bool eqn:El; [|apply stays; exact Hf].
    cbn [P_Get] in Eg. injection Eg as <-. apply andb_true_iff in El. destruct El as [_ El]. apply N.eqb_eq in El.
    assert (R : forall l ds t, Forall quiet ds -> goes_on (put_before_end (Par (append_node (Node l v ds) (p_core p)) (p_json p)) t (fun q => PRet q None))).
    { intros l ds t Hd. apply (put_fit _ _ 125); [|exact El|cbn; auto]. split; [apply Hf|]. cbn [p_core]. apply append_quiet; [apply node_quiet; assumption|apply Hf]. }
    apply N; [intros ds Hd|]; apply R; [exact Hd|constructor].
  - set (P := x :: path) in *. destruct (n_walk (p_core p) P) as [n|e|] eqn:E; cbn [p_bind]; [|apply stays; exact Hf|exfalso; exact (ParseAny.walk_no_panic _ _ E)].
    destruct (walk_removelast _ _ _ E) as (u & ->). cbn [p_pure]. destruct (has_label key (n_down u)); [apply stays; exact Hf|].
    destruct (2 <=? length json)%nat; [|apply stays; exact Hf]. destruct ((hd 0 json =? 123) && (last json 0 =? 125))%bool; [|apply stays; exact Hf].
    assert (R : forall ds, Forall quiet ds ->
      goes_on (take_or_fail (Par (upd_node P (append_node (Node key v ds)) (p_core p)) (p_json p)) (AddKeyValue (p_json p) key (Some v) P) (refresh (ancestors P)))).
    { intros ds Hd. apply take_fit.
    + split; [apply Hf|]. apply upd_quiet; [|apply Hf]. intro m. apply append_quiet. apply node_quiet; assumption.
    + apply (proj1 (proj2 (proj2 (writes_complete _ (proj1 Hf) key [] (Some v) P)))).
    + intro out. apply addkv_keeps, Hf.
    + intros b' e. exact (jo_fail (fun _ => false) _ (JO.CAddKeyValue key (Some v) P) b' e I).
    + intros q Hq. apply refresh_fit; [|exact Hq]. apply ancestors_ne. }
    apply N; [intros ds Hd|]; apply R; [exact Hd|constructor].
Qed.

Lemma after_fit r : goes_on r -> exists p, after r = Some p /\ fit p.
Proof. intros (p & e & -> & H). exists p. auto. Qed.
Lemma run_fit : forall cs p, fit p -> Forall k_fair cs -> exists p', k_run p cs = Some p' /\ fit p'.
Proof.
  induction cs as [|c cs IH]; intros p Hf Hc; cbn [k_run]; [eauto|]. inversion Hc as [|? ? H1 H2]; subst.
  assert (G : exists q, k_step p c = Some q /\ fit q).
  { destruct c; cbn [k_step k_fair] in *.
    - apply after_fit, pset_fit; assumption.
    - apply after_fit, psetkey_fit; assumption.
    - apply after_fit, padd_fit; assumption.
    - apply after_fit, paddkv_fit; assumption.
    - pose proof (pget_fit p path Hf) as Hg. destruct (P_Get p path); [| |contradiction]; eauto. }
  destruct G as (q & -> & Hq). apply IH; assumption.
Qed.
Theorem parser_quiet t p cs : complete t -> Parse t = Ok p -> Forall k_fair cs -> exists p', k_run p cs = Some p' /\ complete (P_JSON p') /\
  forall path, P_Get p' path <> Panic.
Proof.
  intros Ht HP Hc. assert (Hf : fit p).
  { destruct (ParseAny.parse_weak t p HP) as (E & Hw & _). split; [rewrite E; exact Ht|apply weak_quiet, Hw]. }
  destruct (run_fit cs p Hf Hc) as (p' & H & Hf'). exists p'. split; [exact H|]. split; [apply Hf'|]. intro path. apply pget_fit, Hf'.
Qed.
Theorem documents_fair d : wf_doc d = true -> fair (text d).
Proof.
  intro Hw. split; [apply doc_complete, Hw|]. split.
  - intros (w1 & w2 & E & H1 & H2). pose proof Hw as Hw'. unfold wf_doc in Hw'. apply andb_true_iff in Hw'. destruct Hw' as [Hw1 Hw3]. apply andb_true_iff in Hw1. destruct Hw1 as [Hw1 Hw2].
    pose proof (IterProofs.cleanValue_value (d_pre d) (d_val d) (d_post d) Hw1 Hw2 Hw3) as Hc.
    assert (K : cleanValue (text d) = Panic); [|unfold text in K; congruence]. rewrite E. clear -H1 H2.
    assert (T : forall w r, ws_ok w = true -> r <> [] -> is_ws (hd 0 r) = false -> trim1 (w ++ r) = r).
    { induction w as [|c w IH]; intros r Hw Hr Hh; cbn [app].
      - destruct r as [|x [|y r]]; [contradiction|reflexivity|]. cbn [trim1]. cbn [hd] in Hh. change (space x) with (is_ws x). rewrite Hh. reflexivity.
      - unfold ws_ok in Hw. cbn [forallb] in Hw. apply andb_true_iff in Hw. destruct Hw as [Hc Hw]. cbn [trim1]. destruct (w ++ r) as [|y z] eqn:E; [destruct w; [cbn in E; contradiction|discriminate]|].
        change (space c) with (is_ws c). rewrite Hc, <- E. apply IH; assumption. }
    assert (E1 : trim1 (w1 ++ 34 :: w2) = 34 :: w2) by (apply T; [exact H1|discriminate|reflexivity]).
    assert (E2 : trim1 (rev (34 :: w2)) = [34]).
    { cbn [rev]. apply T; [|discriminate|reflexivity]. unfold ws_ok in *. rewrite forallb_forall in *. intros x Hx. apply in_rev in Hx. auto. }
    unfold cleanValue. destruct (w1 ++ 34 :: w2) eqn:E; [destruct w1; discriminate|]. rewrite E1, E2. reflexivity.
  - intros c r E Hc Ho. assert (Hp : Parse (text d) = Panic -> False).
    { unfold Parse. assert (Hd : container (d_val d) = true).
      { pose proof Hw as Hw'. unfold wf_doc in Hw'. apply andb_true_iff in Hw'. destruct Hw' as [Hw1 Hw3]. apply andb_true_iff in Hw1. destruct Hw1 as [Hw1 Hw2].
        unfold text in E. destruct (d_pre d) as [|x u] eqn:Ed.
        - cbn [app] in E. destruct (d_val d) as [s|s|w els|w ms]; try reflexivity; exfalso; cbn [render wf] in *.
          + destruct s as [|a s]; [discriminate|]. cbn [app] in E. injection E as -> _. cbn [scalar_ok forallb] in Hw2. apply andb_true_iff in Hw2. destruct Hw2 as [Hw2 _].
            unfold SpecScan.opening in Hc. apply orb_true_iff in Hc. destruct Hc as [Hc|Hc]; apply N.eqb_eq in Hc; subst c; discriminate.
          + cbn [app] in E. injection E as <- _. discriminate.
        - exfalso. cbn [app] in E. injection E as -> _. unfold ws_ok in Hw1. cbn [forallb] in Hw1. apply andb_true_iff in Hw1. destruct Hw1 as [Hw1 _].
          unfold SpecScan.opening in Hc. apply orb_true_iff in Hc. destruct Hc as [Hc|Hc]; apply N.eqb_eq in Hc; subst c; discriminate. }
      rewrite (pCore_exact d Hw Hd). discriminate. }
    apply Hp. apply ParseAny.parse_panics. split; [|auto]. rewrite E. destruct r as [|c1 r]; [|cbn; lia]. exfalso.
    pose proof (doc_complete d Hw) as K. rewrite E in K. apply complete_iff in K. destruct K as (x & K & Hn).
    unfold SpecScan.opening in Hc. apply orb_true_iff in Hc. destruct Hc as [Hc|Hc]; apply N.eqb_eq in Hc; subst c; cbn in K; injection K as <-; cbn in Hn; tauto.
Qed.
