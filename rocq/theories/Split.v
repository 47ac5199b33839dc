(** Array splitting (ParseArray and the typed array getters) against the trees. *)
From Coq Require Import String.
From Verif Require Import GoStd Json SpecIter Core Skip Focus CoreProofs Errors Api ApiProofs Iter IterProofs IterObj IterMisc.

Local Open Scope N_scope.

(** ** Scanners that jump over the byte after a backslash: what they pass over. *)
Section Jump.
  Context {R : Type} (L : bytes -> nat -> bool -> Z -> R).
  Record jumper : Prop := {
    J_plain : forall c r i l, plain c = true -> c <> 92 -> (1 <= l)%Z -> L (c :: r) i false l = L r (S i) false l;
    J_in : forall c r i l, c <> 34 -> c <> 92 -> L (c :: r) i true l = L r (S i) true l;
    J_esc : forall c r i l, L (92 :: c :: r) i true l = L r (S (S i)) true l;
    J_quote : forall r i q l, L (34 :: r) i q l = L r (S i) (negb q) l;
    J_open : forall c r i l, is_open c = true -> (1 <= l)%Z -> L (c :: r) i false l = L r (S i) false (l + 1)%Z;
    J_close : forall c r i l, is_close c = true -> (1 <= l)%Z -> L (c :: r) i false (l + 1)%Z = L r (S i) false l;
    J_sep : forall c r i l, c = 44 \/ c = 58 -> (1 < l)%Z -> L (c :: r) i false l = L r (S i) false l }.
  Hypothesis J : jumper.

  Definition Jumps (m : Z) (s : bytes) : Prop := forall post i l,
    (m <= l)%Z -> L (s ++ post) i false l = L post (i + length s) false l.

  Lemma Jumps_nil m : Jumps m [].
  Proof. intros post i l _. cbn. rewrite Nat.add_0_r. reflexivity. Qed.
  Lemma Jumps_app m s t : Jumps m s -> Jumps m t -> Jumps m (s ++ t).
  Proof.
    intros Hs Ht post i l Hl. rewrite <- app_assoc, Hs, Ht by exact Hl. f_equal. rewrite app_length. lia.
  Qed.
  Lemma Jumps_one m c : (forall r i l, (m <= l)%Z -> L (c :: r) i false l = L r (S i) false l) -> Jumps m [c].
  Proof. intros H post i l Hl. cbn. rewrite H by exact Hl. f_equal. lia. Qed.
  Lemma Jumps_mono m n s : (m <= n)%Z -> Jumps m s -> Jumps n s.
  Proof. intros H Hs post i l Hl. apply Hs. lia. Qed.
  Lemma Jumps_plain m s : (1 <= m)%Z -> Forall (fun c => plain c = true /\ c <> 92) s -> Jumps m s.
  Proof.
    intros Hm H. induction H as [|c s [H1 H2] _ IH]; [apply Jumps_nil|].
    change (c :: s) with ([c] ++ s). apply Jumps_app; [|exact IH]. apply Jumps_one. intros.
    apply (J_plain J); try assumption. lia.
  Qed.
  Lemma Jumps_ws m w : (1 <= m)%Z -> ws_ok w = true -> Jumps m w.
  Proof.
    intros Hm H. apply Jumps_plain; [exact Hm|]. apply ws_ok_Forall in H.
    eapply Forall_impl; [|exact H]. intros c Hc. apply ws_plain. exact Hc.
  Qed.
  Lemma Jumps_scalar m s : (1 <= m)%Z -> scalar_ok s = true -> Jumps m s.
  Proof.
    intros Hm H. apply Jumps_plain; [exact Hm|]. apply scalar_ok_inv in H. destruct H as [_ H].
    eapply Forall_impl; [|exact H]. intros c Hc. apply token_plain in Hc. tauto.
  Qed.
  Lemma jump_in n : forall s, (length s <= n)%nat -> str_ok s = true -> forall post i l,
    L (s ++ post) i true l = L post (i + length s) true l.
  Proof.
    induction n as [|n IH]; intros s Hn H post i l.
    - destruct s; [|cbn in Hn; lia]. cbn. rewrite Nat.add_0_r. reflexivity.
    - destruct s as [|c s]; [cbn; rewrite Nat.add_0_r; reflexivity|]. cbn [str_ok length] in *.
      destruct (c =? 34) eqn:E1; [discriminate|]. apply N.eqb_neq in E1.
      destruct (c =? 92) eqn:E2.
      + apply N.eqb_eq in E2. subst c. destruct s as [|c2 s]; [discriminate|]. cbn [app length] in *.
        rewrite (J_esc J). rewrite IH by (try assumption; lia). f_equal. lia.
      + apply N.eqb_neq in E2. cbn [app]. rewrite (J_in J) by assumption. rewrite IH by (try assumption; lia). f_equal. lia.
  Qed.
  Lemma Jumps_string m s : str_ok s = true -> Jumps m (34 :: s ++ [34]).
  Proof.
    intros H post i l _. cbn [app]. rewrite (J_quote J). cbn [negb]. rewrite <- app_assoc.
    rewrite (jump_in (length s)) by auto. cbn [app]. rewrite (J_quote J). cbn [negb]. f_equal. len.
  Qed.
  Lemma Jumps_brace m o c s : (1 <= m)%Z -> is_open o = true -> is_close c = true -> Jumps (m + 1) s -> Jumps m (o :: s ++ [c]).
  Proof.
    intros Hm Ho Hc Hs post i l Hl. cbn [app]. rewrite (J_open J) by (try assumption; lia).
    rewrite <- app_assoc. rewrite Hs by lia. cbn [app]. rewrite (J_close J) by (try assumption; lia). f_equal. len.
  Qed.
  Lemma Jumps_sep m c : c = 44 \/ c = 58 -> (1 < m)%Z -> Jumps m [c].
  Proof. intros Hc Hm. apply Jumps_one. intros. apply (J_sep J); [exact Hc|lia]. Qed.
  Lemma Jumps_join m xs : (1 < m)%Z -> Forall (Jumps m) xs -> Jumps m (join xs).
  Proof.
    intros Hm H. induction H as [|x l Hx Hl IH]; [apply Jumps_nil|].
    destruct l as [|y l]; [exact Hx|].
    change (Jumps m (x ++ [44] ++ join (y :: l))). apply Jumps_app; [exact Hx|].
    apply Jumps_app; [apply Jumps_sep; [left; reflexivity|exact Hm]|exact IH].
  Qed.
  Lemma Jumps_value v : forall m, (1 <= m)%Z -> wf v = true -> Jumps m (render v).
  Proof.
    induction v as [s|s|w els IH|w ms IH] using jv_ind'; intros m Hm Hw; cbn [wf] in Hw; cbn [render].
    - apply Jumps_scalar; assumption.
    - apply Jumps_string. exact Hw.
    - apply andb_true_iff in Hw. destruct Hw as [Hw He].
      rewrite app_assoc. apply Jumps_brace; [exact Hm|reflexivity|reflexivity|].
      apply Jumps_app; [apply Jumps_ws; [lia|exact Hw]|].
      apply Jumps_join; [lia|]. apply Forall_map.
      rewrite Forall_forall in IH |- *. intros e Hin.
      rewrite forallb_forall in He. specialize (He e Hin). specialize (IH e Hin).
      nbool. apply Jumps_app; [apply Jumps_ws; [lia|assumption]|].
      apply Jumps_app; [|apply Jumps_ws; [lia|assumption]]. apply IH; [lia|assumption].
    - apply andb_true_iff in Hw. destruct Hw as [Hw He].
      rewrite app_assoc. apply Jumps_brace; [exact Hm|reflexivity|reflexivity|].
      apply Jumps_app; [apply Jumps_ws; [lia|exact Hw]|].
      apply Jumps_join; [lia|]. apply Forall_map.
      rewrite Forall_forall in IH |- *. intros e Hin.
      rewrite forallb_forall in He. specialize (He e Hin). specialize (IH e Hin).
      nbool. apply Jumps_app; [apply Jumps_ws; [lia|assumption]|].
      match goal with |- Jumps _ (34 :: ?k ++ 34 :: ?t) =>
        replace (34 :: k ++ 34 :: t) with ((34 :: k ++ [34]) ++ t) by same_text end.
      apply Jumps_app; [apply Jumps_string; assumption|].
      apply Jumps_app; [apply Jumps_ws; [lia|assumption]|].
      match goal with |- Jumps _ (58 :: ?t) => change (58 :: t) with ([58] ++ t) end.
      apply Jumps_app; [apply Jumps_sep; [right; reflexivity|lia]|].
      apply Jumps_app; [apply Jumps_ws; [lia|assumption]|].
      apply Jumps_app; [|apply Jumps_ws; [lia|assumption]]. apply IH; [lia|assumption].
  Qed.
  Lemma Jumps_elem m e : (1 <= m)%Z -> elem_ok e = true -> Jumps m (elem_text e).
  Proof.
    unfold elem_ok, elem_text. intros Hm H. nbool. apply Jumps_app; [apply Jumps_ws; assumption|].
    apply Jumps_app; [|apply Jumps_ws; assumption]. apply Jumps_value; assumption.
  Qed.
End Jump.

(** ** The splitting loop *)
Section SplitRun.
  Context {A : Type} (mid fin : bytes -> res A) (arr : bytes).

  Lemma split_jumper start : jumper (fun r i q l => split_loop mid fin arr r i start l q).
  Proof.
    constructor; intros.
    - cbn [split_loop]. rewrite (eqb_false c 92) by assumption. pose proof H as H'. apply plain_neq in H'.
      rewrite (eqb_false c 34) by tauto. unfold is_open, is_close. rewrite !eqb_false by tauto. cbn [orb andb].
      rewrite andb_false_r. reflexivity.
    - cbn [split_loop]. rewrite !eqb_false by assumption. reflexivity.
    - cbn [split_loop]. change (92 =? 92) with true. cbv iota. f_equal. lia.
    - reflexivity.
    - apply open_cases in H. destruct H; subst c; cbn -[Z.add Z.eqb]; rewrite ?andb_false_r; reflexivity.
    - cbn [split_loop].
      assert (E : (l =? 0)%Z = false) by (apply Z.eqb_neq; lia).
      replace (l + 1 - 1)%Z with l by lia.
      apply close_cases in H. destruct H; subst c; cbn -[Z.add Z.eqb Z.sub]; rewrite ?E, ?andb_false_r; reflexivity.
    - cbn [split_loop]. assert (E : (l =? 1)%Z = false) by (apply Z.eqb_neq; lia).
      destruct H; subst c; cbn -[Z.add Z.eqb Z.sub]; rewrite ?E, ?andb_false_r; reflexivity.
  Qed.

  (** Convert every text, the last one with [fin]. *)
  Fixpoint convert (xs : list bytes) : res (list A) :=
    match xs with
    | [] => Ok []
    | [x] => do a <- fin x; Ok [a]
    | x :: r => do a <- mid x; do l <- convert r; Ok (a :: l)
    end.

  Lemma split_run els : forall pre post,
    els <> [] -> forallb elem_ok els = true -> arr = pre ++ join (map elem_text els) ++ 93 :: post ->
    split_loop mid fin arr (join (map elem_text els) ++ 93 :: post) (length pre) (length pre) 1 false =
    convert (map elem_text els).
  Proof.
    induction els as [|e l IH]; intros pre post Hne Hok Ha; [contradiction|].
    cbn [forallb] in Hok. nbool. cbn [map] in *. rewrite join_cons in *. rewrite <- app_assoc in *.
    pose proof (Jumps_elem _ (split_jumper (length pre)) 1 e ltac:(lia) ltac:(assumption) (jpost (map elem_text l) ++ 93 :: post) (length pre) 1%Z ltac:(lia)) as E.
    cbv beta in E. rewrite E. clear E.
    destruct l as [|e2 l].
    - cbn [map jpost concat app]. cbn [split_loop]. change (93 =? 92) with false. change (93 =? 34) with false.
      cbn [is_open is_close N.eqb Pos.eqb orb andb Z.sub Z.eqb Z.add Z.opp Z.pos_sub].
      rewrite (slice_app_eq _ pre (elem_text e) (93 :: post)); [reflexivity|rewrite Ha; cbn [map jpost concat app]; reflexivity|reflexivity|reflexivity].
    - cbn [map] in *. rewrite jpost_cons in *. cbn [app] in *. cbn [split_loop].
      change (44 =? 92) with false. change (44 =? 34) with false.
      cbn [is_open is_close N.eqb Pos.eqb orb andb Z.eqb].
      rewrite (slice_app_eq _ pre (elem_text e) (44 :: (elem_text e2 ++ jpost (map elem_text l)) ++ 93 :: post));
        [|exact Ha|reflexivity|reflexivity].
      cbn [bind]. cbn [convert]. destruct (mid (elem_text e)); cbn [bind]; try reflexivity.
      specialize (IH (pre ++ elem_text e ++ [44]) post ltac:(discriminate) ltac:(assumption)).
      rewrite join_cons in IH.
      replace (length (pre ++ elem_text e ++ [44])) with (S (length pre + length (elem_text e))) in IH by len.
      rewrite IH; [reflexivity|]. rewrite Ha. same_text.
  Qed.

  Lemma split_all w els :
    els <> [] -> wf (JArr w els) = true -> arr = render (JArr w els) ->
    split_loop mid fin arr arr 0 1 0 false = convert (map elem_text (absorb_e w els)).
  Proof.
    intros Hne Hv Ha. rewrite wf_arr in Hv. nbool.
    rewrite Ha at 2. rewrite render_arr. rewrite app_assoc, join_absorb_e by assumption.
    cbn [split_loop app]. change (91 =? 92) with false. change (91 =? 34) with false.
    cbn [is_open is_close N.eqb Pos.eqb orb andb Z.eqb Z.add].
    apply (split_run (absorb_e w els) [91] []).
    - destruct els; [contradiction|discriminate].
    - apply absorb_e_ok; rewrite wf_arr; apply andb_true_iff; split; assumption.
    - rewrite Ha, render_arr, app_assoc, join_absorb_e by assumption. reflexivity.
  Qed.
End SplitRun.

(** ** Conversions of all element texts *)
Lemma tight_absorb w els : tight_e w els -> Forall (fun e => tight2 (e_pre e) (e_val e) (e_post e)) (absorb_e w els).
Proof. destruct els as [|e l]; [constructor|]. intros [H1 H2]. constructor; assumption. Qed.

Lemma clean_elem e : elem_ok e = true -> tight2 (e_pre e) (e_val e) (e_post e) ->
  cleanValueString (elem_text e) = Ok (bare (e_val e)).
Proof. unfold elem_ok, elem_text. intros H Ht. nbool. apply cleanValueString_tight; assumption. Qed.

(** When the cleaned texts all convert, the result is the list of results. *)
Lemma convert_all {A} (mid fin conv : bytes -> res A) els xs :
  (forall v t a, cleanValueString v = Ok t -> conv t = Ok a -> mid v = Ok a /\ fin v = Ok a) ->
  forallb elem_ok els = true -> Forall (fun e => tight2 (e_pre e) (e_val e) (e_post e)) els ->
  Forall2 (fun t a => conv t = Ok a) (items els) xs ->
  convert mid fin (map elem_text els) = Ok xs.
Proof.
  intro Hc. revert xs. induction els as [|e l IH]; intros xs Hok Ht HF; cbn [items map] in HF.
  - inversion HF; reflexivity.
  - inversion HF as [|? a ? r H1 H2]; subst. inversion Ht as [|? ? Ht1 Ht2]; subst.
    cbn [forallb] in Hok. nbool. pose proof (clean_elem e ltac:(assumption) Ht1) as Hcl.
    destruct (Hc _ _ _ Hcl H1) as [Hm Hf]. specialize (IH r ltac:(assumption) Ht2 H2).
    destruct l as [|e2 l].
    + cbn [map convert]. rewrite Hf. inversion H2; subst. reflexivity.
    + cbn [map] in *. cbn [convert] in *. rewrite Hm. cbn [bind]. rewrite IH. reflexivity.
Qed.

(** The first text that fails to convert determines the error. *)
Lemma convert_first_err {A} (mid fin conv : bytes -> res A) els l1 t l2 err xs :
  (forall v t a, cleanValueString v = Ok t -> conv t = Ok a -> mid v = Ok a /\ fin v = Ok a) ->
  (forall v, cleanValueString v = Ok t -> mid v = Err err /\ fin v = Err err) ->
  forallb elem_ok els = true -> Forall (fun e => tight2 (e_pre e) (e_val e) (e_post e)) els ->
  items els = l1 ++ t :: l2 -> Forall2 (fun t a => conv t = Ok a) l1 xs ->
  convert mid fin (map elem_text els) = Err err.
Proof.
  intros Hc He. revert l1 xs. induction els as [|e l IH]; intros l1 xs Hok Ht Hi HF; cbn [items map] in Hi.
  - destruct l1; discriminate.
  - inversion Ht as [|? ? Ht1 Ht2]; subst. cbn [forallb] in Hok. nbool.
    pose proof (clean_elem e ltac:(assumption) Ht1) as Hcl.
    destruct l1 as [|t1 l1]; cbn [app] in Hi; injection Hi as Hi1 Hi2.
    + rewrite Hi1 in Hcl. destruct (He _ Hcl) as [Hm Hf]. destruct l as [|e2 l]; cbn [map convert].
      * rewrite Hf. reflexivity.
      * rewrite Hm. reflexivity.
    + rewrite Hi1 in Hcl. inversion HF as [|? a ? r H1 H2]; subst. destruct (Hc _ _ _ Hcl H1) as [Hm Hf].
      specialize (IH l1 r ltac:(assumption) Ht2 Hi2 H2). destruct l as [|e2 l].
      * destruct l1; discriminate.
      * cbn [map] in *. cbn [convert] in *. rewrite Hm. cbn [bind]. rewrite IH. reflexivity.
Qed.

Lemma arr_bracketed w els : bracketed (render (JArr w els)) = true.
Proof.
  unfold bracketed. rewrite render_arr, app_assoc.
  change (91 :: (w ++ join (map elem_text els)) ++ [93]) with ((91 :: w ++ join (map elem_text els)) ++ [93]).
  rewrite last_last. reflexivity.
Qed.

Lemma arr_len w els : wf (JArr w els) = true -> els <> [] -> (3 <= length (render (JArr w els)))%nat.
Proof.
  intros Hv Hne. rewrite render_arr. destruct els as [|e l]; [contradiction|]. rewrite wf_arr in Hv. cbn [forallb map] in *. nbool.
  unfold elem_ok in *. nbool. destruct (render_cons (e_val e) ltac:(assumption)) as (c & r & E & _).
  rewrite join_cons. unfold elem_text. rewrite E. len.
Qed.

Lemma parse_array w els : wf (JArr w els) = true -> els <> [] -> tight_e w els ->
  ParseArray (render (JArr w els)) = Ok (Some (items els)).
Proof.
  intros Hv Hne Ht. unfold ParseArray. pose proof (arr_len w els Hv Hne) as Hlen.
  rewrite (proj2 (Nat.ltb_ge _ _)) by lia. rewrite arr_bracketed.
  rewrite (proj2 (Nat.eqb_neq _ _)) by lia.
  rewrite (split_all _ _ _ w els Hne Hv eq_refl).
  rewrite (convert_all _ _ (fun t => Ok t) (absorb_e w els) (items els)); [reflexivity| | | |].
  - intros v t a H1 H2. injection H2 as <-. auto.
  - apply absorb_e_ok. exact Hv.
  - apply tight_absorb. exact Ht.
  - rewrite items_absorb. clear. induction (items els); constructor; auto.
Qed.

Lemma get_whole d p v : wf_doc d = true -> whole d p -> lookup (d_val d) p = Some v -> container v = true ->
  GetString (text d) p = Ok (render v).
Proof.
  intros Hw Hwh Hl Hc. destruct p as [|x p].
  - cbn in Hl. injection Hl as <-. destruct Hwh as [Hwh|[H1 H2]]; [contradiction|].
    unfold GetString, Get, text. rewrite H1, H2, app_nil_r. reflexivity.
  - unfold GetString. rewrite (get_present d (x :: p) v Hw ltac:(discriminate) Hl). destruct v; try discriminate; reflexivity.
Qed.

Lemma lookup_wf d p v : wf_doc d = true -> lookup (d_val d) p = Some v -> wf v = true.
Proof.
  intros Hw Hl. destruct (lookup_focus _ _ _ Hl) as (pre & post & Hf).
  eapply focus_wf; [exact Hf|apply wf_doc_inv in Hw; tauto].
Qed.

Lemma get_string_array d p w els : wf_doc d = true -> whole d p -> lookup (d_val d) p = Some (JArr w els) ->
  els <> [] -> tight_e w els -> GetStringArray (text d) p = Ok (items els).
Proof.
  intros Hw Hwh Hl Hne Ht. pose proof (lookup_wf _ _ _ Hw Hl) as Hv. unfold GetStringArray.
  rewrite (get_whole d p _ Hw Hwh Hl eq_refl). cbn [bind]. pose proof (arr_len w els Hv Hne) as Hlen.
  rewrite (proj2 (Nat.ltb_ge _ _)) by lia. rewrite arr_bracketed, parse_array by assumption. reflexivity.
Qed.

Lemma get_string_array_empty d p : wf_doc d = true -> whole d p -> lookup (d_val d) p = Some (JArr [] []) ->
  GetStringArray (text d) p = Ok [].
Proof.
  intros Hw Hwh Hl. unfold GetStringArray. rewrite (get_whole d p _ Hw Hwh Hl eq_refl). reflexivity.
Qed.

Lemma typed_array {A} (mid fin conv : bytes -> res A) d p w els xs (e : bytes -> err) :
  (forall v t a, cleanValueString v = Ok t -> conv t = Ok a -> mid v = Ok a /\ fin v = Ok a) ->
  wf_doc d = true -> whole d p -> lookup (d_val d) p = Some (JArr w els) -> els <> [] -> tight_e w els ->
  Forall2 (fun t a => conv t = Ok a) (items els) xs ->
  (do val <- GetString (text d) p;
   if (length val <? 2)%nat then Err (e val)
   else if bracketed val then split_loop mid fin val val 0 1 0 false else Err (e val)) = Ok xs.
Proof.
  intros Hc Hw Hwh Hl Hne Ht HF. pose proof (lookup_wf _ _ _ Hw Hl) as Hv.
  rewrite (get_whole d p _ Hw Hwh Hl eq_refl). cbn [bind]. pose proof (arr_len w els Hv Hne) as Hlen.
  rewrite (proj2 (Nat.ltb_ge _ _)) by lia. rewrite arr_bracketed.
  rewrite (split_all _ _ _ w els Hne Hv eq_refl).
  apply (convert_all _ _ conv); [exact Hc|apply absorb_e_ok; exact Hv|apply tight_absorb; exact Ht|].
  rewrite items_absorb. exact HF.
Qed.

Lemma typed_array_err {A} (mid fin conv : bytes -> res A) d p w els l1 t l2 xs er (e : bytes -> err) :
  (forall v t a, cleanValueString v = Ok t -> conv t = Ok a -> mid v = Ok a /\ fin v = Ok a) ->
  (forall v, cleanValueString v = Ok t -> mid v = Err er /\ fin v = Err er) ->
  wf_doc d = true -> whole d p -> lookup (d_val d) p = Some (JArr w els) -> tight_e w els ->
  items els = l1 ++ t :: l2 -> Forall2 (fun t a => conv t = Ok a) l1 xs ->
  (do val <- GetString (text d) p;
   if (length val <? 2)%nat then Err (e val)
   else if bracketed val then split_loop mid fin val val 0 1 0 false else Err (e val)) = Err er.
Proof.
  intros Hc He Hw Hwh Hl Ht Hi HF. pose proof (lookup_wf _ _ _ Hw Hl) as Hv.
  assert (Hne : els <> []) by (intros ->; destruct l1; discriminate).
  rewrite (get_whole d p _ Hw Hwh Hl eq_refl). cbn [bind]. pose proof (arr_len w els Hv Hne) as Hlen.
  rewrite (proj2 (Nat.ltb_ge _ _)) by lia. rewrite arr_bracketed.
  rewrite (split_all _ _ _ w els Hne Hv eq_refl).
  eapply (convert_first_err _ _ conv); [exact Hc|exact He|apply absorb_e_ok; exact Hv|apply tight_absorb; exact Ht| |exact HF].
  rewrite items_absorb. exact Hi.
Qed.

Lemma int_conv v t a : cleanValueString v = Ok t -> (match atoi t with Some z => Ok z | None => Err (EIntegerParse t) end) = Ok a ->
  int_elem v = Ok a /\ int_elem v = Ok a.
Proof. intros H1 H2. unfold int_elem. rewrite H1. cbn [bind]. auto. Qed.

Lemma opt_ok {A} (f : bytes -> option A) (e : bytes -> err) (xs : list bytes) (ys : list A) :
  map f xs = map Some ys -> Forall2 (fun t a => (match f t with Some z => Ok z | None => Err (e t) end : res A) = Ok a) xs ys.
Proof.
  revert ys. induction xs as [|x xs IH]; intros [|y ys] H; try discriminate; [constructor|].
  cbn [map] in H. injection H as H1 H2. constructor; [rewrite H1; reflexivity|]. apply IH. exact H2.
Qed.

Lemma get_int_array d p w els zs : wf_doc d = true -> whole d p -> lookup (d_val d) p = Some (JArr w els) ->
  els <> [] -> tight_e w els -> map atoi (items els) = map Some zs -> GetIntArray (text d) p = Ok zs.
Proof.
  intros Hw Hwh Hl Hne Ht HF. unfold GetIntArray.
  apply (typed_array _ _ (fun t => match atoi t with Some z => Ok z | None => Err (EIntegerParse t) end) d p w els zs);
    try assumption; [exact int_conv|]. apply (opt_ok). exact HF.
Qed.

Lemma get_int_array_err d p w els l1 t l2 zs : wf_doc d = true -> whole d p -> lookup (d_val d) p = Some (JArr w els) ->
  tight_e w els -> items els = l1 ++ t :: l2 -> map atoi l1 = map Some zs -> atoi t = None ->
  GetIntArray (text d) p = Err (EIntegerParse t).
Proof.
  intros Hw Hwh Hl Ht Hi HF He. unfold GetIntArray.
  eapply (typed_array_err _ _ (fun t => match atoi t with Some z => Ok z | None => Err (EIntegerParse t) end) d p w els);
    try eassumption; [exact int_conv| |apply (opt_ok); exact HF].
  intros v Hv. unfold int_elem. rewrite Hv. cbn [bind]. rewrite He. auto.
Qed.

Lemma get_float_array {F} (pf : bytes -> option F) d p w els zs : wf_doc d = true -> whole d p -> lookup (d_val d) p = Some (JArr w els) ->
  els <> [] -> tight_e w els -> map pf (items els) = map Some zs -> GetFloatArray pf (text d) p = Ok zs.
Proof.
  intros Hw Hwh Hl Hne Ht HF. unfold GetFloatArray.
  apply (typed_array _ _ (fun t => match pf t with Some z => Ok z | None => Err (EFloatParse t) end) d p w els zs);
    try assumption; [|apply (opt_ok); exact HF].
  intros v t a H1 H2. unfold float_elem. rewrite H1. cbn [bind]. auto.
Qed.

Lemma bool_conv v t a : cleanValueString v = Ok t -> (match unbool t with Some z => Ok z | None => Err (EBoolParse t) end) = Ok a ->
  bool_mid v = Ok a /\ bool_fin v = Ok a.
Proof.
  intros H1 H2. unfold bool_mid, bool_fin, unbool in *. rewrite H1. cbn [bind].
  destruct (bytes_eqb t (b "true")); [auto|]. destruct (bytes_eqb t (b "false")); [auto|discriminate].
Qed.

Lemma get_bool_array d p w els zs : wf_doc d = true -> whole d p -> lookup (d_val d) p = Some (JArr w els) ->
  els <> [] -> tight_e w els -> map unbool (items els) = map Some zs -> GetBoolArray (text d) p = Ok zs.
Proof.
  intros Hw Hwh Hl Hne Ht HF. unfold GetBoolArray.
  apply (typed_array _ _ (fun t => match unbool t with Some z => Ok z | None => Err (EBoolParse t) end) d p w els zs);
    try assumption; [exact bool_conv|]. apply (opt_ok). exact HF.
Qed.
