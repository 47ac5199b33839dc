(** Insert in front of the last of several elements when blanks precede it: what comes out, and that it is no document. *)
From Coq Require Import String.
From Verif Require Import GoStd Json Spec Core Skip Focus CoreProofs CoreNeg Errors Api SpecProofs ApiProofs Domains Updates.

Local Open Scope N_scope.

(** ** No two commas with only blanks between them, outside strings *)
Inductive comma_st : Type := Outside (comma : bool) | Inside | Escaped.
Definition comma_step (s : comma_st) (c : N) : option comma_st :=
  match s with
  | Outside k => if c =? 34 then Some Inside
                 else if is_ws c then Some s
                 else if c =? 44 then if k then None else Some (Outside true)
                 else Some (Outside false)
  | Inside => Some (if c =? 34 then Outside false else if c =? 92 then Escaped else Inside)
  | Escaped => Some Inside
  end.
Fixpoint comma_run (s : comma_st) (t : bytes) : option comma_st :=
  match t with
  | [] => Some s
  | c :: r => match comma_step s c with Some s' => comma_run s' r | None => None end
  end.

Lemma comma_app s t u : comma_run s (t ++ u) = match comma_run s t with Some s' => comma_run s' u | None => None end.
Proof. revert s. induction t as [|c t IH]; intro s; [reflexivity|]. cbn. destruct (comma_step s c); [apply IH|reflexivity]. Qed.

Lemma comma_ws k w : ws_ok w = true -> comma_run (Outside k) w = Some (Outside k).
Proof.
  unfold ws_ok. induction w as [|c w IH]; [reflexivity|]. cbn [forallb comma_run comma_step]. intro H. apply andb_true_iff in H. destruct H as [Hc H].
  destruct (N.eqb_spec c 34) as [-> |]; [discriminate Hc|]. rewrite Hc. exact (IH H).
Qed.

Lemma comma_str s : str_ok s = true -> comma_run Inside s = Some Inside.
Proof.
  revert s. fix IH 1. intros [|c r] H; [reflexivity|]. cbn [str_ok] in H. cbn [comma_run comma_step].
  destruct (c =? 34); [discriminate|]. destruct (c =? 92); [|exact (IH r H)].
  destruct r as [|c' r]; [discriminate|]. cbn [comma_run comma_step]. exact (IH r H).
Qed.

Lemma comma_quoted k s u : str_ok s = true -> comma_run (Outside k) (34 :: s ++ 34 :: u) = comma_run (Outside false) u.
Proof. intro H. cbn [comma_run comma_step N.eqb Pos.eqb]. rewrite comma_app, (comma_str s H). reflexivity. Qed.

Lemma comma_token k c : is_token_char c = true -> comma_step (Outside k) c = Some (Outside false).
Proof.
  unfold is_token_char. intro H. apply negb_true_iff in H. repeat (apply orb_false_iff in H; destruct H as [H ?]). cbn [comma_step]. unfold is_ws.
  repeat match goal with H : _ = false |- _ => rewrite H end. reflexivity.
Qed.

Lemma comma_scalar k s : scalar_ok s = true -> comma_run (Outside k) s = Some (Outside false).
Proof.
  destruct s as [|c s]; [discriminate|]. cbn [scalar_ok forallb]. intro H. apply andb_true_iff in H. destruct H as [Hc H].
  cbn [comma_run]. rewrite (comma_token k c Hc). revert H. induction s as [|c' s IH]; [reflexivity|]. cbn [forallb].
  intro H. apply andb_true_iff in H. destruct H as [Hc' H]. cbn [comma_run]. rewrite (comma_token false c' Hc'). exact (IH H).
Qed.

(** Items with commas between them *)
Lemma comma_join {A} (f : A -> bytes) items :
  (forall x, In x items -> forall k, comma_run (Outside k) (f x) = Some (Outside false)) -> items <> [] ->
  forall (k : bool), comma_run (Outside k) (join (map f items)) = Some (Outside false).
Proof.
  intros H Hne. induction items as [|x r IH]; [congruence|]. intro k. destruct r as [|y r].
  - cbn [map join]. apply H. left. reflexivity.
  - change (join (map f (x :: y :: r))) with (f x ++ 44 :: join (map f (y :: r))). rewrite comma_app, H by (left; reflexivity).
    cbn [comma_run comma_step N.eqb Pos.eqb is_ws orb]. apply IH; [|discriminate]. intros z Hz. apply H. right. exact Hz.
Qed.

Lemma comma_value v : wf v = true -> forall k, comma_run (Outside k) (render v) = Some (Outside false).
Proof.
  induction v as [s|s|w els IH|w ms IH] using jv_ind'; intros Hw k.
  - apply comma_scalar. exact Hw.
  - cbn [render]. rewrite comma_quoted by exact Hw. reflexivity.
  - rewrite render_arr. rewrite wf_arr in Hw. apply andb_true_iff in Hw. destruct Hw as [Hws Hw].
    cbn [comma_run comma_step N.eqb Pos.eqb is_ws orb]. rewrite comma_app, (comma_ws _ _ Hws), comma_app.
    assert (E : forall e, In e els -> forall k, comma_run (Outside k) (elem_text e) = Some (Outside false)).
    { intros e He k'. rewrite Forall_forall in IH. rewrite forallb_forall in Hw. pose proof (Hw e He) as Hk. unfold elem_ok in Hk. nbool.
      unfold elem_text. rewrite comma_app, (comma_ws k') by assumption. rewrite comma_app, (IH e He) by assumption. apply comma_ws. assumption. }
    destruct els as [|e els]; [reflexivity|]. rewrite (comma_join elem_text (e :: els) E) by discriminate. reflexivity.
  - rewrite render_obj. rewrite wf_obj in Hw. apply andb_true_iff in Hw. destruct Hw as [Hws Hw].
    cbn [comma_run comma_step N.eqb Pos.eqb is_ws orb]. rewrite comma_app, (comma_ws _ _ Hws), comma_app.
    assert (E : forall m, In m ms -> forall k, comma_run (Outside k) (mem_text m) = Some (Outside false)).
    { intros m Hm k'. rewrite Forall_forall in IH. rewrite forallb_forall in Hw. pose proof (Hw m Hm) as Hk. unfold mem_ok in Hk. nbool.
      unfold mem_text. rewrite comma_app, (comma_ws k') by assumption. rewrite comma_quoted by assumption.
      rewrite comma_app, comma_ws by assumption. cbn [comma_run comma_step N.eqb Pos.eqb is_ws orb].
      rewrite comma_app, comma_ws by assumption. rewrite comma_app, (IH m Hm) by assumption. apply comma_ws. assumption. }
    destruct ms as [|m ms]; [reflexivity|]. rewrite (comma_join mem_text (m :: ms) E) by discriminate. reflexivity.
Qed.

Lemma comma_doc d : wf_doc d = true -> comma_run (Outside false) (text d) <> None.
Proof.
  intro Hw. unfold wf_doc in Hw. nbool. unfold text. rewrite comma_app, comma_ws by assumption.
  rewrite comma_app, comma_value by assumption. rewrite comma_ws by assumption. discriminate.
Qed.

(** In front of a value the run is outside strings. *)
Lemma comma_jpre {A} (f : A -> bytes) items :
  (forall x, In x items -> forall k, comma_run (Outside k) (f x) = Some (Outside false)) -> items <> [] ->
  forall (k : bool), comma_run (Outside k) (jpre (map f items)) = Some (Outside true).
Proof.
  intros H Hne. induction items as [|x r IH]; [congruence|]. intro k. cbn [map]. rewrite jpre_cons, comma_app, H by (left; reflexivity).
  cbn [comma_run comma_step N.eqb Pos.eqb is_ws orb]. destruct r as [|y r]; [reflexivity|]. apply IH; [|discriminate].
  intros z Hz. apply H. right. exact Hz.
Qed.

Lemma comma_elem e : elem_ok e = true -> forall k, comma_run (Outside k) (elem_text e) = Some (Outside false).
Proof.
  unfold elem_ok, elem_text. intros H k. nbool. rewrite comma_app, comma_ws by assumption. rewrite comma_app, comma_value by assumption.
  apply comma_ws. assumption.
Qed.
Lemma comma_mem m : mem_ok m = true -> forall k, comma_run (Outside k) (mem_text m) = Some (Outside false).
Proof.
  unfold mem_ok, mem_text. intros H k. nbool. rewrite comma_app, comma_ws by assumption. rewrite comma_quoted by assumption.
  rewrite comma_app, comma_ws by assumption. cbn [comma_run comma_step N.eqb Pos.eqb is_ws orb].
  rewrite comma_app, comma_ws by assumption. rewrite comma_app, comma_value by assumption. apply comma_ws. assumption.
Qed.

Lemma comma_jpre_any {A} (f : A -> bytes) items :
  (forall x, In x items -> forall k, comma_run (Outside k) (f x) = Some (Outside false)) ->
  forall k, exists k', comma_run (Outside k) (jpre (map f items)) = Some (Outside k').
Proof. intros H k. destruct items as [|x r]; [exists k; reflexivity|]. exists true. apply comma_jpre; [exact H|discriminate]. Qed.

Lemma comma_focus t p pre v post : focus t p pre v post -> wf t = true ->
  forall k, exists k', comma_run (Outside k) pre = Some (Outside k').
Proof.
  induction 1 as [v|w l1 e l2 x p pre v post Hx Hf IH|w l1 m l2 p pre v post Hk Hf IH]; intros Hw k.
  - exists k. reflexivity.
  - rewrite wf_arr, forallb_app in Hw. cbn [forallb] in Hw. nbool. pose proof H1 as He. unfold elem_ok in He. nbool.
    unfold arr_pre. cbn [app comma_run comma_step N.eqb Pos.eqb is_ws orb]. rewrite <- !app_assoc, comma_app, comma_ws by assumption.
    destruct (comma_jpre_any elem_text l1) with (k := false) as (k1 & E1).
    { intros y Hy. apply comma_elem. rewrite forallb_forall in *. auto. }
    rewrite comma_app, E1, comma_app, comma_ws by assumption. apply IH. assumption.
  - rewrite wf_obj, forallb_app in Hw. cbn [forallb] in Hw. nbool. pose proof H1 as He. unfold mem_ok in He. nbool.
    replace (obj_pre w l1 m ++ pre) with (123 :: w ++ jpre (map mem_text l1) ++ m_pre m ++ 34 :: m_key m ++ 34 :: m_mid m ++ 58 :: m_mid2 m ++ pre)
      by (unfold obj_pre, obj_kpre, obj_mid; same_text).
    cbn [comma_run comma_step N.eqb Pos.eqb is_ws orb]. rewrite comma_app, comma_ws by assumption.
    destruct (comma_jpre_any mem_text l1) with (k := false) as (k1 & E1).
    { intros y Hy. apply comma_mem. rewrite forallb_forall in *. auto. }
    rewrite comma_app, E1, comma_app, comma_ws by assumption. rewrite comma_quoted by assumption. rewrite comma_app, comma_ws by assumption. cbn [comma_run comma_step N.eqb Pos.eqb is_ws orb].
    rewrite comma_app, comma_ws by assumption. apply IH. assumption.
Qed.

(** ** Insert *)
Lemma insert_span_misplaced json A W c X W2 B value start e :
  json = A ++ 44 :: W ++ c :: X ++ W2 ++ 93 :: B ->
  ws_ok (W ++ [c]) = true -> ws_ok W2 = true ->
  start = length (A ++ 44 :: W ++ [c]) -> e = length (A ++ 44 :: W ++ c :: X) ->
  insert_span json value start e = Done (A ++ 44 :: W ++ 44 :: value ++ c :: X ++ W2 ++ 93 :: B).
Proof.
  intros Hj H1 H2 -> ->. unfold insert_span.
  replace (pred (length (A ++ 44 :: W ++ [c]))) with (length A + length (W ++ [c]))%nat by len.
  rewrite (back_edge_spec json A 44 (W ++ [c]) (X ++ W2 ++ 93 :: B)); [|rewrite Hj; same_text|exact H1|reflexivity]. cbn [pbind].
  replace (skipn (length (A ++ 44 :: W ++ c :: X)) json) with (W2 ++ 93 :: B).
  2:{ rewrite Hj. replace (A ++ 44 :: W ++ c :: X ++ W2 ++ 93 :: B) with ((A ++ 44 :: W ++ c :: X) ++ W2 ++ 93 :: B) by same_text.
      symmetry. apply skipn_length_app. }
  rewrite (fwd_edge_spec W2 93 B _ H2 eq_refl).
  rewrite (at_app_eq json A 44 (W ++ c :: X ++ W2 ++ 93 :: B) _ Hj eq_refl). cbn [pbind].
  rewrite (at_app_eq json (A ++ 44 :: W ++ c :: X ++ W2) 93 B); [|rewrite Hj; same_text|len]. cbn [pbind].
  change (is_open 44 && (44 + 2 =? 93)) with false. change (93 =? 44) with false. change (44 =? 44) with true. cbn iota.
  replace (length (A ++ 44 :: W ++ [c])) with (S (length (A ++ 44 :: W))) by len.
  rewrite (done_insert json (A ++ 44 :: W) (c :: X ++ W2 ++ 93 :: B)); [f_equal; same_text|rewrite Hj; same_text|reflexivity].
Qed.

Theorem insert_misplaced d p pre w l1 e post W c value :
  wf_doc d = true -> focus (d_val d) p pre (JArr w (l1 ++ [e])) post ->
  (Z.of_nat (length l1) <= int64_max)%Z -> l1 <> [] -> e_pre e = W ++ [c] ->
  Insert (text d) (Z.of_nat (length l1)) value p =
  Done (d_pre d ++ pre ++ 91 :: w ++ jpre (map elem_text l1) ++ W ++ 44 :: value ++ c :: render (e_val e) ++ e_post e ++ 93 :: post ++ d_post d).
Proof.
  intros Hw Hf Hmax Hne He. pose proof (focus_wf _ _ _ _ _ Hf (wf_doc_val _ Hw)) as Hwv.
  rewrite Insert_unfold.
  assert (Hr : render (JArr w (l1 ++ [e])) = 91 :: (w ++ join (map elem_text (l1 ++ [e]))) ++ [93]) by (rewrite render_arr; same_text).
  rewrite (target_span_spec d p pre _ post _ _ _ _ Hw Hf Hr eq_refl eq_refl eq_refl). cbn [ubind].
  pose proof (text_focus _ _ _ _ _ Hf) as Ht. rewrite Hr in Ht.
  rewrite (braces_at_spec (text d) _ _ _ _ _ _ _ Ht eq_refl) by (rewrite Hr; f_equal; same_text). cbn [pbind].
  clear Hr Ht.
  rewrite (core_arr d p (itoa (Z.of_nat (length l1))) w l1 e [] pre post false Hw Hf).
  2:{ apply atoi_itoa. unfold in_int64. apply andb_true_iff. split; apply Z.leb_le; [unfold int64_min; lia|exact Hmax]. }
  cbv zeta iota. cbn [ubind].
  pose proof (text_focus _ _ _ _ _ Hf) as Ht.
  assert (Hoke : ws_ok w = true /\ ws_ok (e_pre e) = true /\ ws_ok (e_post e) = true /\ elem_ok e = true).
  { rewrite wf_arr, forallb_app in Hwv. cbn [forallb] in Hwv. nbool. assert (Hk := H1). unfold elem_ok in H1. nbool. auto. }
  destruct Hoke as (Hok1 & Hok2 & Hok3 & Hok4).
  assert (Ht2 : text d = (d_pre d ++ pre ++ arr_pre w l1 e) ++ render (e_val e) ++ arr_post e [] ++ post ++ d_post d).
  { rewrite Ht, render_arr_split. same_text. }
  rewrite (unquote_start_spec (text d) (d_pre d ++ pre ++ arr_pre w l1 e) (e_val e) _ Ht2).
  2:{ rewrite app_assoc. apply noq_arr_pre; assumption. }
  cbn [pbind].
  rewrite (unquote_end_spec (text d) (d_pre d ++ pre ++ arr_pre w l1 e) (e_val e) _ Ht2).
  2:{ apply term_arr. assumption. }
  cbn [pbind].
  destruct (exists_last Hne) as (l0 & a & ->).
  assert (Ej : jpre (map elem_text (l0 ++ [a])) = (jpre (map elem_text l0) ++ elem_text a) ++ [44]).
  { rewrite map_app, jpre_app. cbn [map]. rewrite jpre_cons. same_text. }
  rewrite (insert_span_misplaced (text d) (d_pre d ++ pre ++ 91 :: w ++ jpre (map elem_text l0) ++ elem_text a) W c (render (e_val e)) (e_post e) (post ++ d_post d)).
  - f_equal. rewrite Ej. same_text.
  - rewrite Ht2. unfold arr_pre, arr_post. rewrite Ej, He. cbn [map jpost concat]. same_text.
  - rewrite <- He. exact Hok2.
  - exact Hok3.
  - unfold arr_pre. rewrite Ej, He. f_equal. same_text.
  - unfold arr_pre. rewrite Ej, He. f_equal. same_text.
Qed.

Lemma insert_layout_app l1 (e : elem jv) l2 :
  insert_layout (l1 ++ e :: l2) (Z.of_nat (length l1)) <-> l1 = [] \/ l2 <> [] \/ e_pre e = [].
Proof.
  unfold insert_layout. rewrite nth_z_app, app_length. cbn [length]. split.
  - intros [H|[H|(e' & H & He)]].
    + right. left. intros ->. cbn in H. lia.
    + left. destruct l1; [reflexivity|cbn in H; lia].
    + right. right. congruence.
  - intros [-> |[H|H]].
    + destruct l2 as [|y l2]; [right; left; reflexivity|left; cbn [length]; lia].
    + left. destruct l2 as [|y l2]; [congruence|cbn [length]; lia].
    + right. right. exists e. split; [reflexivity|exact H].
Qed.

(** Nothing with this prefix is a document. *)
Theorem no_document d p pre w l1 e post W B d' :
  wf_doc d = true -> focus (d_val d) p pre (JArr w (l1 ++ [e])) post -> l1 <> [] -> ws_ok W = true -> wf_doc d' = true ->
  text d' <> d_pre d ++ pre ++ 91 :: w ++ jpre (map elem_text l1) ++ W ++ 44 :: B.
Proof.
  intros Hw Hf Hne HW Hw' E. pose proof (focus_wf _ _ _ _ _ Hf (wf_doc_val _ Hw)) as Hwv.
  apply (comma_doc d' Hw'). rewrite E. unfold wf_doc in Hw. nbool. rewrite comma_app, comma_ws by assumption.
  destruct (comma_focus _ _ _ _ _ Hf ltac:(assumption) false) as (k & Ek). rewrite comma_app, Ek.
  rewrite wf_arr, forallb_app in Hwv. nbool. cbn [comma_run comma_step N.eqb Pos.eqb is_ws orb]. rewrite comma_app, comma_ws by assumption.
  rewrite comma_app, (comma_jpre elem_text l1); [|intros y Hy; apply comma_elem; rewrite forallb_forall in *; auto|exact Hne].
  rewrite comma_app, comma_ws by assumption. reflexivity.
Qed.

Theorem insert_exact d p z value w els e :
  wf_doc d = true -> wf value = true -> (z <= int64_max)%Z ->
  lookup (d_val d) p = Some (JArr w els) -> nth_z els z = Some e ->
  (exists d', wf_doc d' = true /\ Insert (text d) z (render value) p = Done (text d')) <-> insert_layout els z.
Proof.
  intros Hw Hv Hz Hl Hn. split.
  - intros (d' & Hw' & Hi). destruct (nth_z_split _ _ _ Hn) as (l1 & l2 & -> & ->). apply insert_layout_app.
    destruct l1 as [|a l1]; [left; reflexivity|]. destruct l2; [|right; left; discriminate].
    destruct (e_pre e) as [|c0 r0] eqn:Ep; [right; right; reflexivity|]. exfalso.
    destruct (exists_last (l := c0 :: r0)) as (W & c & EW); [discriminate|]. rewrite EW in Ep.
    destruct (lookup_focus _ _ _ Hl) as (pre & post & Hf). assert (Ha : a :: l1 <> []) by discriminate.
    rewrite (insert_misplaced d p pre w (a :: l1) e post W c (render value) Hw Hf Hz Ha Ep) in Hi. injection Hi as Hi. symmetry in Hi.
    refine (no_document d p pre w (a :: l1) e post W _ d' Hw Hf Ha _ Hw' Hi).
    pose proof (focus_wf _ _ _ _ _ Hf (wf_doc_val _ Hw)) as Hwv. rewrite wf_arr, forallb_app in Hwv. cbn [forallb] in Hwv. nbool.
    unfold elem_ok in *. nbool. rewrite Ep in *. unfold ws_ok in *. rewrite forallb_app in *. nbool. assumption.
  - intro Hlay. destruct (d_modify (content (d_val d)) p (d_insert z (content value))) as [c'|] eqn:Hm.
    + destruct (insert_ok d p z value c' w els Hw Hv Hz Hl Hlay Hm) as (d' & Hi & Hw' & _). exists d'. split; assumption.
    + exfalso. destruct (nth_z_split _ _ _ Hn) as (l1 & l2 & -> & ->). destruct (lookup_focus _ _ _ Hl) as (pre & post & Hf).
      pose proof (focus_wf _ _ _ _ _ Hf (wf_doc_val _ Hw)) as Hwv.
      destruct (modify_at _ _ _ _ _ (ins_elem w l1 value e l2) _ Hf (wf_doc_val _ Hw) (ins_elem_wf _ _ _ _ _ Hwv Hv) (ins_elem_content w l1 value e l2)) as (t' & _ & _ & Ht').
      congruence.
Qed.

Lemma jpre_join l : l <> [] -> jpre l = join l ++ [44].
Proof. intro H. destruct l as [|x r]; [congruence|]. rewrite <- (app_nil_r (jpre _)), jpre_jpost, join_cons. same_text. Qed.

Theorem insert_garbles d p w l1 e W c value :
  wf_doc d = true -> lookup (d_val d) p = Some (JArr w (l1 ++ [e])) -> (Z.of_nat (length l1) <= int64_max)%Z ->
  l1 <> [] -> e_pre e = W ++ [c] ->
  exists A B, text d = A ++ join (map elem_text l1) ++ 44 :: W ++ c :: render (e_val e) ++ e_post e ++ 93 :: B /\
    Insert (text d) (Z.of_nat (length l1)) value p =
    Done (A ++ join (map elem_text l1) ++ 44 :: W ++ 44 :: value ++ c :: render (e_val e) ++ e_post e ++ 93 :: B) /\
    forall d', wf_doc d' = true -> text d' <> A ++ join (map elem_text l1) ++ 44 :: W ++ 44 :: value ++ c :: render (e_val e) ++ e_post e ++ 93 :: B.
Proof.
  intros Hw Hl Hmax Hne He. destruct (lookup_focus _ _ _ Hl) as (pre & post & Hf).
  assert (Hm : map elem_text l1 <> []) by (destruct l1; [congruence|discriminate]). pose proof (jpre_join _ Hm) as Ej.
  exists (d_pre d ++ pre ++ 91 :: w), (post ++ d_post d).
  assert (Ht : text d = (d_pre d ++ pre ++ 91 :: w) ++ join (map elem_text l1) ++ 44 :: W ++ c :: render (e_val e) ++ e_post e ++ 93 :: post ++ d_post d).
  { rewrite (text_focus _ _ _ _ _ Hf), render_arr_split. unfold arr_pre, arr_post. rewrite Ej, He. cbn [map jpost concat]. same_text. }
  assert (E : forall X, d_pre d ++ pre ++ 91 :: w ++ jpre (map elem_text l1) ++ W ++ 44 :: X =
                        (d_pre d ++ pre ++ 91 :: w) ++ join (map elem_text l1) ++ 44 :: W ++ 44 :: X).
  { intro X. rewrite Ej. same_text. }
  split; [exact Ht|]. split.
  - rewrite (insert_misplaced d p pre w l1 e post W c value Hw Hf Hmax Hne He). f_equal. rewrite <- E. reflexivity.
  - intros d' Hw' Hd'. rewrite <- E in Hd'. refine (no_document d p pre w l1 e post W _ d' Hw Hf Hne _ Hw' Hd').
    pose proof (focus_wf _ _ _ _ _ Hf (wf_doc_val _ Hw)) as Hwv. rewrite wf_arr, forallb_app in Hwv. cbn [forallb] in Hwv. nbool.
    unfold elem_ok in *. nbool. rewrite He in *. unfold ws_ok in *. rewrite forallb_app in *. nbool. assumption.
Qed.
