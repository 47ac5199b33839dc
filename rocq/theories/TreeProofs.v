(** What Parser.GetNew, Tree, TreeFull and the typed getters of the Parser give after Parse. *)
From Coq Require Import String ZifyN.
From Verif Require Import GoStd Json Spec Core Skip Focus CoreProofs Errors Api ApiProofs SpecIter Iter IterProofs Typed SpecParser Parser
  ParserProofs ParserGet ParserUpd ParserOps ParserInsert Ops History SpecTree Tree.

Local Open Scope N_scope.

(** ** Tree *)
Definition line (full : bool) (x : list bytes * bytes) : bytes :=
  if full then full_line RuneCountInString x else short_line x.

Lemma bullet_len q q' : length q = length q' -> bullet q = bullet q'.
Proof.
  destruct q as [|a [|c q]], q' as [|a' [|c' q']]; cbn; try discriminate; try reflexivity. intro H. injection H as ->. reflexivity.
Qed.
Lemma last_snoc (A : Type) (q : list A) x d : last (q ++ [x]) d = x.
Proof. induction q as [|a q IH]; [reflexivity|]. cbn [app last]. rewrite IH. destruct q; reflexivity. Qed.

Lemma line_ok full q l v : tree_line (length q) full l v = line full (q ++ [l], v).
Proof.
  unfold tree_line, line, full_line, short_line, pad_right, corner, dash. cbn [fst snd]. rewrite last_snoc.
  destruct q as [|a q].
  - cbn [length pred repeat app bullet]. destruct full; [|reflexivity]. rewrite <- ?app_assoc. reflexivity.
  - cbn [length pred].
    replace (bullet ((a :: q) ++ [l])) with (9 :: repeat 9 (length q) ++ [226; 148; 148; 32; 32]).
    2:{ rewrite (bullet_len _ (l :: l :: q)) by (rewrite app_length; cbn; lia). reflexivity. }
    cbn [app]. rewrite <- ?app_assoc. cbn [app]. destruct full; [|reflexivity]. rewrite <- ?app_assoc. reflexivity.
Qed.

Section Lines.
  Variable full : bool.
  Definition below (q : list bytes) (x : list bytes * bytes) : bytes := line full (q ++ fst x, snd x).

  Lemma below_snoc q l xs : map (below q) (map (fun y => (l :: fst y, snd y)) xs) = map (below (q ++ [l])) xs.
  Proof. rewrite map_map. apply map_ext. intro x. unfold below. cbn [fst snd]. rewrite <- app_assoc. reflexivity. Qed.

  (** Children one by one *)
  Definition child_tree (depth : nat) (d : node) : bytes :=
    tree_line depth full (n_label d) (n_value d) ++ createTree d (S depth) full.
  Lemma create_down l v ds depth : createTree (Node l v ds) depth full = concat (map (child_tree depth) ds).
  Proof.
    cbn [createTree]. induction ds as [|[l' v' dd] r IH]; [reflexivity|]. cbn [map concat]. rewrite IH. clear IH. unfold child_tree. cbn [n_label n_value].
    rewrite <- app_assoc. do 2 f_equal. destruct dd; reflexivity.
  Qed.

  Definition shown (v : jv) : Prop := forall l q, createTree (node_of l v) (length q) full = concat (map (below q) (inside v)).

  (** A child and what is inside it *)
  Definition kid (l : bytes) (u : bytes) (x : jv) (w : bytes) : node := if container x then node_of l x else Node l (u ++ render x ++ w) [].
  Definition kid_in (l : bytes) (u : bytes) (x : jv) (w : bytes) : list (list bytes * bytes) :=
    ([l], if container x then render x else u ++ render x ++ w) :: map (fun y => (l :: fst y, snd y)) (inside x).
  Lemma inside_leaf x : container x = false -> inside x = [].
  Proof. destruct x; try discriminate; reflexivity. Qed.
  Lemma node_value l v : n_value (node_of l v) = render v.
  Proof. destruct v; reflexivity. Qed.
  Lemma kid_shown l u x w q : shown x -> child_tree (length q) (kid l u x w) = concat (map (below q) (kid_in l u x w)).
  Proof.
    intro H. unfold kid, kid_in, child_tree. cbn [map concat]. rewrite below_snoc. unfold below at 1. cbn [fst snd].
    destruct (container x) eqn:Hc.
    - rewrite node_label, node_value, line_ok. f_equal. specialize (H l (q ++ [l])). rewrite app_length in H. cbn [length] in H.
      rewrite Nat.add_1_r in H. exact H.
    - cbn [n_label n_value]. rewrite line_ok. rewrite inside_leaf by exact Hc. cbn. reflexivity.
  Qed.

  Fixpoint els_in (k : nat) (els : list (elem jv)) : list (list bytes * bytes) :=
    match els with [] => [] | e :: r => kid_in (itoa (Z.of_nat k)) (e_pre e) (e_val e) (e_post e) ++ els_in (S k) r end.
  Lemma inside_arr w els : inside (JArr w els) = if lonely (JArr w els) then [] else els_in 0 (absorb_e w els).
  Proof.
    cbn [inside]. destruct (lonely (JArr w els)); [reflexivity|].
    assert (H : forall es k, (fix go (k : nat) (u : bytes) (els : list (elem jv)) : list (list bytes * bytes) :=
         match els with
         | [] => []
         | Elem p x q :: r =>
             let lbl := itoa (Z.of_nat k) in
             ([lbl], if container x then render x else (u ++ p) ++ render x ++ q)
               :: map (fun y => (lbl :: fst y, snd y)) (inside x) ++ go (S k) [] r
         end) k [] es = els_in k es).
    { induction es as [|[p x q] r IH]; intro k; [reflexivity|]. cbn [els_in e_val e_pre e_post]. rewrite IH. reflexivity. }
    destruct els as [|[p x q] r]; [reflexivity|]. cbn [absorb_e els_in e_val e_pre e_post]. rewrite H. reflexivity.
  Qed.
  Definition mem_in (m : mem jv) := kid_in (m_key m) (m_mid2 m) (m_val m) (m_post m).
  Lemma inside_obj w ms : inside (JObj w ms) = concat (map mem_in ms).
  Proof. cbn [inside]. induction ms as [|[p k m u x q] r IH]; [reflexivity|]. cbn [map concat]. rewrite IH. reflexivity. Qed.

  Lemma els_shown els : Forall (fun e => shown (e_val e)) els -> forall k q,
    concat (map (child_tree (length q)) (els_kids k els)) = concat (map (below q) (els_in k els)).
  Proof.
    induction 1 as [|e r He _ IH]; intros k q; [reflexivity|]. cbn [els_kids els_in map concat].
    rewrite map_app, concat_app, <- IH, <- kid_shown by exact He. reflexivity.
  Qed.
  Lemma absorb_shown w els : Forall (fun e => shown (e_val e)) els -> Forall (fun e => shown (e_val e)) (absorb_e w els).
  Proof. destruct 1; constructor; assumption. Qed.

  Theorem tree_shown v : shown v.
  Proof.
    induction v as [s|s|w els IH|w ms IH] using jv_ind'; intros l q; [reflexivity|reflexivity| |].
    - rewrite node_of_arr, create_down, inside_arr. destruct (lonely (JArr w els)); [reflexivity|].
      apply els_shown, absorb_shown. exact IH.
    - rewrite node_of_obj, create_down, inside_obj. induction IH as [|m ms Hm _ IH']; [reflexivity|].
      cbn [map concat]. rewrite map_app, concat_app, <- IH'. f_equal. apply (kid_shown (m_key m)). exact Hm.
  Qed.
End Lines.

Theorem parse_tree d p : wf_doc d = true -> Parse (text d) = Ok p ->
  P_Tree p = concat (map short_line (inside (d_val d))) /\
  P_TreeFull p = concat (map (full_line RuneCountInString) (inside (d_val d))).
Proof.
  intros Hw Hp. destruct (container (d_val d)) eqn:Hc.
  - rewrite parse_exact in Hp by assumption. injection Hp as <-. unfold P_Tree, P_TreeFull. cbn [p_core]. split.
    + apply (tree_shown false _ _ []).
    + apply (tree_shown true _ _ []).
  - pose proof (parse_leaf d Hw Hc) as E. congruence.
Qed.

(** ** Every value inside is listed, once; the steps are those of lookup *)
Lemma kid_in_inv l u x w q t : In (q, t) (kid_in l u x w) -> exists r, q = l :: r /\
  ((r = [] /\ t = if container x then render x else u ++ render x ++ w) \/ In (r, t) (inside x)).
Proof.
  unfold kid_in. intros [H|H].
  - injection H as <- <-. exists []. auto.
  - apply in_map_iff in H. destruct H as ((r & t') & H & Hi). cbn [fst snd] in H. injection H as <- <-. exists r. auto.
Qed.
Lemma els_in_inv els : forall k q t, In (q, t) (els_in k els) ->
  exists i e, nth_error els i = Some e /\ In (q, t) (kid_in (itoa (Z.of_nat (k + i))) (e_pre e) (e_val e) (e_post e)).
Proof.
  induction els as [|e r IH]; intros k q t H; cbn [els_in] in H; [destruct H|]. apply in_app_iff in H. destruct H as [H|H].
  - exists O, e. rewrite Nat.add_0_r. auto.
  - destruct (IH _ _ _ H) as (i & e' & Hi & Hin). exists (S i), e'. rewrite Nat.add_succ_r. auto.
Qed.
Lemma els_in_intro els : forall k i e x, nth_error els i = Some e ->
  In x (kid_in (itoa (Z.of_nat (k + i))) (e_pre e) (e_val e) (e_post e)) -> In x (els_in k els).
Proof.
  induction els as [|e' r IH]; intros k i e x Hi Hin; [destruct i; discriminate|]. cbn [els_in]. apply in_app_iff.
  destruct i as [|i]; [injection Hi as ->; rewrite Nat.add_0_r in Hin; auto|]. right. apply (IH (S k) i e); [exact Hi|].
  rewrite Nat.add_succ_r in Hin. exact Hin.
Qed.

(** A text that holds a value, with blanks *)
Definition holds_text (t : bytes) (x : jv) : Prop := exists u w, ws_ok u = true /\ ws_ok w = true /\ t = u ++ render x ++ w.
Lemma kid_text u x w : ws_ok u = true -> ws_ok w = true -> holds_text (if container x then render x else u ++ render x ++ w) x.
Proof.
  intros Hu Hw. destruct (container x); [exists [], []|exists u, w]; repeat split; try assumption. symmetry. cbn. apply app_nil_r.
Qed.

Lemma absorb_nth w els i e : nth_error (absorb_e w els) i = Some e -> exists e', nth_error els i = Some e' /\ e_val e' = e_val e.
Proof.
  destruct els as [|[p x q] r]; [destruct i; discriminate|]. destruct i as [|i]; cbn; intro H; [|eauto].
  injection H as <-. eexists. split; reflexivity.
Qed.
Lemma absorb_nth' w els i e : nth_error els i = Some e -> exists e', nth_error (absorb_e w els) i = Some e' /\ e_val e' = e_val e.
Proof.
  destruct els as [|[p x q] r]; [destruct i; discriminate|]. destruct i as [|i]; cbn; intro H; [|eauto].
  injection H as <-. eexists. split; reflexivity.
Qed.

Lemma listed v : wf v = true -> forall q x, q <> [] -> straight v q = true -> lookup v q = Some x ->
  exists t, In (q, t) (inside v) /\ holds_text t x.
Proof.
  intros Hwf q. revert v Hwf. induction q as [|y q IH]; intros v Hwf x Hne Hs Hl; [congruence|].
  cbn [straight lookup] in *. nbool. destruct (child v y) as [c|] eqn:Ec; [|discriminate].
  pose proof (child_lstep v y c ltac:(assumption) Ec) as Hc.
  assert (HK : forall l u w, y = l -> ws_ok u = true -> ws_ok w = true -> wf c = true ->
    exists t, In (y :: q, t) (kid_in l u c w) /\ holds_text t x).
  { intros l u w -> Hu Hw Hwc. destruct q as [|z q].
    - cbn in Hl. injection Hl as ->. eexists. split; [left; reflexivity|]. apply kid_text; assumption.
    - destruct (IH c Hwc x) as (t & Ht & Hh); [discriminate|assumption|exact Hl|]. exists t. split; [|exact Hh].
      right. apply in_map_iff. exists (z :: q, t). auto. }
  destruct v as [s|s|w els|w ms]; try discriminate.
  - rewrite inside_arr. destruct (lonely (JArr w els)); [discriminate|].
    apply lstep_arr in Hc. destruct Hc as (i & e & Hi & -> & ->).
    destruct (absorb_nth' w els i e Hi) as (e' & Hi' & He'). pose proof (absorb_e_ok w els Hwf) as Hok.
    rewrite forallb_forall in Hok. specialize (Hok e' (nth_error_In _ _ Hi')). unfold elem_ok in Hok. nbool.
    destruct (HK _ (e_pre e') (e_post e') eq_refl) as (t & Ht & Hh); try assumption; [rewrite <- He'; assumption|].
    exists t. split; [|exact Hh]. apply (els_in_intro _ 0 i e'); [exact Hi'|]. rewrite He'. exact Ht.
  - rewrite inside_obj. cbn [lstep] in Hc. destruct (find_mem y ms) as [m|] eqn:Em; [|discriminate]. injection Hc as <-.
    apply find_mem_split in Em. destruct Em as (<- & l1 & l2 & -> & _).
    rewrite wf_obj in Hwf. nbool.
    match goal with H : forallb mem_ok _ = true |- _ => rewrite forallb_forall in H; specialize (H m ltac:(apply in_elt)); unfold mem_ok in H end.
    nbool. destruct (HK (m_key m) (m_mid2 m) (m_post m) eq_refl) as (t & Ht & Hh); try assumption.
    exists t. split; [|exact Hh]. apply in_concat. exists (mem_in m). split; [apply in_map, in_elt|exact Ht].
Qed.

Lemma all_differ_nodup xs : all_differ xs = true <-> NoDup xs.
Proof.
  induction xs as [|x r IH]; cbn [all_differ]; [split; constructor|]. rewrite andb_true_iff, IH, negb_true_iff. split.
  - intros [H1 H2]. constructor; [|exact H2]. intro Hi. assert (E : existsb (bytes_eqb x) r = true).
    { apply existsb_exists. exists x. split; [exact Hi|]. destruct (bytes_eqb_spec x x); congruence. } congruence.
  - intro H. inversion H; subst. split; [|assumption]. destruct (existsb (bytes_eqb x) r) eqn:E; [|reflexivity].
    apply existsb_exists in E. destruct E as (y & Hy & E). destruct (bytes_eqb_spec x y); congruence.
Qed.

Lemma find_mem_single m (ms : list (mem jv)) : NoDup (map m_key ms) -> In m ms -> find_mem (m_key m) ms = Some m.
Proof.
  intros Hd Hi. apply in_split in Hi. destruct Hi as (l1 & l2 & ->). apply find_mem_app; [|reflexivity].
  rewrite map_app in Hd. cbn [map] in Hd. apply NoDup_remove_2 in Hd. unfold nokey. apply Forall_forall. intros m' Hm' E.
  apply Hd. apply in_or_app. left. rewrite <- E. apply in_map. exact Hm'.
Qed.

Lemma exact_index w els i : fits (render (JArr w els)) -> (i < length els)%nat -> exact_step (JArr w els) (itoa (Z.of_nat i)) = true.
Proof.
  unfold fits. intros Hf Hi. cbn [exact_step]. rewrite render_arr in Hf. pose proof (join_length (map elem_text els)) as Hj. rewrite map_length in Hj.
  assert (Hi' : (Z.of_nat i <= int64_max)%Z) by (repeat (rewrite ?app_length in Hf; cbn [length] in Hf); lia).
  rewrite atoi_itoa by (unfold in_int64, int64_min, int64_max in *; apply andb_true_iff; split; apply Z.leb_le; lia).
  destruct (bytes_eqb_spec (itoa (Z.of_nat i)) (itoa (Z.of_nat i))); congruence.
Qed.

Lemma listed_sound v : wf v = true -> fits (render v) -> no_lonely v = true -> single_keys v = true ->
  forall q t, In (q, t) (inside v) -> q <> [] /\ straight v q = true /\ exists x, lookup v q = Some x /\ holds_text t x.
Proof.
  intros Hwf Hf Hnl Hsk q. revert v Hwf Hf Hnl Hsk. induction q as [|y q IH]; intros v Hwf Hf Hnl Hsk t Hin.
  { exfalso. destruct v as [s|s|w els|w ms]; try (destruct Hin); [rewrite inside_arr in Hin|rewrite inside_obj in Hin].
    - destruct (lonely (JArr w els)); [destruct Hin|]. apply els_in_inv in Hin. destruct Hin as (i & e & _ & Hin).
      apply kid_in_inv in Hin. destruct Hin as (r & Hr & _). discriminate.
    - apply in_concat in Hin. destruct Hin as (xs & Hx & Hin). apply in_map_iff in Hx. destruct Hx as (m & <- & _).
      apply kid_in_inv in Hin. destruct Hin as (r & Hr & _). discriminate. }
  split; [discriminate|].
  assert (HK : forall u c w, lstep v y = Some c -> exact_step v y = true -> lonely v = false -> wf c = true -> no_lonely c = true -> single_keys c = true ->
    ws_ok u = true -> ws_ok w = true ->
    (q = [] /\ t = (if container c then render c else u ++ render c ++ w)) \/ In (q, t) (inside c) ->
    straight v (y :: q) = true /\ exists x, lookup v (y :: q) = Some x /\ holds_text t x).
  { intros u c w Hc Hx Hlo H1 H2 H3 Hu Hw H. destruct (lstep_child _ _ _ Hf Hc) as [Hch Hfc]. cbn [straight lookup]. rewrite Hch, Hlo, Hx. cbn [negb andb].
    destruct H as [[-> ->]|H].
    - split; [reflexivity|]. exists c. split; [reflexivity|]. apply kid_text; assumption.
    - apply (IH c) in H; try assumption. tauto. }
  destruct v as [s|s|w els|w ms]; try (destruct Hin); [rewrite inside_arr in Hin|rewrite inside_obj in Hin].
  - cbn [no_lonely single_keys] in *. nbool. destruct (lonely (JArr w els)); [destruct Hin|]. apply els_in_inv in Hin. destruct Hin as (i & e & Hi & Hin).
    pose proof (absorb_e_ok w els Hwf) as Hok.
    rewrite forallb_forall in Hok. specialize (Hok e (nth_error_In _ _ Hi)). unfold elem_ok in Hok. nbool.
    destruct (absorb_nth _ _ _ _ Hi) as (e' & Hi' & He').
    apply kid_in_inv in Hin. destruct Hin as (r & Hr & Hin). injection Hr as -> ->. cbn [Nat.add] in *.
    assert (Hin' : In e' els) by (apply nth_error_In with i; exact Hi').
    apply (HK (e_pre e) (e_val e) (e_post e)); try assumption; try reflexivity.
    + apply lstep_arr. exists i, e'. auto.
    + apply exact_index; [exact Hf|]. apply nth_error_Some. congruence.
    + rewrite <- He'. rewrite forallb_forall in *. auto.
    + rewrite <- He'. rewrite forallb_forall in *. auto.
  - cbn [no_lonely single_keys] in *. nbool. apply in_concat in Hin. destruct Hin as (xs & Hx & Hin). apply in_map_iff in Hx. destruct Hx as (m & <- & Hm).
    apply kid_in_inv in Hin. destruct Hin as (r & Hr & Hin). injection Hr as -> ->.
    rewrite wf_obj in Hwf. nbool.
    match goal with H : forallb mem_ok _ = true |- _ => rewrite forallb_forall in H; specialize (H m Hm); unfold mem_ok in H end. nbool.
    apply (HK (m_mid2 m) (m_val m) (m_post m)); try assumption; try reflexivity.
    + cbn [lstep]. rewrite find_mem_single; [reflexivity| |exact Hm]. apply all_differ_nodup. assumption.
    + rewrite forallb_forall in *. auto.
    + rewrite forallb_forall in *. auto.
Qed.

(** No path is listed twice. *)
Lemma kid_in_paths l u x w : map fst (kid_in l u x w) = map (cons l) ([] :: map fst (inside x)).
Proof. unfold kid_in. cbn [map fst]. rewrite !map_map. reflexivity. Qed.
Lemma nodup_map_cons (l : bytes) xs : NoDup xs -> NoDup (map (cons l) xs).
Proof. induction 1 as [|x r Hx _ IH]; cbn [map]; constructor; [|exact IH]. intro H. apply in_map_iff in H. destruct H as (y & E & Hy). congruence. Qed.
Lemma inside_nonempty v q t : In (q, t) (inside v) -> q <> [].
Proof.
  intro Hin. destruct v as [s|s|w els|w ms]; try (destruct Hin); [rewrite inside_arr in Hin|rewrite inside_obj in Hin].
  - destruct (lonely (JArr w els)); [destruct Hin|]. apply els_in_inv in Hin. destruct Hin as (i & e & _ & Hin).
    apply kid_in_inv in Hin. destruct Hin as (r & Hr & _). congruence.
  - apply in_concat in Hin. destruct Hin as (xs & Hx & Hin). apply in_map_iff in Hx. destruct Hx as (m & <- & _).
    apply kid_in_inv in Hin. destruct Hin as (r & Hr & _). congruence.
Qed.
Lemma kid_in_nodup l u x w : NoDup (map fst (inside x)) -> NoDup (map fst (kid_in l u x w)).
Proof.
  intro H. rewrite kid_in_paths. apply nodup_map_cons. constructor; [|exact H]. intro Hi. apply in_map_iff in Hi.
  destruct Hi as ((q & t) & E & Hi). cbn in E. subst q. exact (inside_nonempty _ _ _ Hi eq_refl).
Qed.
Lemma nodup_concat (A : Type) (h : A -> bytes) (f : A -> list (list bytes)) xs : NoDup (map h xs) -> (forall x, In x xs -> NoDup (f x)) ->
  (forall x q, In q (f x) -> hd_error q = Some (h x)) -> NoDup (concat (map f xs)).
Proof.
  induction xs as [|x r IH]; intros Hd Hf Hh; cbn [map concat]; [constructor|]. inversion Hd as [|? ? Hx Hr]; subst.
  assert (Hn : NoDup (f x)) by (apply Hf; left; reflexivity).
  assert (Hc : NoDup (concat (map f r))) by (apply IH; [exact Hr|intros; apply Hf; right; assumption|exact Hh]).
  assert (Hdis : forall q, In q (f x) -> ~ In q (concat (map f r))).
  { intros q Hq Hq'. apply in_concat in Hq'. destruct Hq' as (l & Hl & Hq'). apply in_map_iff in Hl. destruct Hl as (y & <- & Hy).
    apply Hx. apply Hh in Hq. apply Hh in Hq'. replace (h x) with (h y) by congruence. apply in_map. exact Hy. }
  revert Hn Hdis. induction (f x) as [|q l IHl]; intros Hn Hdis; [exact Hc|]. cbn [app]. inversion Hn; subst. constructor.
  - intro Hi. apply in_app_iff in Hi. destruct Hi as [Hi|Hi]; [contradiction|]. apply (Hdis q); [left; reflexivity|exact Hi].
  - apply IHl; [assumption|]. intros q' Hq'. apply Hdis. right. exact Hq'.
Qed.

Fixpoint numbered {A : Type} (k : nat) (xs : list A) : list (nat * A) := match xs with [] => [] | x :: r => (k, x) :: numbered (S k) r end.
Lemma numbered_ge (A : Type) (xs : list A) : forall k i x, In (i, x) (numbered k xs) -> (k <= i)%nat /\ In x xs.
Proof.
  induction xs as [|y r IH]; intros k i x H; [destruct H|]. destruct H as [H|H]; [injection H as <- <-; split; [lia|left; reflexivity]|].
  apply IH in H. split; [lia|right; tauto].
Qed.
Lemma els_in_numbered els : forall k, els_in k els =
  concat (map (fun x => kid_in (itoa (Z.of_nat (fst x))) (e_pre (snd x)) (e_val (snd x)) (e_post (snd x))) (numbered k els)).
Proof. induction els as [|e r IH]; intro k; [reflexivity|]. cbn [els_in numbered map concat fst snd]. rewrite IH. reflexivity. Qed.
Lemma numbered_nodup (A : Type) (xs : list A) : forall k, NoDup (map (fun x => itoa (Z.of_nat (fst x))) (numbered k xs)).
Proof.
  induction xs as [|y r IH]; intro k; cbn [numbered map fst]; constructor; [|apply IH]. intro H. apply in_map_iff in H.
  destruct H as ((i & x) & E & H). apply numbered_ge in H. apply itoa_inj in E. cbn [fst] in E. lia.
Qed.

Lemma listed_once v : single_keys v = true -> NoDup (map fst (inside v)).
Proof.
  induction v as [s|s|w els IH|w ms IH] using jv_ind'; intro Hs; cbn [single_keys] in Hs; try constructor.
  - rewrite inside_arr. destruct (lonely (JArr w els)); [constructor|]. rewrite els_in_numbered, concat_map, map_map.
    apply nodup_concat with (h := fun x => itoa (Z.of_nat (fst x))).
    + apply numbered_nodup.
    + intros (i & e) H. cbn [fst snd]. apply kid_in_nodup. apply numbered_ge in H. destruct H as [_ H].
      rewrite Forall_forall in IH. rewrite forallb_forall in Hs.
      apply In_nth_error in H. destruct H as (j & H). apply absorb_nth in H. destruct H as (e' & Hj & <-).
      apply nth_error_In in Hj. apply IH; [exact Hj|]. apply Hs. exact Hj.
    + intros (i & e) q H. cbn [fst snd] in *. rewrite kid_in_paths in H. apply in_map_iff in H. destruct H as (r & <- & _). reflexivity.
  - nbool. rewrite inside_obj, concat_map, map_map. apply nodup_concat with (h := m_key).
    + apply all_differ_nodup. assumption.
    + intros m Hm. apply kid_in_nodup. rewrite Forall_forall in IH. rewrite forallb_forall in *. auto.
    + intros m q Hq. unfold mem_in in Hq. rewrite kid_in_paths in Hq. apply in_map_iff in Hq. destruct Hq as (r & <- & _). reflexivity.
Qed.

(** ** Width: runes are characters *)
Lemma bt a x c : a <= x -> x <= c -> between (128 + a) (128 + x) (128 + c) = true.
Proof. intros H1 H2. unfold between. apply andb_true_iff. split; apply N.leb_le; lia. Qed.
Lemma utf8_len c r : character c -> rune_len (utf8 c ++ r) = length (utf8 c).
Proof.
  unfold character, utf8. intro Hc.
  assert (Hlow : forall x, between 128 (128 + x mod 64) 191 = true).
  { intro x. pose proof (N.mod_lt x 64 ltac:(lia)) as Hx. apply (bt 0 (x mod 64) 63); [apply N.le_0_l|lia]. }
  destruct (N.ltb_spec c 128) as [H1|H1].
  { cbn [app rune_len length]. unfold first_byte. rewrite (proj2 (N.ltb_lt c 128)) by exact H1. destruct r; reflexivity. }
  destruct (N.ltb_spec c 2048) as [H2|H2].
  { cbn [app length]. unfold rune_len.
    assert (Hq : 2 <= c / 64 /\ c / 64 < 32) by (split; [apply N.div_le_lower_bound; lia|apply N.div_lt_upper_bound; lia]).
    assert (E : first_byte (192 + c / 64) = Some (2%nat, 128, 191)).
    { unfold first_byte. rewrite (proj2 (N.ltb_ge _ 128)), (proj2 (N.ltb_ge _ 194)), (proj2 (N.ltb_lt _ 224)) by lia. reflexivity. }
    rewrite E, Hlow. reflexivity. }
  destruct (N.ltb_spec c 65536) as [H3|H3].
  { cbn [app length]. unfold rune_len. set (h := c / 4096).
    assert (Hh : h < 16) by (apply N.div_lt_upper_bound; lia).
    assert (Hm : c = 4096 * h + c mod 4096 /\ c mod 4096 < 4096) by (split; [apply N.div_mod; lia|apply N.mod_lt; lia]).
    assert (Hs : c / 64 mod 64 = c mod 4096 / 64 /\ c mod 4096 / 64 < 64).
    { split; [|apply N.div_lt_upper_bound; lia].
      replace (c / 64) with (c mod 4096 / 64 + h * 64).
      - rewrite N.mod_add by lia. apply N.mod_small. apply N.div_lt_upper_bound; lia.
      - rewrite <- N.div_add by lia. f_equal. lia. }
    assert (E : exists lo hi, first_byte (224 + h) = Some (3%nat, lo, hi) /\ between lo (128 + c / 64 mod 64) hi = true).
    { destruct Hs as [-> Hs2]. set (m := c mod 4096) in *. clearbody m h.
      destruct (N.eq_dec h 0) as [E0|E0]; [|destruct (N.eq_dec h 13) as [E13|E13]].
      - rewrite E0. exists 160, 191. split; [reflexivity|]. assert (32 <= m / 64) by (apply N.div_le_lower_bound; lia).
        apply (bt 32 (m / 64) 63); lia.
      - rewrite E13. exists 128, 159. split; [reflexivity|]. assert (m / 64 < 32) by (apply N.div_lt_upper_bound; lia).
        apply (bt 0 (m / 64) 31); [apply N.le_0_l|lia].
      - exists 128, 191. split.
        + unfold first_byte. rewrite (proj2 (N.ltb_ge _ 128)), (proj2 (N.ltb_ge _ 194)), (proj2 (N.ltb_ge _ 224)) by lia.
          rewrite (proj2 (N.eqb_neq _ 224)), (proj2 (N.eqb_neq _ 237)), (proj2 (N.ltb_lt _ 240)) by lia. reflexivity.
        + apply (bt 0 (m / 64) 63); [apply N.le_0_l|lia]. }
    destruct E as (lo & hi & E & HB). rewrite E, HB, Hlow. reflexivity. }
  { cbn [app length]. unfold rune_len. set (h := c / 262144).
    assert (Hh : h < 5) by (apply N.div_lt_upper_bound; lia).
    assert (Hm : c = 262144 * h + c mod 262144 /\ c mod 262144 < 262144) by (split; [apply N.div_mod; lia|apply N.mod_lt; lia]).
    assert (Hs : c / 4096 mod 64 = c mod 262144 / 4096 /\ c mod 262144 / 4096 < 64).
    { split; [|apply N.div_lt_upper_bound; lia].
      replace (c / 4096) with (c mod 262144 / 4096 + h * 64).
      - rewrite N.mod_add by lia. apply N.mod_small. apply N.div_lt_upper_bound; lia.
      - rewrite <- N.div_add by lia. f_equal. lia. }
    assert (E : exists lo hi, first_byte (240 + h) = Some (4%nat, lo, hi) /\ between lo (128 + c / 4096 mod 64) hi = true).
    { destruct Hs as [-> Hs2]. set (m := c mod 262144) in *. clearbody m h.
      destruct (N.eq_dec h 0) as [E0|E0]; [|destruct (N.eq_dec h 4) as [E4|E4]].
      - rewrite E0. exists 144, 191. split; [reflexivity|]. assert (16 <= m / 4096) by (apply N.div_le_lower_bound; lia).
        apply (bt 16 (m / 4096) 63); lia.
      - rewrite E4. exists 128, 143. split; [reflexivity|]. assert (m / 4096 < 16) by (apply N.div_lt_upper_bound; lia).
        apply (bt 0 (m / 4096) 15); [apply N.le_0_l|lia].
      - exists 128, 191. split.
        + unfold first_byte. rewrite (proj2 (N.ltb_ge _ 128)), (proj2 (N.ltb_ge _ 194)), (proj2 (N.ltb_ge _ 224)) by lia.
          rewrite (proj2 (N.eqb_neq _ 224)), (proj2 (N.eqb_neq _ 237)), (proj2 (N.ltb_ge _ 240)), (proj2 (N.eqb_neq _ 240)), (proj2 (N.ltb_lt _ 244)) by lia.
          reflexivity.
        + apply (bt 0 (m / 4096) 63); [apply N.le_0_l|lia]. }
    destruct E as (lo & hi & E & HB). rewrite E, HB, !Hlow. reflexivity. }
Qed.
Lemma utf8_ne c : (1 <= length (utf8 c))%nat.
Proof. unfold utf8. repeat destruct (_ <? _); cbn; lia. Qed.

Lemma rune_count_chars cs : Forall character cs -> forall f, (length (concat (map utf8 cs)) <= f)%nat -> rune_count f (concat (map utf8 cs)) = length cs.
Proof.
  induction 1 as [|c cs Hc _ IH]; intros f Hf; cbn [map concat] in *; [destruct f; reflexivity|].
  rewrite app_length in Hf. pose proof (utf8_ne c) as H1. destruct f as [|f]; [lia|]. cbn [rune_count length].
  destruct (utf8 c ++ concat (map utf8 cs)) as [|x y] eqn:E.
  { apply (f_equal (@length N)) in E. rewrite app_length in E. cbn in E. lia. }
  rewrite <- E, utf8_len by exact Hc. rewrite skipn_length_app. rewrite IH by lia. reflexivity.
Qed.
Theorem runes_are_characters cs : Forall character cs -> RuneCountInString (concat (map utf8 cs)) = length cs.
Proof. intro H. apply rune_count_chars; [exact H|lia]. Qed.

(** A rune of several bytes is a character; any other byte is a rune by itself. *)
Ltac Zify.zify_post_hook ::= Z.div_mod_to_equations.
Lemma utf8_two a d : 2 <= a < 32 -> d < 64 -> exists c, character c /\ utf8 c = [192 + a; 128 + d].
Proof.
  intros Ha Hd. exists (64 * a + d). split; [left; lia|]. unfold utf8.
  rewrite (proj2 (N.ltb_ge _ 128)), (proj2 (N.ltb_lt _ 2048)) by lia.
  assert (E1 : (64 * a + d) / 64 = a) by lia. assert (E2 : (64 * a + d) mod 64 = d) by lia. rewrite E1, E2. reflexivity.
Qed.
Lemma utf8_three a d e : a < 16 -> d < 64 -> e < 64 -> (a = 0 -> 32 <= d) -> (a = 13 -> d < 32) ->
  exists c, character c /\ utf8 c = [224 + a; 128 + d; 128 + e].
Proof.
  intros Ha Hd He H0 H13. exists (4096 * a + 64 * d + e). split; [unfold character; lia|]. unfold utf8.
  rewrite (proj2 (N.ltb_ge _ 128)), (proj2 (N.ltb_ge _ 2048)), (proj2 (N.ltb_lt _ 65536)) by lia.
  assert (E1 : (4096 * a + 64 * d + e) / 4096 = a) by lia. assert (E2 : (4096 * a + 64 * d + e) / 64 mod 64 = d) by lia.
  assert (E3 : (4096 * a + 64 * d + e) mod 64 = e) by lia. rewrite E1, E2, E3. reflexivity.
Qed.
Lemma utf8_four a d e g : a < 5 -> d < 64 -> e < 64 -> g < 64 -> (a = 0 -> 16 <= d) -> (a = 4 -> d < 16) ->
  exists c, character c /\ utf8 c = [240 + a; 128 + d; 128 + e; 128 + g].
Proof.
  intros Ha Hd He Hg H0 H4. exists (262144 * a + 4096 * d + 64 * e + g). split; [unfold character; lia|]. unfold utf8.
  rewrite (proj2 (N.ltb_ge _ 128)), (proj2 (N.ltb_ge _ 2048)), (proj2 (N.ltb_ge _ 65536)) by lia. set (n := 262144 * a + 4096 * d + 64 * e + g).
  assert (E1 : n / 262144 = a) by lia. assert (E2 : n / 4096 mod 64 = d) by lia.
  assert (E3 : n / 64 mod 64 = e) by lia. assert (E4 : n mod 64 = g) by lia. rewrite E1, E2, E3, E4. reflexivity.
Qed.
Ltac Zify.zify_post_hook ::= idtac.

Lemma first_byte_inv x n lo hi : first_byte x = Some (n, lo, hi) ->
  (n = 1%nat /\ x < 128) \/ (n = 2%nat /\ lo = 128 /\ hi = 191 /\ 194 <= x < 224) \/
  (n = 3%nat /\ 128 <= lo /\ hi <= 191 /\ 224 <= x < 240 /\ (x = 224 -> lo = 160) /\ (x = 237 -> hi = 159)) \/
  (n = 4%nat /\ 128 <= lo /\ hi <= 191 /\ 240 <= x < 245 /\ (x = 240 -> lo = 144) /\ (x = 244 -> hi = 143)).
Proof.
  unfold first_byte.
  repeat match goal with |- context [if ?x <? ?y then _ else _] => destruct (N.ltb_spec x y) | |- context [if ?x =? ?y then _ else _] => destruct (N.eqb_spec x y) end;
    intro Heq; try discriminate Heq; injection Heq as <- <- <-.
  all: first [left; split; [reflexivity|lia] | right; left; repeat split; lia | right; right; left; repeat split; lia | right; right; right; repeat split; lia].
Qed.
Lemma rune_len_inv x r : rune_len (x :: r) = 1%nat \/ exists c r', character c /\ x :: r = utf8 c ++ r' /\ (2 <= length (utf8 c))%nat.
Proof.
  cbn [rune_len]. destruct (first_byte x) as [[[n lo] hi]|] eqn:E; [|left; reflexivity].
  apply first_byte_inv in E. destruct E as [(-> & H)|[(-> & -> & -> & H)|[(-> & H1 & H2 & H3 & H4 & H5)|(-> & H1 & H2 & H3 & H4 & H5)]]].
  - left. reflexivity.
  - destruct r as [|c1 r]; [left; reflexivity|]. destruct (between 128 c1 191) eqn:E1; [|left; reflexivity]. right.
    apply andb_true_iff in E1. destruct E1 as [E1 E2]. apply N.leb_le in E1, E2.
    destruct (utf8_two (x - 192) (c1 - 128)) as (c & Hc & Eu); [lia|lia|]. exists c, r. split; [exact Hc|]. rewrite Eu.
    split; [|cbn; lia]. cbn [app]. repeat f_equal; lia.
  - destruct r as [|c1 [|c2 r]]; try (left; reflexivity).
    destruct (between lo c1 hi && between 128 c2 191) eqn:E1; [|left; reflexivity]. right.
    apply andb_true_iff in E1. destruct E1 as [E1 E2]. apply andb_true_iff in E1, E2. destruct E1 as [E1 E1'], E2 as [E2 E2'].
    apply N.leb_le in E1, E1', E2, E2'.
    destruct (utf8_three (x - 224) (c1 - 128) (c2 - 128)) as (c & Hc & Eu); try lia. exists c, r. split; [exact Hc|]. rewrite Eu.
    split; [|cbn; lia]. cbn [app]. repeat f_equal; lia.
  - destruct r as [|c1 [|c2 [|c3 r]]]; try (left; reflexivity).
    destruct (between lo c1 hi && between 128 c2 191 && between 128 c3 191) eqn:E1; [|left; reflexivity]. right.
    apply andb_true_iff in E1. destruct E1 as [E1 E3]. apply andb_true_iff in E1, E3. destruct E1 as [E1 E2], E3 as [E3 E3'].
    apply andb_true_iff in E1, E2. destruct E1 as [E1 E1'], E2 as [E2 E2']. apply N.leb_le in E1, E1', E2, E2', E3, E3'.
    destruct (utf8_four (x - 240) (c1 - 128) (c2 - 128) (c3 - 128)) as (c & Hc & Eu); try lia. exists c, r. split; [exact Hc|]. rewrite Eu.
    split; [|cbn; lia]. cbn [app]. repeat f_equal; lia.
Qed.
Lemma rune_len_pos x r : (1 <= rune_len (x :: r))%nat.
Proof.
  destruct (rune_len_inv x r) as [->|(c & r' & Hc & -> & Hl)]; [lia|]. rewrite utf8_len by exact Hc. lia.
Qed.
Lemma rune_count_fuel f : forall g t, (length t <= f)%nat -> (length t <= g)%nat -> rune_count f t = rune_count g t.
Proof.
  induction f as [|f IH]; intros g t Hf Hg; destruct t as [|x r]; [destruct g; reflexivity|cbn in Hf; lia|destruct g; reflexivity|].
  destruct g as [|g]; [cbn in Hg; lia|]. cbn [rune_count]. f_equal. pose proof (rune_len_pos x r) as H.
  apply IH; rewrite skipn_length; cbn [length] in *; lia.
Qed.
Theorem a_character_is_a_rune c r : character c -> RuneCountInString (utf8 c ++ r) = S (RuneCountInString r).
Proof.
  intro Hc. unfold RuneCountInString. pose proof (utf8_ne c) as H1. rewrite app_length. destruct (utf8 c ++ r) as [|x y] eqn:E.
  { apply (f_equal (@length N)) in E. rewrite app_length in E. cbn in E. lia. }
  destruct (length (utf8 c) + length r)%nat as [|f] eqn:El; [lia|]. cbn [rune_count]. rewrite <- E, utf8_len, skipn_length_app by exact Hc.
  f_equal. apply rune_count_fuel; lia.
Qed.
Theorem a_stray_byte_is_a_rune x r : (forall c r', character c -> x :: r <> utf8 c ++ r') ->
  RuneCountInString (x :: r) = S (RuneCountInString r).
Proof.
  intro H. unfold RuneCountInString. cbn [length rune_count]. destruct (rune_len_inv x r) as [->|(c & r' & Hc & E & _)].
  - reflexivity.
  - destruct (H c r' Hc E).
Qed.

(** ** GetNew *)
(** The text of a child *)
Definition sub (d : node) : res bytes := match n_down d with [] => Ok (n_value d) | _ => dive d end.
Definition packed (c : N) (l t : bytes) : bytes := (if c =? 123 then packKeyValue l t else []) ++ (if c =? 91 then t else []).

Lemma dive_down c l r ds ts : Forall2 (fun d t => sub d = Ok t) ds ts ->
  dive (Node l (c :: r) ds) =
  Ok (removelast (c :: concat (map (fun x => packed c (n_label (fst x)) (snd x) ++ [44]) (combine ds ts))) ++ [(c + 2) mod 256]).
Proof.
  intro H. cbn [dive at_ nth_error bind].
  assert (E : (fix go (ds : list node) : res bytes :=
           match ds with
           | [] => Ok []
           | (Node l v dd as d) :: r =>
               do val <- (match dd with [] => Ok v | _ => dive d end);
               do rest <- go r;
               Ok ((if c =? 123 then packKeyValue l val else []) ++ (if c =? 91 then val else []) ++ 44 :: rest)
           end) ds = Ok (concat (map (fun x => packed c (n_label (fst x)) (snd x) ++ [44]) (combine ds ts)))).
  { induction H as [|[l' v' dd] t ds ts Hd _ IH]; [reflexivity|]. cbn [combine map concat fst snd n_label].
    unfold sub in Hd. cbn [n_down n_value] in Hd. rewrite Hd. cbn [bind]. rewrite IH. cbn [bind]. unfold packed. rewrite <- !app_assoc. reflexivity. }
  rewrite E. reflexivity.
Qed.

Lemma removelast_join (c : N) (xs : list bytes) : xs <> [] -> removelast (c :: concat (map (fun x => x ++ [44]) xs)) = c :: join xs.
Proof.
  intro Hne. assert (E : removelast (concat (map (fun x => x ++ [44]) xs)) = join xs).
  { clear c. induction xs as [|x [|y r] IH]; [contradiction| |].
    - cbn [map concat join]. rewrite app_nil_r. apply removelast_last.
    - cbn [map concat join] in *. rewrite <- app_assoc. cbn [app].
      rewrite removelast_app by discriminate. f_equal.
      change (44 :: (y ++ [44]) ++ concat (map (fun x => x ++ [44]) r)) with ([44] ++ ((y ++ [44]) ++ concat (map (fun x => x ++ [44]) r))).
      rewrite removelast_app; [|destruct y; discriminate]. cbn [app]. f_equal. apply IH. discriminate. }
  destruct xs as [|x r]; [contradiction|]. cbn [map concat] in *.
  destruct ((x ++ [44]) ++ concat (map (fun x => x ++ [44]) r)) as [|a y] eqn:Ey; [destruct x; discriminate|]. cbn [removelast] in *. f_equal. exact E.
Qed.

Definition slim_e (e : elem jv) : elem jv := if container (e_val e) then Elem [] (condensed (e_val e)) [] else e.
Definition slim_m (m : mem jv) : mem jv :=
  if container (m_val m) then Mem [] (m_key m) [] [] (condensed (m_val m)) [] else Mem [] (m_key m) [] (m_mid2 m) (m_val m) (m_post m).
Lemma condensed_arr w els : condensed (JArr w els) =
  if lonely (JArr w els) then JArr w els else match els with [] => JArr w els | _ => JArr [] (map slim_e (absorb_e w els)) end.
Proof. cbn [condensed]. destruct (lonely (JArr w els)); [reflexivity|]. destruct els as [|[p x q] r]; reflexivity. Qed.
Lemma condensed_obj w ms : condensed (JObj w ms) = match ms with [] => JObj w ms | _ => JObj [] (map slim_m ms) end.
Proof. destruct ms; reflexivity. Qed.

Definition dived (v : jv) : Prop := forall l, sub (node_of l v) = Ok (render (condensed v)).

Lemma els_sub els : Forall (fun e => dived (e_val e)) els -> forall k, Forall2 (fun d t => sub d = Ok t) (els_kids k els) (map elem_text (map slim_e els)).
Proof.
  induction 1 as [|e r He _ IH]; intro k; cbn [els_kids map]; constructor; [|apply IH].
  unfold slim_e. destruct (container (e_val e)); [|reflexivity]. rewrite He. unfold elem_text. cbn [e_pre e_val e_post app]. rewrite app_nil_r. reflexivity.
Qed.

Lemma packed_arr ds ts : length ds = length ts ->
  map (fun x => packed 91 (n_label (fst x)) (snd x) ++ [44]) (combine ds ts) = map (fun x => x ++ [44]) ts.
Proof. revert ts. induction ds as [|d r IH]; intros [|t ts] H; try discriminate; [reflexivity|]. cbn [combine map]. rewrite IH by (cbn in H; lia). reflexivity. Qed.

Lemma forall2_length (A B : Type) (R : A -> B -> Prop) xs ys : Forall2 R xs ys -> length xs = length ys.
Proof. induction 1; cbn; congruence. Qed.

Theorem dive_all v : dived v.
Proof.
  induction v as [s|s|w els IH|w ms IH] using jv_ind'; intro l; [reflexivity|reflexivity| |].
  - rewrite node_of_arr, condensed_arr. destruct (lonely (JArr w els)); [reflexivity|]. destruct els as [|e r]; [reflexivity|].
    assert (HF : Forall (fun e => dived (e_val e)) (absorb_e w (e :: r))) by (inversion IH; subst; constructor; assumption).
    pose proof (els_sub _ HF 0) as HS. set (es := absorb_e w (e :: r)) in *.
    unfold sub. cbn [n_down]. destruct (els_kids 0 es) as [|k0 ks] eqn:Ek; [discriminate Ek|]. rewrite <- Ek in *.
    rewrite render_arr at 1. rewrite (dive_down 91 l _ _ _ HS), packed_arr by (apply forall2_length in HS; exact HS).
    rewrite removelast_join by discriminate. rewrite render_arr. reflexivity.
  - rewrite node_of_obj, condensed_obj. destruct ms as [|m r]; [reflexivity|]. set (xs := m :: r) in *.
    assert (HS : Forall2 (fun d t => sub d = Ok t) (map mem_kid xs)
               (map (fun m => m_mid2 (slim_m m) ++ render (m_val (slim_m m)) ++ m_post (slim_m m)) xs)).
    { clear l. induction IH as [|m' r' Hm _ IH']; cbn [map]; constructor; [|exact IH'].
      unfold mem_kid, slim_m. destruct (container (m_val m')); [|reflexivity]. rewrite Hm. cbn [m_mid2 m_val m_post app]. rewrite app_nil_r. reflexivity. }
    unfold sub. cbn [n_down]. destruct (map mem_kid xs) as [|k0 ks] eqn:Ek; [discriminate Ek|]. rewrite <- Ek in *.
    rewrite render_obj at 1. rewrite (dive_down 123 l _ _ _ HS).
    replace (map (fun x => packed 123 (n_label (fst x)) (snd x) ++ [44]) (combine (map mem_kid xs) (map (fun m => m_mid2 (slim_m m) ++ render (m_val (slim_m m)) ++ m_post (slim_m m)) xs)))
      with (map (fun x => x ++ [44]) (map mem_text (map slim_m xs))).
    + rewrite removelast_join by discriminate. rewrite render_obj. reflexivity.
    + clear - xs. induction xs as [|m' r' IH']; [reflexivity|]. cbn [map combine]. rewrite IH'. f_equal. f_equal. cbn [fst snd].
      unfold packed, packKeyValue. cbn [N.eqb Pos.eqb]. rewrite app_nil_r. unfold mem_kid, slim_m, mem_text.
      destruct (container (m_val m')); cbn [m_pre m_key m_mid m_mid2 m_val m_post app n_label]; [rewrite node_label|]; reflexivity.
Qed.

Lemma condensed_wf v : wf v = true -> wf (condensed v) = true.
Proof.
  induction v as [s|s|w els IH|w ms IH] using jv_ind'; intro Hw; [exact Hw|exact Hw| |].
  - rewrite condensed_arr. destruct (lonely (JArr w els)); [exact Hw|]. destruct els as [|e r]; [exact Hw|].
    pose proof (absorb_e_ok w (e :: r) Hw) as Hok.
    assert (HF : Forall (fun e => wf (e_val e) = true -> wf (condensed (e_val e)) = true) (absorb_e w (e :: r))) by (inversion IH; subst; constructor; assumption).
    set (es := absorb_e w (e :: r)) in *. clearbody es. rewrite wf_arr. cbn [ws_ok forallb andb].
    induction HF as [|e' es' He _ IH']; [reflexivity|]. cbn [map forallb] in *. nbool. rewrite IH' by assumption. rewrite andb_true_r.
    unfold slim_e. destruct (container (e_val e')); [|assumption]. unfold elem_ok in *. nbool. cbn [e_pre e_val e_post]. rewrite He by assumption. reflexivity.
  - rewrite condensed_obj. destruct ms as [|m r]; [exact Hw|]. set (xs := m :: r) in *. clearbody xs. rewrite wf_obj in *. nbool. cbn [ws_ok forallb andb].
    match goal with H : forallb mem_ok xs = true |- _ => revert H end. clear - IH. induction IH as [|m' r' Hm _ IH']; [reflexivity|]. cbn [map forallb]. intro H. nbool.
    rewrite IH' by assumption. rewrite andb_true_r. unfold slim_m. destruct (container (m_val m')); unfold mem_ok in *; nbool; cbn [m_pre m_key m_mid m_mid2 m_val m_post].
    + rewrite Hm by assumption. repeat (apply andb_true_iff; split); try assumption; reflexivity.
    + repeat (apply andb_true_iff; split); try assumption; reflexivity.
Qed.

Lemma condensed_content v : content (condensed v) = content v.
Proof.
  induction v as [s|s|w els IH|w ms IH] using jv_ind'; [reflexivity|reflexivity| |].
  - rewrite condensed_arr. destruct (lonely (JArr w els)); [reflexivity|]. destruct els as [|e r]; [reflexivity|].
    assert (HC : forall e, content (condensed (e_val e)) = content (e_val e) -> content (e_val (slim_e e)) = content (e_val e))
      by (intros x Hx; unfold slim_e; destruct (container (e_val x)); [exact Hx|reflexivity]).
    inversion IH as [|? ? H1 H2]; subst. cbn [content absorb_e map]. f_equal. f_equal.
    + apply (HC (Elem (w ++ e_pre e) (e_val e) (e_post e))). exact H1.
    + rewrite map_map. apply map_ext_in. intros x Hx. apply HC. rewrite Forall_forall in H2. apply H2. exact Hx.
  - rewrite condensed_obj. destruct ms as [|m r]; [reflexivity|]. set (xs := m :: r) in *. clearbody xs. cbn [content]. f_equal. rewrite map_map.
    apply map_ext_in. intros x Hx. rewrite Forall_forall in IH. specialize (IH x Hx). unfold slim_m.
    destruct (container (m_val x)); cbn [m_key m_val]; congruence.
Qed.

(** ** Walking from Parse on *)
Lemma find_els y els : forall k, find_node y (els_kids k els) =
  option_map (fun e => kid y (e_pre e) (e_val e) (e_post e)) (nth_label k y els).
Proof.
  induction els as [|e r IH]; intro k; [reflexivity|]. cbn [els_kids find_node nth_label].
  destruct (container (e_val e)) eqn:Hc.
  - rewrite node_label. destruct (bytes_eqb_spec (itoa (Z.of_nat k)) y) as [<-|]; [|apply IH]. cbn [option_map]. unfold kid. rewrite Hc. reflexivity.
  - cbn [n_label]. destruct (bytes_eqb_spec (itoa (Z.of_nat k)) y) as [<-|]; [|apply IH]. cbn [option_map]. unfold kid. rewrite Hc. reflexivity.
Qed.
Lemma mem_kid_label m : n_label (mem_kid m) = m_key m.
Proof. unfold mem_kid. destruct (container (m_val m)); [apply node_label|reflexivity]. Qed.
Lemma find_mems y ms : find_node y (map mem_kid ms) = option_map mem_kid (find_mem y ms).
Proof.
  induction ms as [|m r IH]; [reflexivity|]. cbn [map find_node find_mem find]. rewrite mem_kid_label.
  destruct (bytes_eqb (m_key m) y); [reflexivity|exact IH].
Qed.

(** Whatever is reached is the node of the value addressed. *)
Lemma walk_kid q : forall v l u w m, wf v = true -> fits (render v) -> ws_ok u = true -> ws_ok w = true -> n_walk (kid l u v w) q = Ok m ->
  exists x l' u' w', lookup v q = Some x /\ wf x = true /\ ws_ok u' = true /\ ws_ok w' = true /\ m = kid l' u' x w'.
Proof.
  induction q as [|y q IH]; intros v l u w m Hv Hf Hu Hw H.
  - injection H as <-. exists v, l, u, w. auto.
  - cbn [n_walk lookup] in *. unfold kid in H.
    destruct v as [s|s|w0 els|w0 ms]; cbn [container n_down find_node] in H; try discriminate H.
    + rewrite node_of_arr in H. cbn [n_down] in H. destruct (lonely (JArr w0 els)); [discriminate H|]. rewrite find_els in H.
      destruct (nth_label 0 y (absorb_e w0 els)) as [e|] eqn:En; [|discriminate H]. cbn [option_map] in H.
      apply nth_label_spec in En. destruct En as (i & Hi & Hy). cbn [Nat.add] in Hy.
      pose proof (absorb_e_ok w0 els Hv) as Hok. rewrite forallb_forall in Hok. specialize (Hok e (nth_error_In _ _ Hi)). unfold elem_ok in Hok. nbool.
      destruct (absorb_nth _ _ _ _ Hi) as (e' & Hi' & He').
      assert (Hs : lstep (JArr w0 els) y = Some (e_val e)) by (apply lstep_arr; exists i, e'; auto).
      destruct (lstep_child _ _ _ Hf Hs) as [Hc Hf']. rewrite Hc. eapply IH; [| | | |exact H]; assumption.
    + rewrite node_of_obj in H. cbn [n_down] in H. rewrite find_mems in H.
      destruct (find_mem y ms) as [m0|] eqn:Em; [|discriminate H]. cbn [option_map] in H.
      assert (Hs : lstep (JObj w0 ms) y = Some (m_val m0)) by (cbn [lstep]; rewrite Em; reflexivity).
      destruct (lstep_child _ _ _ Hf Hs) as [Hc Hf']. rewrite Hc.
      apply find_mem_split in Em. destruct Em as (_ & l1 & l2 & -> & _). rewrite wf_obj in Hv. nbool.
      match goal with H : forallb mem_ok _ = true |- _ => rewrite forallb_forall in H; specialize (H m0 ltac:(apply in_elt)); unfold mem_ok in H end. nbool.
      eapply IH; [| | | |exact H]; assumption.
Qed.

Lemma sub_kid l u x w : sub (kid l u x w) = Ok (if container x then render (condensed x) else u ++ render x ++ w).
Proof. unfold kid. destruct (container x) eqn:Hc; [apply dive_all|reflexivity]. Qed.
Lemma condensed_leaf x : container x = false -> condensed x = x.
Proof. destruct x; try discriminate; reflexivity. Qed.

Lemma get_new_sub p q : P_GetNew p q = match n_walk (p_core p) q with Ok n => do t <- sub n; cleanValue t | Err _ => Ok [] | Panic => Panic end.
Proof. unfold P_GetNew, sub. destruct (n_walk (p_core p) q) as [n| |]; try reflexivity. destruct (n_down n); reflexivity. Qed.

Theorem get_new d p q : wf_doc d = true -> fits (text d) -> Parse (text d) = Ok p ->
  (exists x, lookup (d_val d) q = Some x /\ wf x = true /\ P_GetNew p q = Ok (bare (condensed x))) \/
  (P_GetNew p q = Ok [] /\ (straight (d_val d) q = true -> lookup (d_val d) q = None)).
Proof.
  intros Hw Hf Hp. destruct (container (d_val d)) eqn:Hc; [|pose proof (parse_leaf d Hw Hc); congruence].
  rewrite parse_exact in Hp by assumption. injection Hp as <-. rewrite get_new_sub. cbn [p_core].
  assert (Hv : wf (d_val d) = true) by (unfold wf_doc in Hw; nbool; assumption).
  assert (Hf' : fits (render (d_val d))) by (unfold fits, text in *; repeat rewrite app_length in Hf; lia).
  destruct (n_walk (node_of (b "0") (d_val d)) q) as [m|e|] eqn:Ew.
  - left. replace (node_of (b "0") (d_val d)) with (kid (b "0") [] (d_val d) []) in Ew by (unfold kid; rewrite Hc; reflexivity).
    destruct (walk_kid q _ (b "0") [] [] _ Hv Hf' eq_refl eq_refl Ew) as (x & l' & u' & w' & Hl & Hx & Hu & Hw' & ->). exists x. split; [exact Hl|]. split; [exact Hx|].
    rewrite sub_kid. cbn [bind]. destruct (container x) eqn:Hcx.
    + apply clean_render. apply condensed_wf. exact Hx.
    + rewrite condensed_leaf by exact Hcx. apply cleanValue_value; assumption.
  - right. split; [reflexivity|]. intro Hs. destruct (lookup (d_val d) q) as [x|] eqn:El; [|reflexivity]. exfalso.
    pose proof (node_agrees (d_val d) Hv (b "0")) as Ha. apply agrees_kids in Ha. destruct Ha as [_ Hk].
    destruct (walk_found counted q _ _ _ Hk El Hs) as (m & Hm & _). congruence.
  - exfalso. pose proof (node_agrees (d_val d) Hv (b "0")) as Ha. apply agrees_kids in Ha. destruct Ha as [_ Hk].
    destruct (walk_total counted q _ _ Hk) as [(m & Hm)|(q0 & x & r & _ & He & _)]; congruence.
Qed.

(** ** Typed getters *)
Definition typed_agree {F : Type} (ff : bytes -> option F) (p : parser) (json : bytes) (q : list bytes) : Prop :=
  P_GetString p q = GetString json q /\ P_GetInt p q = GetInt json q /\ P_GetBool p q = GetBool json q /\ P_GetFloat ff p q = GetFloat ff json q /\
  P_GetStringArray p q = GetStringArray json q /\ P_GetIntArray p q = GetIntArray json q /\ P_GetBoolArray p q = GetBoolArray json q /\
  P_GetFloatArray ff p q = GetFloatArray ff json q.
Lemma same_text_typed F (ff : bytes -> option F) p json q t : P_Get p q = Ok t -> Get json q = Ok t -> typed_agree ff p json q.
Proof.
  intros Hp Hg. unfold typed_agree, P_GetInt, P_GetBool, P_GetFloat, P_GetStringArray, P_GetIntArray, P_GetBoolArray, P_GetFloatArray, P_GetString,
    GetInt, GetBool, GetFloat, GetStringArray, GetIntArray, GetBoolArray, GetFloatArray, GetString.
  rewrite Hp, Hg. repeat split.
Qed.

Lemma parsed_typed F (ff : bytes -> option F) d p q v : wf_doc d = true -> Parse (text d) = Ok p ->
  lookup (d_val d) q = Some v -> straight (d_val d) q = true -> typed_agree ff p (text d) q.
Proof.
  intros Hw Hp Hl Hs. destruct (container (d_val d)) eqn:Hc; [|pose proof (parse_leaf d Hw Hc); congruence].
  destruct (parse_total d Hw Hc) as (p' & Hp' & Hj & Ha). replace p' with p in * by congruence.
  destruct q as [|x q]; [apply (same_text_typed _ _ _ _ _ (text d)); [cbn; unfold P_JSON in Hj; rewrite Hj; reflexivity|reflexivity]|].
  destruct Ha as (_ & Ha & _). destruct (Ha (x :: q) v Hl ltac:(discriminate) Hs) as [H1 H2].
  apply (same_text_typed _ _ _ _ _ (bare v)); assumption.
Qed.
Lemma history_typed F (ff : bytes -> option F) d ops c' : wf_doc d = true -> container (d_val d) = true -> p_lawful true d ops c' ->
  exists p p' d', Parse (text d) = Ok p /\ p_run ops p = Some p' /\ run ops (text d) = Some (text d') /\
    wf_doc d' = true /\ content (d_val d') = c' /\
    forall q v, lookup (d_val d') q = Some v -> straight (d_val d') q = true -> typed_agree ff p' (text d') q.
Proof.
  intros Hw Hc Hl. destruct (parse_history d ops c' Hw Hc Hl) as (p & d' & p' & Hp & Hr & Hrun & Hw' & Hc' & Hj & Ha & _).
  exists p, p', d'. repeat (split; [assumption|]). intros q v Hlo Hs.
  destruct q as [|x q]; [apply (same_text_typed _ _ _ _ _ (text d')); [cbn; rewrite Hj; reflexivity|reflexivity]|].
  destruct (Ha (x :: q) v Hlo ltac:(discriminate) Hs) as [H1 H2]. apply (same_text_typed _ _ _ _ _ (bare v)); assumption.
Qed.
Lemma typed_fails F (ff : bytes -> option F) p q e : P_Get p q = Err e ->
  P_GetString p q = Err e /\ P_GetInt p q = Err e /\ P_GetBool p q = Err e /\ P_GetFloat ff p q = Err e /\
  P_GetStringArray p q = Err e /\ P_GetIntArray p q = Err e /\ P_GetBoolArray p q = Err e /\ P_GetFloatArray ff p q = Err e.
Proof.
  intro H. unfold P_GetInt, P_GetBool, P_GetFloat, P_GetStringArray, P_GetIntArray, P_GetBoolArray, P_GetFloatArray, P_GetString.
  rewrite H. repeat split.
Qed.
Lemma get_new_content d p q : wf_doc d = true -> fits (text d) -> Parse (text d) = Ok p ->
  (exists v, lookup (d_val d) q = Some v /\ P_GetNew p q = Ok (bare (condensed v)) /\
     wf (condensed v) = true /\ content (condensed v) = content v) \/
  (P_GetNew p q = Ok [] /\ (straight (d_val d) q = true -> lookup (d_val d) q = None)).
Proof.
  intros Hw Hf Hp. destruct (get_new d p q Hw Hf Hp) as [(x & Hl & Hx & Hg)|H]; [left|right; exact H].
  exists x. split; [exact Hl|]. split; [exact Hg|]. split; [|apply condensed_content]. apply condensed_wf. exact Hx.
Qed.
Lemma listed_all v q x : wf v = true -> q <> [] -> straight v q = true -> lookup v q = Some x ->
  exists t, In (q, t) (inside v) /\ exists u w, ws_ok u = true /\ ws_ok w = true /\ t = u ++ render x ++ w.
Proof. intros Hw. apply listed. exact Hw. Qed.
Lemma listed_only v q t : wf v = true -> fits (render v) -> no_lonely v = true -> single_keys v = true -> In (q, t) (inside v) ->
  q <> [] /\ straight v q = true /\
  exists x, lookup v q = Some x /\ exists u w, ws_ok u = true /\ ws_ok w = true /\ t = u ++ render x ++ w.
Proof. intros Hw Hf Hn Hs Hin. exact (listed_sound v Hw Hf Hn Hs q t Hin). Qed.
