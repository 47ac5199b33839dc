(** Where the Parser finds a container that was put in. *)
From Coq Require Import String.
From Verif Require Import GoStd Core Skip Focus CoreProofs Json Spec Errors Api Iter Typed Parser SpecParser SpecNest ParserProofs ParserGet ParserUpd ParserOps ParserInsert ParserText.

Local Open Scope N_scope.

(** ** Walking into a changed tree *)
Lemma walk_app q : forall n r, n_walk n (q ++ r) = do m <- n_walk n q; n_walk m r.
Proof.
  induction q as [|x q IH]; intros n r; [reflexivity|]. cbn [app n_walk]. destruct (find_node x (n_down n)) as [c|]; [apply IH|reflexivity].
Qed.
Lemma walk_kids x r : forall n m, n_down n = n_down m -> n_walk n (x :: r) = n_walk m (x :: r).
Proof. intros n m E. cbn [n_walk]. rewrite E. reflexivity. Qed.
Lemma walk_upd q f : (forall m, n_label (f m) = n_label m) -> forall n r m, n_walk n q = Ok m -> n_walk (upd_node q f n) (q ++ r) = n_walk (f m) r.
Proof.
  intro Hf. induction q as [|x q IH]; intros n r m H; cbn [n_walk] in H; [injection H as ->; reflexivity|].
  cbn [app n_walk]. rewrite upd_node_down, find_upd_first by (intro; apply upd_node_label; exact Hf). rewrite bytes_eqb_refl.
  destruct (find_node x (n_down n)) as [c|]; [|discriminate H]. cbn [option_map]. apply IH. exact H.
Qed.
Lemma walk_value a t : forall n x r, n_walk (upd_node a (with_value t) n) (a ++ x :: r) = n_walk n (a ++ x :: r).
Proof.
  induction a as [|y a IH]; intros n x r; [cbn [app upd_node]; apply walk_kids, with_value_down|].
  cbn [app n_walk]. rewrite upd_node_down, find_upd_first by (intro; apply upd_node_label, with_value_label). rewrite bytes_eqb_refl.
  destruct (find_node y (n_down n)) as [c|]; [cbn [option_map]; apply IH|reflexivity].
Qed.

(** [q] is below every path of [l]. *)
Definition beneath (l : list (list bytes)) (q : list bytes) : Prop := Forall (fun a => exists x r, q = a ++ x :: r) l.
Lemma walk_refresh l : forall p p' q, refresh l p = PRet p' None -> beneath l q -> n_walk (p_core p') q = n_walk (p_core p) q.
Proof.
  induction l as [|a l IH]; intros p p' q H Hq; cbn [refresh] in H; [injection H as <-; reflexivity|].
  inversion Hq as [|? ? (x & r & E) Hq']; subst. destruct (Get (p_json p) a) as [v|e|]; try discriminate H.
  rewrite (IH _ _ _ H Hq'). cbn [p_core]. apply walk_value.
Qed.
Lemma beneath_ancestors path x r : beneath (ancestors path) (path ++ x :: r).
Proof.
  unfold beneath. revert x r. induction path as [|y path IH] using rev_ind; intros x r; [constructor|].
  rewrite ancestors_snoc. constructor; [eauto|]. rewrite <- app_assoc. cbn [app]. apply IH.
Qed.
Lemma beneath_tl path r : path <> [] -> beneath (tl (ancestors path)) (path ++ r).
Proof.
  intro H. destruct path as [|y path _] using rev_ind; [contradiction|]. rewrite ancestors_snoc. cbn [tl]. rewrite <- app_assoc. apply beneath_ancestors.
Qed.

(** ** The nodes of a container *)
Lemma pCore_container v : wf v = true -> container v = true -> pCore (render v) = Ok [node_of (b "0") v].
Proof.
  intros Hw Hc. pose proof (pCore_exact (Doc [] v [])) as H. unfold text in H. cbn [d_pre d_val d_post app] in H. rewrite app_nil_r in H.
  apply H; [unfold wf_doc; cbn; rewrite Hw; reflexivity|exact Hc].
Qed.
Lemma container_opens v : wf v = true -> container v = true -> (2 <=? length (render v))%nat && opens (render v) = true.
Proof. intros Hw Hc. destruct (open_container v Hw) as [H1 H2]; [unfold leaf; rewrite Hc; reflexivity|exact H1]. Qed.


Lemma P_Get_ne p q : q <> [] -> P_Get p q = do n <- n_walk (p_core p) q; cleanValue (n_value n).
Proof. destruct q; [contradiction|reflexivity]. Qed.
Lemma walk_sunk p q v n : wf v = true -> n_walk (p_core p) q = Ok n -> n_down n = [node_of (b "0") v] -> sunk p q v.
Proof.
  intros Hw Hn Hd. assert (Hne : forall x r, q ++ x :: r <> []) by (destruct q; discriminate). split.
  - intros r u Hl Hs. rewrite P_Get_ne by apply Hne. rewrite walk_app, Hn. cbn [bind n_walk]. rewrite Hd. cbn [find_node].
    rewrite node_label, bytes_eqb_refl.
    pose proof (node_agrees v Hw (b "0")) as Ha. change agrees with (agreesG counted) in Ha. pose proof Ha as Ha0. apply agrees_kids in Ha. destruct Ha as [Hsh Hk].
    destruct (walk_found counted r _ _ _ Hk Hl Hs) as (m & Hm & Ha' & _). rewrite Hm. cbn [bind].
    destruct r as [|y r]; [cbn in Hl, Hm; injection Hl as <-; injection Hm as <-; apply shows_clean; exact Hsh|].
    specialize (Ha' ltac:(discriminate)). apply agrees_kids in Ha'. apply shows_clean. apply Ha'.
  - intros x r Hx. rewrite P_Get_ne by apply Hne. rewrite walk_app, Hn. cbn [bind n_walk]. rewrite Hd. cbn [find_node]. rewrite node_label.
    destruct (bytes_eqb_spec (b "0") x) as [E|E]; [congruence|reflexivity].
Qed.
Lemma walk_barren p q n : n_walk (p_core p) q = Ok n -> n_down n = [] -> barren p q.
Proof.
  intros Hn Hd x r. rewrite P_Get_ne by (destruct q; discriminate). rewrite walk_app, Hn. cbn [bind n_walk]. rewrite Hd. reflexivity.
Qed.
Lemma walk_shown p q v n : q <> [] -> wf v = true -> container v = true -> n_walk (p_core p) q = Ok n -> n_value n = render v -> P_Get p q = Ok (render v).
Proof.
  intros Hq Hw Hc Hn Hv. rewrite P_Get_ne by exact Hq. rewrite Hn. cbn [bind]. rewrite Hv, (clean_render v Hw). f_equal. apply bare_container. exact Hc.
Qed.

(** GetNew of such a node *)
Lemma clean_ends c m d : space c = false -> (c =? 34) = false -> space d = false -> cleanValue (c :: m ++ [d]) = Ok (c :: m ++ [d]).
Proof.
  intros Hc Hq Hd. unfold cleanValue. assert (E1 : trim1 (c :: m ++ [d]) = c :: m ++ [d]) by (destruct m; cbn [app trim1]; rewrite Hc; reflexivity).
  rewrite E1. change (c :: m ++ [d]) with ((c :: m) ++ [d]). rewrite rev_app_distr. cbn [rev app].
  assert (E2 : trim1 (d :: rev m ++ [c]) = d :: rev m ++ [c]) by (destruct (rev m); cbn [app trim1]; rewrite Hd; reflexivity).
  rewrite E2. cbn [rev]. rewrite rev_app_distr, rev_involutive. cbn [rev app]. cbn [hd]. rewrite Hq. reflexivity.
Qed.
Lemma dive_shape l t d ds x : dive (Node l t (d :: ds)) = Ok x -> exists c m, hd_error t = Some c /\ x = c :: m ++ [(c + 2) mod 256].
Proof.
  cbn [dive]. destruct t as [|c t]; [discriminate|]. cbn [at_ nth_error bind]. destruct d as [l0 v0 dd].
  match goal with |- (do items <- (do val <- ?r; _); _) = _ -> _ => destruct r as [y|e|]; try discriminate end. cbn [bind].
  match goal with |- (do items <- (do rest <- ?r; _); _) = _ -> _ => destruct r as [z|e|]; try discriminate end. cbn [bind].
  match goal with |- Ok (removelast (c :: ?i) ++ _) = _ -> _ => assert (Hi : i <> []) by (destruct (c =? 123), (c =? 91); intro E; repeat (apply app_eq_nil in E; destruct E as [? E]); discriminate E); revert Hi; generalize i end.
  intros i Hi E. injection E as <-. exists c, (removelast i). destruct i; [congruence|]. split; reflexivity.
Qed.
Lemma dive_one l t l0 v0 ds : dive (Node l t [Node l0 v0 ds]) =
  do c <- at_ t 0; do val <- (match ds with [] => Ok v0 | _ => dive (Node l0 v0 ds) end);
  Ok (removelast (c :: (if c =? 123 then packKeyValue l0 val else []) ++ (if c =? 91 then val else []) ++ [44]) ++ [(c + 2) mod 256]).
Proof.
  change (dive (Node l t [Node l0 v0 ds])) with
    (do c <- at_ t 0; do items <- (do val <- (match ds with [] => Ok v0 | _ => dive (Node l0 v0 ds) end); do rest <- Ok (@nil N); Ok ((if c =? 123 then packKeyValue l0 val else []) ++ (if c =? 91 then val else []) ++ 44 :: rest)); Ok (removelast (c :: items) ++ [(c + 2) mod 256])).
  destruct (at_ t 0) as [c|e|]; cbn [bind]; try reflexivity. generalize (match ds with [] => Ok v0 | _ => dive (Node l0 v0 ds) end). intros [x|e|]; reflexivity.
Qed.
Lemma walk_doubled p q v n : wf v = true -> container v = true -> n_walk (p_core p) q = Ok n -> n_value n = render v -> n_down n = [node_of (b "0") v] -> doubled p q v.
Proof.
  intros Hw Hc Hn Hv Hd pv fresh HP HG.
  assert (Epv : pv = Par (node_of (b "0") v) (render v)).
  { unfold Parse in HP. rewrite (pCore_container v Hw Hc) in HP. cbn [bind] in HP. congruence. }
  subst pv. unfold P_GetNew in HG. cbn [n_walk p_core] in HG.
  assert (HN : exists ds, node_of (b "0") v = Node (b "0") (render v) ds).
  { destruct v as [?|?|w els|w ms]; try discriminate Hc; [rewrite node_of_arr|rewrite node_of_obj]; eauto. }
  destruct HN as (ds & EN). rewrite EN in *. cbn [n_down n_value] in HG.
  assert (Hb : exists c d m, render v = c :: m ++ [d] /\ (c = 91 /\ d = 93 \/ c = 123 /\ d = 125) /\ c = match v with JArr _ _ => 91 | _ => 123 end).
  { destruct v as [?|?|w els|w ms]; try discriminate Hc; [exists 91, 93, (w ++ join (map elem_text els))|exists 123, 125, (w ++ join (map mem_text ms))];
      [rewrite render_arr|rewrite render_obj]; rewrite <- app_assoc; auto. }
  destruct Hb as (c & d & m & Er & Hcd & Hck).
  assert (Hfresh : (match ds with [] => Ok (render v) | _ => dive (Node (b "0") (render v) ds) end) = Ok fresh).
  { destruct ds as [|d0 ds]; [rewrite Er in *; rewrite clean_ends in HG; [congruence|..]; destruct Hcd as [[-> ->]|[-> ->]]; reflexivity|].
    destruct (dive (Node (b "0") (render v) (d0 :: ds))) as [t|e|] eqn:Ed; cbn [bind] in HG; try discriminate HG.
    destruct (dive_shape _ _ _ _ _ Ed) as (c1 & m1 & E1 & E2). rewrite Er in E1. cbn in E1. injection E1 as <-.
    rewrite E2 in HG. rewrite clean_ends in HG by (destruct Hcd as [[-> ->]|[-> ->]]; reflexivity). rewrite E2. exact HG. }
  assert (Hf : exists m', fresh = c :: m' ++ [d]).
  { destruct ds as [|d0 ds]; [exists m; congruence|]. destruct (dive_shape _ _ _ _ _ Hfresh) as (c1 & m1 & E1 & E2). rewrite Er in E1. cbn in E1. injection E1 as <-.
    exists m1. rewrite E2. destruct Hcd as [[-> ->]|[-> ->]]; reflexivity. }
  destruct n as [ln vn dn]. cbn [n_value n_down] in *. subst vn dn.
  unfold P_GetNew. rewrite Hn. cbn [n_down].
  assert (Ed : dive (Node ln (render v) [Node (b "0") (render v) ds]) = Ok (match v with JArr _ _ => 91 :: fresh ++ [93] | _ => b "{""0"":" ++ fresh ++ [125] end)).
  { rewrite dive_one, Hfresh. rewrite Er. cbn [at_ nth_error bind app].
    destruct v as [?|?|w els|w ms]; try discriminate Hc; subst c; destruct Hcd as [[E1 E2]|[E1 E2]]; try discriminate E1; cbn [N.eqb Pos.eqb app].
    - f_equal. change (91 :: fresh ++ [44]) with ((91 :: fresh) ++ [44]). rewrite removelast_last. reflexivity.
    - f_equal. unfold packKeyValue. rewrite app_comm_cons. rewrite removelast_last. reflexivity. }
  rewrite Ed. cbn [bind]. destruct v as [?|?|w els|w ms]; try discriminate Hc; [apply clean_ends; reflexivity|].
  cbn [app b]. change (cleanValue (123 :: (34 :: 48 :: 34 :: 58 :: fresh) ++ [125]) = Ok (123 :: (34 :: 48 :: 34 :: 58 :: fresh) ++ [125])). apply clean_ends; reflexivity.
Qed.

Definition down_text (d : node) : res bytes := match n_down d with [] => Ok (n_value d) | _ => dive d end.
Fixpoint down_texts (c : N) (ds : list node) : res bytes :=
  match ds with
  | [] => Ok []
  | d :: r => do val <- down_text d; do rest <- down_texts c r;
      Ok ((if c =? 123 then packKeyValue (n_label d) val else []) ++ (if c =? 91 then val else []) ++ 44 :: rest)
  end.
Lemma dive_texts l t ds : dive (Node l t ds) = do c <- at_ t 0; do items <- down_texts c ds; Ok (removelast (c :: items) ++ [(c + 2) mod 256]).
Proof.
  cbn [dive]. destruct (at_ t 0) as [c|e|]; cbn [bind]; [|reflexivity|reflexivity]. f_equal.
  induction ds as [|[l0 v0 dd] ds IH]; [reflexivity|]. cbn [down_texts]. unfold down_text. cbn [n_down n_value n_label]. rewrite <- IH. reflexivity.
Qed.
Lemma texts_err c ds : (forall d, In d ds -> forall e, dive d <> Err e) -> forall e, down_texts c ds <> Err e.
Proof.
  induction ds as [|d ds IH]; intros H e; [discriminate|]. cbn [down_texts].
  assert (Hd : forall e, down_text d <> Err e) by (unfold down_text; destruct (n_down d); [discriminate|apply (H _ (or_introl eq_refl))]).
  destruct (down_text d) as [x|e0|]; [|destruct (Hd e0 eq_refl)|discriminate]. cbn [bind]. specialize (IH (fun d K => H d (or_intror K))).
  destruct (down_texts c ds) as [y|e0|]; [discriminate|destruct (IH e0 eq_refl)|discriminate].
Qed.
Fixpoint dive_err n : forall e, dive n <> Err e.
Proof.
  destruct n as [l t ds]. assert (H : forall d, In d ds -> forall e, dive d <> Err e).
  { induction ds as [|d0 ds IH]; [intros d []|]. intros d [<-|K]; [apply dive_err|apply IH; exact K]. }
  intro e. rewrite dive_texts. destruct t as [|c t]; [discriminate|]. cbn [at_ nth_error bind]. pose proof (texts_err c ds H) as G.
  destruct (down_texts c ds) as [m|e0|]; [discriminate|destruct (G e0 eq_refl)|discriminate].
Qed.
Lemma dive_panics l t ds d : In d ds -> n_down d <> [] -> dive d = Panic -> dive (Node l t ds) = Panic.
Proof.
  intros Hin Hd HP. rewrite dive_texts. destruct t as [|c t]; [reflexivity|]. cbn [at_ nth_error bind].
  assert (G : down_texts c ds = Panic); [|rewrite G; reflexivity].
  induction ds as [|d0 ds IH]; [destruct Hin|]. cbn [down_texts]. unfold down_text at 1. destruct Hin as [<-|Hin].
  - destruct (n_down d0); [congruence|]. rewrite HP. reflexivity.
  - rewrite (IH Hin). assert (He : forall e, (match n_down d0 with [] => Ok (n_value d0) | _ => dive d0 end) <> Err e) by (destruct (n_down d0); [discriminate|apply dive_err]).
    destruct (match n_down d0 with [] => Ok (n_value d0) | _ => dive d0 end) as [x|e0|]; [reflexivity|destruct (He e0 eq_refl)|reflexivity].
Qed.
Lemma walk_single p q v n : wf v = true -> container v = true -> n_walk (p_core p) q = Ok n -> n_value n = render v -> n_down n = [] -> P_GetNew p q = Ok (render v).
Proof. intros Hw Hc E Hv Hd. unfold P_GetNew. rewrite E, Hd, Hv, (clean_render v Hw). f_equal. apply bare_container. exact Hc. Qed.

(** ** Set *)
Theorem set_nested p v q p' : wf v = true -> container v = true -> P_Set p (render v) q = PRet p' None ->
  P_Get p' q = Ok (render v) /\ sunk p' q v /\ doubled p' q v.
Proof.
  intros Hw Hc H. unfold P_Set in H. destruct q as [|x q]; [discriminate H|]. set (path := x :: q) in *.
  destruct (n_walk (p_core p) path) as [n|e|] eqn:En; cbn [p_bind] in H; try discriminate H.
  rewrite (container_opens v Hw Hc), (pCore_container v Hw Hc) in H. cbn [p_pure] in H.
  set (f := fun n => Node (n_label n) (render v) [node_of (b "0") v]) in *.
  assert (Hf : forall m, n_label (f m) = n_label m) by reflexivity.
  assert (K : forall j, refresh (tl (ancestors path)) (Par (upd_node path f (p_core p)) j) = PRet p' None -> n_walk (p_core p') path = Ok (f n)).
  { intros j R. pose proof (walk_refresh _ _ _ (path ++ []) R (beneath_tl path [] ltac:(discriminate))) as E. cbn [p_core] in E.
    rewrite (walk_upd path f Hf _ [] n En) in E. rewrite app_nil_r in E. exact E. }
  assert (E : n_walk (p_core p') path = Ok (f n)).
  { unfold take_text in H. destruct (Set_ (p_json p) (render v) path); cbn [p_core] in H; [exact (K _ H)|exact (K _ H)|discriminate H]. }
  split; [apply (walk_shown _ _ _ (f n)); [discriminate|exact Hw|exact Hc|exact E|reflexivity]|split; [apply (walk_sunk _ _ _ (f n) Hw E); reflexivity|apply (walk_doubled _ _ _ (f n) Hw Hc E); reflexivity]].
Qed.

(** ** AddKeyValue *)
Lemma append_found k t ds n r : find_node k (n_down n) = None -> n_walk (append_node (Node k t ds) n) (k :: r) = n_walk (Node k t ds) r.
Proof. intro H. cbn [n_walk]. rewrite append_down, find_node_app, H. cbn [find_node n_label]. rewrite bytes_eqb_refl. reflexivity. Qed.
Lemma clean_no_err t e : cleanValue t <> Err e.
Proof.
  unfold cleanValue. destruct t as [|c t]; [discriminate|]. cbv zeta. destruct (rev (trim1 (rev (trim1 (c :: t))))) as [|a [|a2 l]]; cbn;
    repeat match goal with |- (if ?x then _ else _) <> _ => destruct x end; discriminate.
Qed.
Lemma not_found p q k n : P_Get p (q ++ [k]) = Err (EKeyNotFound k) -> n_walk (p_core p) q = Ok n -> find_node k (n_down n) = None.
Proof.
  intros H Hn. rewrite P_Get_ne in H by (destruct q; discriminate). rewrite walk_app, Hn in H. cbn [bind n_walk] in H.
  destruct (find_node k (n_down n)) as [c|]; [|reflexivity]. cbn [bind] in H. destruct (clean_no_err _ _ H).
Qed.

(** A node put in below [q]: its place after the refreshing *)
Lemma put_node p q k t ds n j l p' : n_walk (p_core p) q = Ok n -> find_node k (n_down n) = None ->
  refresh l (Par (upd_node q (append_node (Node k t ds)) (p_core p)) j) = PRet p' None -> beneath l (q ++ [k]) ->
  n_walk (p_core p') (q ++ [k]) = Ok (Node k t ds).
Proof.
  intros Hn Hk R B. rewrite (walk_refresh _ _ _ _ R B). cbn [p_core]. rewrite (walk_upd q _ (append_label _) _ [k] n Hn).
  rewrite append_found by exact Hk. reflexivity.
Qed.

Lemma container_first v : wf v = true -> container v = true -> exists c, at_ (render v) 0 = Ok c /\ is_open c = true.
Proof.
  intros Hw Hc. pose proof (container_opens v Hw Hc) as H. apply andb_true_iff in H. destruct H as [_ H]. unfold opens in H.
  destruct (render v) as [|c r]; [discriminate H|]. exists c. split; [reflexivity|exact H].
Qed.

Theorem addkv_nested p k v q p' : wf v = true -> container v = true -> P_Get p (q ++ [k]) = Err (EKeyNotFound k) ->
  P_AddKeyValue p k (render v) q = PRet p' None ->
  P_Get p' (q ++ [k]) = Ok (render v) /\ if (2 <=? length k)%nat then sunk p' (q ++ [k]) v /\ doubled p' (q ++ [k]) v else barren p' (q ++ [k]) /\ P_GetNew p' (q ++ [k]) = Ok (render v).
Proof.
  intros Hw Hc Habs H. unfold P_AddKeyValue in H. destruct k as [|k0 k1]; [discriminate H|]. set (k := k0 :: k1) in *.
  set (ds := if (2 <=? length k)%nat then [node_of (b "0") v] else []).
  assert (G : n_walk (p_core p') (q ++ [k]) = Ok (Node k (render v) ds) ->
    P_Get p' (q ++ [k]) = Ok (render v) /\ if (2 <=? length k)%nat then sunk p' (q ++ [k]) v /\ doubled p' (q ++ [k]) v else barren p' (q ++ [k]) /\ P_GetNew p' (q ++ [k]) = Ok (render v)).
  { intro E. split; [apply (walk_shown _ _ _ _ (not_nil q k) Hw Hc E); reflexivity|]. unfold ds in E.
    destruct (2 <=? length k)%nat; split; [apply (walk_sunk _ _ _ _ Hw E)|apply (walk_doubled _ _ _ _ Hw Hc E)|apply (walk_barren _ _ _ E)|apply (walk_single _ _ _ _ Hw Hc E)]; reflexivity. }
  apply G. clear G. destruct (container_first v Hw Hc) as (c0 & Hat & Hop).
  destruct (P_Get p q) as [json|e|] eqn:Eg; cbn [p_bind] in H; try discriminate H.
  destruct q as [|x q].
  - pose proof (not_found p [] k (p_core p) Habs eq_refl) as Hf. unfold has_label in H. rewrite Hf in H.
    destruct (2 <=? length json)%nat; [|discriminate H]. destruct ((hd 0 json =? 123) && (last json 0 =? 125))%bool; [|discriminate H].
    rewrite Hat in H. cbn [p_pure] in H. rewrite Hop, (pCore_container v Hw Hc) in H. cbn [p_pure] in H. unfold put_before_end in H.
    assert (E : p_core p' = append_node (Node k (render v) ds) (p_core p)).
    { unfold ds. destruct (2 <=? length k)%nat; cbn [p_core p_json] in H;
        (match type of H with p_pure ?r _ = _ => destruct r as [j|e|]; try discriminate H end); cbn [p_pure] in H; injection H as <-; reflexivity. }
    rewrite E. cbn [app]. rewrite append_found by exact Hf. reflexivity.
  - set (path := x :: q) in *. destruct (n_walk (p_core p) path) as [n|e|] eqn:En; cbn [p_bind] in H; try discriminate H.
    destruct (n_walk (p_core p) (removelast path)) as [up|e|]; cbn [p_pure] in H; try discriminate H. destruct (has_label k (n_down up)); [discriminate H|].
    destruct (2 <=? length json)%nat; [|discriminate H]. destruct ((hd 0 json =? 123) && (last json 0 =? 125))%bool; [|discriminate H].
    rewrite Hat in H. cbn [p_pure] in H. rewrite Hop, (pCore_container v Hw Hc) in H. cbn [p_pure] in H. cbv zeta in H.
    assert (R : exists j, refresh (ancestors path) (Par (upd_node path (append_node (Node k (render v) ds)) (p_core p)) j) = PRet p' None).
    { unfold ds, take_or_fail in *. destruct (AddKeyValue (p_json p) k (Some (render v)) path) as [out|out e|]; cbn [p_core] in H; destruct (2 <=? length k)%nat; try discriminate H; eauto. }
    destruct R as (j & R). apply (put_node p path k (render v) ds n j _ p' En (not_found _ _ _ _ Habs En) R). apply beneath_ancestors.
Qed.

(** ** Add *)
Theorem add_nested p v q n p' : wf v = true -> container v = true -> n_walk (p_core p) q = Ok n ->
  find_node (itoa (Z.of_nat (length (n_down n)))) (n_down n) = None -> P_Add p (render v) q = PRet p' None ->
  P_Get p' (q ++ [itoa (Z.of_nat (length (n_down n)))]) = Ok (render v) /\ sunk p' (q ++ [itoa (Z.of_nat (length (n_down n)))]) v /\ doubled p' (q ++ [itoa (Z.of_nat (length (n_down n)))]) v.
Proof.
  intros Hw Hc En Hf H. set (k := itoa (Z.of_nat (length (n_down n)))) in *. set (ds := [node_of (b "0") v]).
  assert (G : n_walk (p_core p') (q ++ [k]) = Ok (Node k (render v) ds) -> P_Get p' (q ++ [k]) = Ok (render v) /\ sunk p' (q ++ [k]) v /\ doubled p' (q ++ [k]) v).
  { intro E. split; [apply (walk_shown _ _ _ _ (not_nil q k) Hw Hc E); reflexivity|]. split; [apply (walk_sunk _ _ _ _ Hw E)|apply (walk_doubled _ _ _ _ Hw Hc E)]; reflexivity. }
  apply G. clear G. unfold P_Add in H. destruct (render v) as [|c0 r0] eqn:Ev; [discriminate H|]. rewrite <- Ev in *. clear c0 r0 Ev.
  destruct (P_Get p q) as [json|e|] eqn:Eg; cbn [p_bind] in H; try discriminate H.
  rewrite (container_opens v Hw Hc), (pCore_container v Hw Hc) in H. cbv zeta in H.
  destruct q as [|x q].
  - cbn in En. injection En as <-.
    destruct (2 <=? length json)%nat; [|discriminate H]. destruct ((hd 0 json =? 91) && (last json 0 =? 93))%bool; [|discriminate H].
    cbn [p_pure] in H. unfold put_before_end in H.
    match type of H with p_pure ?r _ = _ => destruct r as [j|e|]; try discriminate H end. cbn [p_pure] in H. injection H as <-. cbn [p_core].
    fold k. cbn [app]. rewrite append_found by exact Hf. reflexivity.
  - set (path := x :: q) in *. rewrite En in H. cbn [p_bind] in H.
    destruct (2 <=? length json)%nat; [|discriminate H]. destruct ((hd 0 json =? 91) && (last json 0 =? 93))%bool; [|discriminate H].
    cbn [p_pure] in H. fold k ds in H. unfold take_or_fail in H. destruct (Add_ (p_json p) (render v) path) as [out|out e|]; cbn [p_core] in H; try discriminate H.
    apply (put_node p path k (render v) ds n out _ p' En Hf H).
    pose proof (beneath_ancestors path k []) as B. unfold beneath in *. rewrite Forall_forall in *. intros a Ha. apply B.
    clear - Ha. revert Ha. generalize (ancestors path). intro l. induction l as [|y l IH]; [exact (fun K => K)|]. cbn [removelast].
    destruct l; [intros []|]. intros [<-|K]; [left; reflexivity|right; apply IH; exact K].
Qed.

(** ** Insert *)
Lemma insert_inv ns z ns' : n_insert ns z = Ok ns' -> (0 <= z < Z.of_nat (length ns))%Z /\ ns' = relabel ns 0 z.
Proof.
  unfold n_insert. destruct ns as [|n ns]; [discriminate|]. set (l := n :: ns).
  destruct (Z.ltb_spec (Z.of_nat (length l) - 1) z) as [H|H]; [discriminate|]. destruct (Z.ltb_spec z 0) as [K|K]; [discriminate|].
  intro E. injection E as <-. split; [lia|reflexivity].
Qed.
Lemma free_slot ns z : positional ns -> (0 <= z < Z.of_nat (length ns))%Z -> find_node (itoa z) (relabel ns 0 z) = None.
Proof.
  intros Hp Hz. rewrite <- (Z2Nat.id z) by lia. set (k := Z.to_nat z). assert (Hk : (k < length ns)%nat) by (unfold k; lia).
  destruct (find_node (itoa (Z.of_nat k)) (relabel ns 0 (Z.of_nat k))) as [n|] eqn:E; [|reflexivity]. exfalso.
  destruct (find_node_inv _ _ _ E) as (Hl & i & Hi). pose proof (inserted_nodup ns k [] Hp Hk) as Hnd. unfold inserted in Hnd.
  rewrite map_app in Hnd. cbn [map n_label] in Hnd. apply NoDup_remove_2 in Hnd. apply Hnd. rewrite app_nil_r. rewrite <- Hl.
  apply in_map. apply nth_error_In with (n := i). exact Hi.
Qed.

Theorem insert_nested p z v q n p' : wf v = true -> container v = true -> n_walk (p_core p) q = Ok n -> positional (n_down n) ->
  P_Insert p z (render v) q = PRet p' None ->
  P_Get p' (q ++ [itoa z]) = Ok (match q with [] => [] | _ => render v end) /\ sunk p' (q ++ [itoa z]) v /\
  match q with [] => P_GetNew p' [itoa z] = Panic /\ P_GetNew p' [] = Panic | _ => doubled p' (q ++ [itoa z]) v end.
Proof.
  intros Hw Hc En Hpos H. set (k := itoa z) in *. set (ds := [node_of (b "0") v]). unfold P_Insert in H.
  destruct (render v) as [|c0 r0] eqn:Ev; [discriminate H|]. rewrite <- Ev in *. clear c0 r0 Ev.
  destruct (P_Get p q) as [json|e|] eqn:Eg; cbn [p_bind] in H; try discriminate H.
  rewrite (container_opens v Hw Hc), (pCore_container v Hw Hc) in H. cbv zeta in H.
  destruct q as [|x q].
  - cbn in En. injection En as <-.
    destruct (2 <=? length json)%nat; [|discriminate H]. destruct ((hd 0 json =? 91) && (last json 0 =? 93))%bool; [|discriminate H].
    cbn [p_pure] in H. destruct (n_insert (n_down (p_core p)) z) as [ns|e|] eqn:E1; cbn [p_bind] in H; try discriminate H.
    destruct (insert_inv _ _ _ E1) as (Hz & ->). unfold take_or_fail in H.
    destruct (Insert (p_json p) z (render v) []) as [out|out e|]; try discriminate H. cbn [p_core p_json] in H. rewrite with_down_down in H.
    destruct (n_insert (relabel (n_down (p_core p)) 0 z) z) as [ns|e|] eqn:E2; cbn [p_bind] in H; try discriminate H.
    destruct (insert_inv _ _ _ E2) as (_ & ->). injection H as <-. rewrite relabel_twice. fold k.
    assert (E : n_walk (append_node (Node k [] ds) (with_down (relabel (n_down (p_core p)) 0 z) (with_down (relabel (n_down (p_core p)) 0 z) (p_core p)))) [k] = Ok (Node k [] ds)).
    { rewrite append_found; [reflexivity|]. rewrite with_down_down. apply free_slot; assumption. }
    cbn [app]. split; [|split; [apply (walk_sunk (Par _ out) [k] v _ Hw E); reflexivity|split]].
    + rewrite P_Get_ne by discriminate. cbn [p_core]. fold ds. rewrite E. reflexivity.
    + unfold P_GetNew. cbn [p_core]. fold ds. rewrite E. reflexivity.
    + unfold P_GetNew. cbn [p_core n_walk]. rewrite append_down, with_down_down.
      assert (Ed : forall m, dive (append_node (Node k [] ds) m) = Panic).
      { intros [lm tm dm]. apply (dive_panics lm tm (dm ++ [Node k [] ds]) (Node k [] ds)); [apply in_or_app; right; left; reflexivity|discriminate|reflexivity]. }
      fold ds. rewrite Ed. destruct (relabel (n_down (p_core p)) 0 z); reflexivity.
  - set (path := x :: q) in *. rewrite En in H. cbn [p_bind] in H.
    destruct (2 <=? length json)%nat; [|discriminate H]. destruct ((hd 0 json =? 91) && (last json 0 =? 93))%bool; [|discriminate H].
    cbn [p_pure] in H. destruct (n_insert (n_down n) z) as [ns|e|] eqn:E1; cbn [p_bind] in H; try discriminate H.
    destruct (insert_inv _ _ _ E1) as (Hz & ->). unfold take_or_fail in H.
    destruct (Insert (p_json p) z (render v) path) as [out|out e|]; try discriminate H. cbn [p_core] in H.
    assert (E : n_walk (p_core p') (path ++ [k]) = Ok (Node k (render v) ds)).
    { rewrite (walk_refresh _ _ _ _ H (beneath_ancestors path k [])). cbn [p_core].
      rewrite (walk_upd path _ (fun m => eq_trans (append_label _ _) (with_down_label _ _)) _ [k] n En).
      rewrite append_found; [reflexivity|]. rewrite with_down_down. apply free_slot; assumption. }
    split; [apply (walk_shown _ _ _ _ (not_nil path k) Hw Hc E); reflexivity|]. split; [apply (walk_sunk _ _ _ _ Hw E)|apply (walk_doubled _ _ _ _ Hw Hc E)]; reflexivity.
Qed.

(** ** Right after Parse *)
Lemma parsed_array d p q w els : wf_doc d = true -> Parse (text d) = Ok p -> lookup (d_val d) q = Some (JArr w els) -> straight (d_val d) q = true ->
  lonely (JArr w els) = false -> exists n, n_walk (p_core p) q = Ok n /\ length (n_down n) = length els /\ positional (n_down n).
Proof.
  intros Hw HP Hl Hs Hlone. destruct (container (d_val d)) eqn:Hc; [|rewrite (parse_leaf d Hw Hc) in HP; discriminate HP].
  destruct (parse_holds d Hw Hc) as (p0 & HP0 & Hj & _ & Hk). replace p0 with p in * by congruence.
  destruct (walk_found counted q _ _ _ Hk Hl Hs) as (n & Hn & _ & Hkn). exists n. split; [exact Hn|].
  pose proof (full_nodes counted w els _ counted_closed Hlone Hkn) as Hlen. split; [exact Hlen|].
  destruct Hkn as (_ & _ & [E|[_ E]]); [rewrite E; intros i m Hm; destruct i; discriminate Hm|exact E].
Qed.
Lemma next_slot ns : positional ns -> find_node (itoa (Z.of_nat (length ns))) ns = None.
Proof.
  intro Hp. destruct (find_node (itoa (Z.of_nat (length ns))) ns) as [n|] eqn:E; [|reflexivity]. exfalso.
  destruct (find_node_inv _ _ _ E) as (Hl & i & Hi). rewrite (Hp _ _ Hi) in Hl. apply itoa_inj in Hl.
  assert (i < length ns)%nat by (apply nth_error_Some; congruence). lia.
Qed.
Theorem add_parsed d p v q w els p' : wf_doc d = true -> Parse (text d) = Ok p -> lookup (d_val d) q = Some (JArr w els) ->
  straight (d_val d) q = true -> lonely (JArr w els) = false -> wf v = true -> container v = true -> P_Add p (render v) q = PRet p' None ->
  P_Get p' (q ++ [itoa (Z.of_nat (length els))]) = Ok (render v) /\ sunk p' (q ++ [itoa (Z.of_nat (length els))]) v /\ doubled p' (q ++ [itoa (Z.of_nat (length els))]) v.
Proof.
  intros Hw HP Hl Hs Hlone Hwv Hc H. destruct (parsed_array d p q w els Hw HP Hl Hs Hlone) as (n & Hn & <- & Hpos).
  apply (add_nested p v q n p' Hwv Hc Hn (next_slot _ Hpos) H).
Qed.
Theorem insert_parsed d p z v q w els p' : wf_doc d = true -> Parse (text d) = Ok p -> lookup (d_val d) q = Some (JArr w els) ->
  straight (d_val d) q = true -> lonely (JArr w els) = false -> wf v = true -> container v = true -> P_Insert p z (render v) q = PRet p' None ->
  P_Get p' (q ++ [itoa z]) = Ok (match q with [] => [] | _ => render v end) /\ sunk p' (q ++ [itoa z]) v /\
  match q with [] => P_GetNew p' [itoa z] = Panic /\ P_GetNew p' [] = Panic | _ => doubled p' (q ++ [itoa z]) v end.
Proof.
  intros Hw HP Hl Hs Hlone Hwv Hc H. destruct (parsed_array d p q w els Hw HP Hl Hs Hlone) as (n & Hn & _ & Hpos).
  apply (insert_nested p z v q n p' Hwv Hc Hn Hpos H).
Qed.

(** ** Other places *)
Lemma upd_parted q f : (forall m, n_label (f m) = n_label m) -> forall r n, parted q r -> n_walk (upd_node q f n) r = n_walk n r.
Proof.
  intro Hf. induction q as [|a q IH]; intros r n (c & x & y & q' & r' & E1 & -> & Hxy); [destruct c; discriminate E1|].
  destruct c as [|c0 c]; cbn [app] in *; injection E1 as <- E1; cbn [n_walk]; rewrite upd_node_down, find_upd_first by (intro; apply upd_node_label; exact Hf).
  - destruct (bytes_eqb_spec y a) as [->|_]; [contradiction|reflexivity].
  - rewrite bytes_eqb_refl. destruct (find_node a (n_down n)) as [m|]; [|reflexivity]. cbn [option_map]. apply IH. exists c, x, y, q', r'. auto.
Qed.
Definition apart (l : list (list bytes)) (r : list bytes) : Prop := Forall (fun a => (exists x t, r = a ++ x :: t) \/ parted a r) l.
Lemma refresh_apart l : forall p p' r, refresh l p = PRet p' None -> apart l r -> n_walk (p_core p') r = n_walk (p_core p) r.
Proof.
  induction l as [|a l IH]; intros p p' r H Hr; cbn [refresh] in H; [injection H as <-; reflexivity|].
  inversion Hr as [|? ? Ha Hr']; subst. destruct (Get (p_json p) a) as [v|e|]; try discriminate H. rewrite (IH _ _ _ H Hr'). cbn [p_core].
  destruct Ha as [(x & t & ->)|Ha]; [apply walk_value|apply upd_parted; [apply with_value_label|exact Ha]].
Qed.
Lemma ancestors_prefix q : Forall (fun a => exists t, q = a ++ t) (ancestors q).
Proof.
  induction q as [|y q IH] using rev_ind; [constructor|]. rewrite ancestors_snoc. constructor; [exists []; rewrite app_nil_r; reflexivity|].
  rewrite Forall_forall in *. intros a Ha. destruct (IH a Ha) as (t & ->). exists (t ++ [y]). rewrite app_assoc. reflexivity.
Qed.
Lemma prefix_cmp (a : list bytes) : forall t c x q', a ++ t = c ++ x :: q' -> (exists t', c = a ++ t') \/ exists a', a = c ++ x :: a'.
Proof.
  induction a as [|y a IH]; intros t c x q' E; [left; exists c; reflexivity|]. destruct c as [|z c]; cbn [app] in E; injection E as -> E.
  - right. exists a. reflexivity.
  - destruct (IH _ _ _ _ E) as [(t' & ->)|(a' & ->)]; [left|right]; eexists; reflexivity.
Qed.
Lemma parted_apart q r l : parted q r -> Forall (fun a => exists t, q = a ++ t) l -> apart l r.
Proof.
  intros (c & x & y & q' & r' & -> & -> & Hxy) H. unfold apart. rewrite Forall_forall in *. intros a Ha. destruct (H a Ha) as (t & E). symmetry in E.
  destruct (prefix_cmp _ _ _ _ _ E) as [(t' & ->)|(a' & ->)].
  - left. rewrite <- app_assoc. destruct t' as [|z t']; cbn [app]; eauto.
  - right. exists c, x, y, a', r'. auto.
Qed.

Lemma append_parted q k t ds n r : parted (q ++ [k]) r -> (exists m, n_walk n q = Ok m) ->
  n_walk (upd_node q (append_node (Node k t ds)) n) r = n_walk n r.
Proof.
  intros (c & x & y & q' & r' & E1 & -> & Hxy) (m & Hm). destruct (prefix_cmp q [k] c x q' E1) as [(t' & ->)|(a' & ->)].
  - assert (t' = [] /\ x = k) as (-> & ->).
    { rewrite <- app_assoc in E1. apply app_inv_head in E1. destruct t' as [|u t']; cbn [app] in E1; [injection E1 as <- _; auto|injection E1 as _ E1; destruct t'; discriminate E1]. }
    rewrite app_nil_r in *. rewrite (walk_upd q _ (append_label _) _ _ m Hm), walk_app, Hm. cbn [bind n_walk]. rewrite append_down, find_node_app.
    destruct (find_node y (n_down m)); [reflexivity|]. cbn [find_node n_label]. destruct (bytes_eqb_spec k y); [contradiction|reflexivity].
  - apply upd_parted; [apply append_label|]. exists c, x, y, a', r'. auto.
Qed.

Lemma get_same p p' r : r <> [] -> n_walk (p_core p') r = n_walk (p_core p) r -> P_Get p' r = P_Get p r.
Proof. intros Hr E. rewrite !P_Get_ne by exact Hr. rewrite E. reflexivity. Qed.
Lemma parted_ne q r : parted q r -> r <> [].
Proof. intros (c & x & y & q' & r' & _ & -> & _). destruct c; discriminate. Qed.

Theorem set_elsewhere p v q p' r : P_Set p v q = PRet p' None -> parted q r -> P_Get p' r = P_Get p r.
Proof.
  intros H Hr. apply get_same; [exact (parted_ne _ _ Hr)|]. unfold P_Set in H. destruct q as [|x q]; [discriminate H|]. set (path := x :: q) in *.
  destruct (n_walk (p_core p) path) as [n|e|] eqn:En; cbn [p_bind] in H; try discriminate H.
  assert (K : forall f j, (forall m, n_label (f m) = n_label m) -> refresh (tl (ancestors path)) (Par (upd_node path f (p_core p)) j) = PRet p' None ->
    n_walk (p_core p') r = n_walk (p_core p) r).
  { intros f j Hf R. rewrite (refresh_apart _ _ _ _ R); [cbn [p_core]; apply upd_parted; assumption|]. apply (parted_apart path); [exact Hr|].
    pose proof (ancestors_prefix path) as A. destruct (ancestors path); [constructor|]. inversion A; assumption. }
  destruct ((2 <=? length v)%nat && opens v)%bool.
  - destruct (pCore v) as [ds|e|]; cbn [p_pure] in H; try discriminate H.
    unfold take_text in H. destruct (Set_ (p_json p) v path); cbn [p_core] in H; try discriminate H; refine (K _ _ _ H); reflexivity.
  - unfold take_text in H. destruct (Set_ (p_json p) v path); cbn [p_core] in H; try discriminate H; apply (K _ _ (with_value_label v) H).
Qed.

(** The whole tree side of a call that appends a node *)
Lemma appended p q k t ds n j l p' r : n_walk (p_core p) q = Ok n ->
  refresh l (Par (upd_node q (append_node (Node k t ds)) (p_core p)) j) = PRet p' None -> Forall (fun a => exists u, q = a ++ u) l ->
  parted (q ++ [k]) r -> n_walk (p_core p') r = n_walk (p_core p) r.
Proof.
  intros Hn R Hl Hr. rewrite (refresh_apart _ _ _ _ R); [cbn [p_core]; apply append_parted; eauto|].
  apply (parted_apart (q ++ [k])); [exact Hr|]. rewrite Forall_forall in *. intros a Ha. destruct (Hl a Ha) as (u & ->). exists (u ++ [k]). rewrite app_assoc. reflexivity.
Qed.

Theorem addkv_elsewhere p k v q p' r : P_AddKeyValue p k v q = PRet p' None -> parted (q ++ [k]) r -> P_Get p' r = P_Get p r.
Proof.
  intros H Hr. apply get_same; [exact (parted_ne _ _ Hr)|]. unfold P_AddKeyValue in H. destruct k as [|k0 k1]; [discriminate H|]. set (k := k0 :: k1) in *.
  destruct (P_Get p q) as [json|e|] eqn:Eg; cbn [p_bind] in H; try discriminate H.
  destruct q as [|x q].
  - destruct (has_label k (n_down (p_core p))); [discriminate H|].
    destruct (2 <=? length json)%nat; [|discriminate H]. destruct ((hd 0 json =? 123) && (last json 0 =? 125))%bool; [|discriminate H].
    unfold put_before_end in H.
    assert (E : exists ds, p_core p' = append_node (Node k v ds) (p_core p)).
    { destruct (2 <=? length k)%nat.
      - destruct (at_ v 0) as [c|e|]; cbn [p_pure] in H; try discriminate H. destruct (is_open c); [destruct (pCore v) as [ds|e|]; cbn [p_pure] in H; try discriminate H|];
          cbn [p_core p_json] in H; (match type of H with p_pure ?r0 _ = _ => destruct r0 as [j|e|]; try discriminate H end); cbn [p_pure] in H; injection H as <-; eexists; reflexivity.
      - cbn [p_core p_json] in H; (match type of H with p_pure ?r0 _ = _ => destruct r0 as [j|e|]; try discriminate H end); cbn [p_pure] in H; injection H as <-; eexists; reflexivity. }
    destruct E as (ds & ->). exact (append_parted [] k v ds (p_core p) r Hr (ex_intro _ _ eq_refl)).
  - set (path := x :: q) in *. destruct (n_walk (p_core p) path) as [n|e|] eqn:En; cbn [p_bind] in H; try discriminate H.
    destruct (n_walk (p_core p) (removelast path)) as [up|e|]; cbn [p_pure] in H; try discriminate H. destruct (has_label k (n_down up)); [discriminate H|].
    destruct (2 <=? length json)%nat; [|discriminate H]. destruct ((hd 0 json =? 123) && (last json 0 =? 125))%bool; [|discriminate H].
    assert (R : exists j ds, refresh (ancestors path) (Par (upd_node path (append_node (Node k v ds)) (p_core p)) j) = PRet p' None).
    { unfold take_or_fail in H. destruct (2 <=? length k)%nat.
      - destruct (at_ v 0) as [c|e|]; cbn [p_pure] in H; try discriminate H. destruct (is_open c); [destruct (pCore v) as [ds|e|]; cbn [p_pure] in H; try discriminate H|];
          (destruct (AddKeyValue (p_json p) k (Some v) path) as [out|out e|]; cbn [p_core] in H; try discriminate H); eauto.
      - destruct (AddKeyValue (p_json p) k (Some v) path) as [out|out e|]; cbn [p_core] in H; try discriminate H; eauto. }
    destruct R as (j & ds & R). apply (appended p path k v ds n j _ p' r En R (ancestors_prefix path) Hr).
Qed.

Theorem add_elsewhere p v q n p' r : n_walk (p_core p) q = Ok n -> P_Add p v q = PRet p' None ->
  parted (q ++ [itoa (Z.of_nat (length (n_down n)))]) r -> P_Get p' r = P_Get p r.
Proof.
  intros En H Hr. apply get_same; [exact (parted_ne _ _ Hr)|]. set (k := itoa (Z.of_nat (length (n_down n)))) in *.
  unfold P_Add in H. destruct v as [|c0 r0]; [discriminate H|]. set (v := c0 :: r0) in *.
  destruct (P_Get p q) as [json|e|] eqn:Eg; cbn [p_bind] in H; try discriminate H. cbv zeta in H.
  destruct q as [|x q].
  - cbn in En. injection En as <-.
    destruct (2 <=? length json)%nat; [|discriminate H]. destruct ((hd 0 json =? 91) && (last json 0 =? 93))%bool; [|discriminate H].
    fold k in H. unfold put_before_end in H.
    assert (E : exists ds, p_core p' = append_node (Node k v ds) (p_core p)).
    { destruct ((2 <=? length v)%nat && opens v)%bool; [destruct (pCore v) as [ds|e|]; cbn [p_pure] in H; try discriminate H|];
        cbn [p_core p_json] in H; (match type of H with p_pure ?r0 _ = _ => destruct r0 as [j|e|]; try discriminate H end); cbn [p_pure] in H; injection H as <-; eexists; reflexivity. }
    destruct E as (ds & ->). exact (append_parted [] k v ds (p_core p) r Hr (ex_intro _ _ eq_refl)).
  - set (path := x :: q) in *. rewrite En in H. cbn [p_bind] in H. fold k in H.
    destruct (2 <=? length json)%nat; [|discriminate H]. destruct ((hd 0 json =? 91) && (last json 0 =? 93))%bool; [|discriminate H].
    assert (R : exists j ds l, refresh l (Par (upd_node path (append_node (Node k v ds)) (p_core p)) j) = PRet p' None /\ Forall (fun a => exists u, path = a ++ u) l).
    { unfold take_or_fail in H. destruct ((2 <=? length v)%nat && opens v)%bool; [destruct (pCore v) as [ds|e|]; cbn [p_pure] in H; try discriminate H|];
        (destruct (Add_ (p_json p) v path) as [out|out e|]; cbn [p_core] in H; try discriminate H); do 3 eexists; (split; [exact H|]);
        [|apply ancestors_prefix].
      pose proof (ancestors_prefix path) as A. rewrite Forall_forall in *. intros a Ha. apply A. clear - Ha. revert Ha. generalize (ancestors path).
      intro l. induction l as [|y l IH]; [exact (fun K => K)|]. cbn [removelast]. destruct l; [intros []|]. intros [<-|K]; [left; reflexivity|right; apply IH; exact K]. }
    destruct R as (j & ds & l & R & A). apply (appended p path k v ds n j _ p' r En R A Hr).
Qed.
Theorem add_parsed_elsewhere d p v q w els p' r : wf_doc d = true -> Parse (text d) = Ok p -> lookup (d_val d) q = Some (JArr w els) ->
  straight (d_val d) q = true -> lonely (JArr w els) = false -> P_Add p v q = PRet p' None ->
  parted (q ++ [itoa (Z.of_nat (length els))]) r -> P_Get p' r = P_Get p r.
Proof.
  intros Hw HP Hl Hs Hlone H Hr. destruct (parsed_array d p q w els Hw HP Hl Hs Hlone) as (n & Hn & E & Hpos). rewrite <- E in Hr.
  apply (add_elsewhere p v q n p' r Hn H Hr).
Qed.

(** ** Above: the text is asked again *)
Lemma refresh_above q : forall p p' a t n, refresh (ancestors q) p = PRet p' None -> n_walk (p_core p) q = Ok n -> q = a ++ t -> a <> [] ->
  asked_again p' a.
Proof.
  induction q as [|y q IH] using rev_ind; intros p p' a t n H Hn E Ha; [destruct a; [contradiction|discriminate E]|].
  pose proof (refresh_text _ _ _ _ H) as Hj. rewrite ancestors_snoc in H. cbn [refresh] in H.
  destruct (Get (p_json p) (q ++ [y])) as [v|e|] eqn:Eg; try discriminate H.
  assert (Hd : n_walk (upd_node (q ++ [y]) (with_value v) (p_core p)) (q ++ [y]) = Ok (with_value v n)).
  { pose proof (walk_upd (q ++ [y]) _ (with_value_label v) (p_core p) [] n Hn) as K. rewrite app_nil_r in K. exact K. }
  destruct t as [|z t _] using rev_ind.
  - rewrite app_nil_r in E. subst a. exists v. rewrite Hj. split; [exact Eg|]. rewrite P_Get_ne by exact Ha.
    rewrite (walk_refresh _ _ _ (q ++ [y]) H (beneath_ancestors q y [])). cbn [p_core]. rewrite Hd. cbn [bind]. rewrite with_value_value. reflexivity.
  - rewrite app_assoc in E. apply app_inj_tail in E. destruct E as [-> ->]. rewrite walk_app in Hd.
    match type of Hd with (do m <- ?w; _) = _ => destruct w as [m|e|] eqn:Em; try discriminate Hd end.
    eapply IH; [exact H|exact Em|reflexivity|exact Ha].
Qed.
Lemma walk_prefix n q t m : n_walk n (q ++ t) = Ok m -> exists m', n_walk n q = Ok m'.
Proof. rewrite walk_app. destruct (n_walk n q); try discriminate. eauto. Qed.
Lemma snoc_cases (q : list bytes) x r : exists q0 y, q ++ x :: r = q0 ++ [y] /\ exists t, q0 = q ++ t.
Proof.
  destruct (exists_last (l := x :: r) ltac:(discriminate)) as (l & y & E). exists (q ++ l), y. rewrite E, app_assoc. split; [reflexivity|eauto].
Qed.

Theorem set_above p v a x r p' : a <> [] -> P_Set p v (a ++ x :: r) = PRet p' None ->
  asked_again p' a.
Proof.
  intros Ha H. destruct (snoc_cases a x r) as (q0 & y & E & (t & ->)). rewrite E in H. unfold P_Set in H. destruct ((a ++ t) ++ [y]) as [|? ?] eqn:Eq; [discriminate H|].
  rewrite <- Eq in *. clear Eq. destruct (n_walk (p_core p) ((a ++ t) ++ [y])) as [n|e|] eqn:En; cbn [p_bind] in H; try discriminate H.
  rewrite ancestors_snoc in H. cbn [tl] in H.
  assert (K : forall f j, (forall m, n_label (f m) = n_label m) -> refresh (ancestors (a ++ t)) (Par (upd_node ((a ++ t) ++ [y]) f (p_core p)) j) = PRet p' None ->
    asked_again p' a).
  { intros f j Hf R. pose proof (walk_upd _ f Hf _ [] n En) as K. rewrite app_nil_r in K. destruct (walk_prefix _ _ _ _ K) as (m & Hm).
    apply (refresh_above (a ++ t) _ _ a t m R); [exact Hm|reflexivity|exact Ha]. }
  destruct ((2 <=? length v)%nat && opens v)%bool.
  - destruct (pCore v) as [ds|e|]; cbn [p_pure] in H; try discriminate H.
    unfold take_text in H. destruct (Set_ (p_json p) v ((a ++ t) ++ [y])); cbn [p_core] in H; try discriminate H; (refine (K _ _ _ H); reflexivity).
  - unfold take_text in H. destruct (Set_ (p_json p) v ((a ++ t) ++ [y])); cbn [p_core] in H; try discriminate H; apply (K _ _ (with_value_label v) H).
Qed.

(** Set of what does not open a bracket leaves what was below. *)
Theorem set_plain p v q p' : opens v = false -> P_Set p v q = PRet p' None ->
  P_Get p' q = cleanValue v /\ forall x r, P_Get p' (q ++ x :: r) = P_Get p (q ++ x :: r).
Proof.
  intros Ho H. unfold P_Set in H. destruct q as [|x q]; [discriminate H|]. set (path := x :: q) in *.
  destruct (n_walk (p_core p) path) as [n|e|] eqn:En; cbn [p_bind] in H; try discriminate H. rewrite Ho, andb_false_r in H.
  assert (K : exists j, refresh (tl (ancestors path)) (Par (upd_node path (with_value v) (p_core p)) j) = PRet p' None).
  { unfold take_text in H. destruct (Set_ (p_json p) v path); cbn [p_core] in H; try discriminate H; eauto. }
  destruct K as (j & R). split.
  - rewrite P_Get_ne by discriminate. pose proof (walk_refresh _ _ _ (path ++ []) R (beneath_tl path [] ltac:(discriminate))) as E. cbn [p_core] in E.
    rewrite (walk_upd path _ (with_value_label v) _ [] n En) in E. rewrite app_nil_r in E. rewrite E. cbn [n_walk bind]. rewrite with_value_value. reflexivity.
  - intros y r. apply get_same; [destruct path; discriminate|]. rewrite (walk_refresh _ _ _ _ R (beneath_tl path (y :: r) ltac:(discriminate))). cbn [p_core]. apply walk_value.
Qed.

(** ** Delete *)
Theorem delete_tree p q x p' : P_Delete p (q ++ [x]) = PRet p' None ->
  (forall r, P_Get p' (q ++ x :: r) = Err (EKeyNotFound x)) /\ (forall r, parted (q ++ [x]) r -> P_Get p' r = P_Get p r) /\
  (forall a t, q = a ++ t -> a <> [] -> asked_again p' a).
Proof.
  intro H. unfold P_Delete in H. destruct (q ++ [x]) as [|? ?] eqn:Eq; [discriminate H|]. rewrite <- Eq in *. clear Eq.
  destruct (n_walk (p_core p) (q ++ [x])) as [n|e|] eqn:En; cbn [p_bind] in H; try discriminate H. rewrite removelast_last, (walk_label _ _ _ _ En), ancestors_snoc in H. cbn [tl] in H.
  destruct (walk_prefix _ _ _ _ En) as (m & Hm). unfold take_or_fail in H. destruct (Delete (p_json p) (q ++ [x])) as [out|out e|]; cbn [p_core] in H; try discriminate H.
  assert (Hl : forall z, n_label (drop_label x z) = n_label z) by (intros [? ? ?]; reflexivity).
  assert (Hf : forall y, find_node y (n_down (drop_label x m)) = if bytes_eqb y x then None else find_node y (n_down m)) by (intro y; rewrite drop_down; apply find_filter).
  split; [|split].
  - intro r. rewrite P_Get_ne by (destruct q; discriminate). rewrite (walk_refresh _ _ _ _ H (beneath_ancestors q x r)). cbn [p_core].
    rewrite (walk_upd q _ Hl _ _ m Hm). cbn [n_walk]. rewrite Hf, bytes_eqb_refl. reflexivity.
  - intros r Hr. apply get_same; [exact (parted_ne _ _ Hr)|]. rewrite (refresh_apart _ _ _ _ H).
    + cbn [p_core]. destruct Hr as (c & u & y & q' & r' & E1 & -> & Hxy). destruct (prefix_cmp q [x] c u q' E1) as [(t' & ->)|(a' & ->)].
      * assert (t' = [] /\ u = x) as (-> & ->).
        { rewrite <- app_assoc in E1. apply app_inv_head in E1. destruct t' as [|u1 t']; cbn [app] in E1; [injection E1 as <- _; auto|injection E1 as _ E1; destruct t'; discriminate E1]. }
        rewrite app_nil_r in *. rewrite (walk_upd q _ Hl _ _ m Hm), walk_app, Hm. cbn [bind n_walk]. rewrite Hf. destruct (bytes_eqb_spec y x); [congruence|reflexivity].
      * apply upd_parted; [exact Hl|]. exists c, u, y, a', r'. auto.
    + apply (parted_apart (q ++ [x])); [exact Hr|]. pose proof (ancestors_prefix (q ++ [x])) as A. rewrite ancestors_snoc in A. inversion A; assumption.
  - intros a t -> Ha. pose proof (walk_upd _ _ Hl _ [] m Hm) as K. rewrite app_nil_r in K. apply (refresh_above (a ++ t) _ _ a t _ H K eq_refl Ha).
Qed.

(** ** SetKey *)
Lemma quiet_below l : forall p p' e q, refresh_quiet l p = PRet p' e -> beneath l q -> n_walk (p_core p') q = n_walk (p_core p) q.
Proof.
  induction l as [|a l IH]; intros p p' e q H Hq; cbn [refresh_quiet] in H; [injection H as <- _; reflexivity|].
  inversion Hq as [|? ? (x & r & E) Hq']; subst. destruct (Get (p_json p) a) as [v|e0|]; try discriminate H;
    (rewrite (IH _ _ _ _ H Hq'); cbn [p_core]; apply walk_value).
Qed.
Lemma quiet_apart l : forall p p' e r, refresh_quiet l p = PRet p' e -> apart l r -> n_walk (p_core p') r = n_walk (p_core p) r.
Proof.
  induction l as [|a l IH]; intros p p' e r H Hr; cbn [refresh_quiet] in H; [injection H as <- _; reflexivity|].
  inversion Hr as [|? ? Ha Hr']; subst.
  assert (K : forall v, n_walk (upd_node a (with_value v) (p_core p)) r = n_walk (p_core p) r).
  { intro v. destruct Ha as [(x & t & ->)|Ha]; [apply walk_value|apply upd_parted; [apply with_value_label|exact Ha]]. }
  destruct (Get (p_json p) a) as [v|e0|]; try discriminate H; (rewrite (IH _ _ _ _ H Hr'); cbn [p_core]; apply K).
Qed.
Lemma find_renamed x k ns y m : find_node x ns = Some m -> find_node k ns = None ->
  y <> x -> find_node y (upd_first x (with_label k) ns) = if bytes_eqb y k then Some (with_label k m) else find_node y ns.
Proof.
  induction ns as [|n ns IH]; intros Hx Hk Hy; [discriminate Hx|]. cbn [find_node upd_first] in *.
  destruct (bytes_eqb_spec (n_label n) k) as [E|E]; [discriminate Hk|].
  destruct (bytes_eqb_spec (n_label n) x) as [E1|E1]; cbn [find_node].
  - injection Hx as <-. rewrite with_label_label. destruct (bytes_eqb_spec k y) as [->|Ek]; [rewrite bytes_eqb_refl; reflexivity|].
    destruct (bytes_eqb_spec y k); [congruence|]. destruct (bytes_eqb_spec (n_label n) y); [congruence|reflexivity].
  - rewrite (IH Hx Hk Hy). destruct (bytes_eqb_spec (n_label n) y) as [E2|E2]; [|reflexivity].
    destruct (bytes_eqb_spec y k); [congruence|reflexivity].
Qed.
Lemma with_label_down l n : n_down (with_label l n) = n_down n. Proof. destruct n. reflexivity. Qed.
Lemma with_label_value l n : n_value (with_label l n) = n_value n. Proof. destruct n. reflexivity. Qed.

Theorem setkey_tree p k q x p' : P_SetKey p k (q ++ [x]) = PRet p' None ->
  (forall r, P_Get p' (q ++ k :: r) = P_Get p (q ++ x :: r)) /\
  (forall r, parted (q ++ [x]) r -> parted (q ++ [k]) r -> P_Get p' r = P_Get p r).
Proof.
  intro H. unfold P_SetKey in H. destruct (q ++ [x]) as [|? ?] eqn:Eq; [discriminate H|]. rewrite <- Eq in *. clear Eq.
  destruct k as [|k0 k1]; [discriminate H|]. set (k := k0 :: k1) in *.
  destruct (n_walk (p_core p) (q ++ [x])) as [n|e|] eqn:En; cbn [p_bind] in H; try discriminate H. rewrite removelast_last, ancestors_snoc in H. cbn [tl] in H.
  destruct (walk_prefix _ _ _ _ En) as (m & Hm). rewrite Hm in H. cbn [p_pure] in H. rewrite walk_app, Hm in En. cbn [bind n_walk] in En.
  unfold has_label in H. destruct (find_node k (n_down m)) as [?|] eqn:Ek; [discriminate H|].
  destruct (find_node x (n_down m)) as [c|] eqn:Ex; [|discriminate En]. injection En as ->.
  assert (Hkx : k <> x) by congruence.
  assert (K : exists j, refresh_quiet (ancestors q) (Par (upd_node (q ++ [x]) (with_label k) (p_core p)) j) = PRet p' None).
  { unfold take_text in H. destruct (SetKey (p_json p) k (q ++ [x])); cbn [p_core] in H; try discriminate H; eauto. }
  destruct K as (j & R). rewrite upd_node_app in R.
  set (f := upd_node [x] (with_label k)) in R.
  assert (Hl : forall z, n_label (f z) = n_label z) by (intros [? ? ?]; reflexivity).
  assert (Hd : n_down (f m) = upd_first x (with_label k) (n_down m)) by (unfold f; apply upd_node_down). split.
  - intro r. rewrite !P_Get_ne by (destruct q; discriminate). rewrite (quiet_below _ _ _ _ _ R (beneath_ancestors q k r)). cbn [p_core].
    rewrite (walk_upd q f Hl _ _ m Hm), walk_app, Hm. cbn [bind n_walk]. rewrite Hd, (find_renamed x k _ k n Ex Ek Hkx), bytes_eqb_refl, Ex.
    destruct r as [|y r]; [cbn [n_walk bind]; rewrite with_label_value; reflexivity|]. rewrite (walk_kids y r (with_label k n) n (with_label_down k n)). reflexivity.
  - intros r Hr Hr2. apply get_same; [exact (parted_ne _ _ Hr)|]. rewrite (quiet_apart _ _ _ _ _ R).
    + cbn [p_core]. destruct Hr as (c & u & y & q' & r' & E1 & -> & Hxy). destruct (prefix_cmp q [x] c u q' E1) as [(t' & ->)|(a' & ->)].
      * assert (t' = [] /\ u = x) as (-> & ->).
        { rewrite <- app_assoc in E1. apply app_inv_head in E1. destruct t' as [|u1 t']; cbn [app] in E1; [injection E1 as <- _; auto|injection E1 as _ E1; destruct t'; discriminate E1]. }
        rewrite app_nil_r in *. rewrite (walk_upd q f Hl _ _ m Hm), walk_app, Hm. cbn [bind n_walk]. rewrite Hd, (find_renamed x k _ y n Ex Ek) by congruence.
        destruct (bytes_eqb_spec y k) as [->|_]; [|reflexivity]. exfalso. destruct Hr2 as (c2 & x2 & y2 & q2 & r2 & F1 & F2 & F3).
        destruct (prefix_cmp q [k] c2 x2 q2 F1) as [(t2 & ->)|(a2 & ->)].
        -- rewrite <- app_assoc in F1, F2. apply app_inv_head in F1. apply app_inv_head in F2. destruct t2 as [|? t2]; cbn [app] in F1, F2; [congruence|].
           injection F1 as _ F1. destruct t2; discriminate F1.
        -- rewrite <- app_assoc in F2. apply app_inv_head in F2. cbn [app] in F2. congruence.
      * apply upd_parted; [exact Hl|]. exists c, u, y, a', r'. auto.
    + apply (parted_apart (q ++ [x])); [exact Hr|]. pose proof (ancestors_prefix (q ++ [x])) as A. rewrite ancestors_snoc in A. inversion A; assumption.
Qed.

(** ** Insert: the elements behind have moved *)
Lemma find_shifted ns z i : positional ns -> (0 <= z)%Z -> (i < length ns)%nat ->
  find_node (itoa (Z.of_nat (if (z <=? Z.of_nat i)%Z then S i else i))) (relabel ns 0 z) =
  option_map (fun n => if (z <=? Z.of_nat i)%Z then with_label (itoa (Z.of_nat i + 1)) n else n) (nth_error ns i).
Proof.
  intros Hp Hz Hi. destruct (nth_error ns i) as [m|] eqn:Em; [|apply nth_error_None in Em; lia].
  pose proof (relabel_nth ns z 0 i) as R. cbn [Nat.add] in R. rewrite Em in R. cbn [option_map] in *.
  assert (Hnd : NoDup (map n_label (relabel ns 0 z))).
  { destruct (Z.lt_ge_cases z (Z.of_nat (length ns))) as [Hlt|Hge].
    - pose proof (inserted_nodup ns (Z.to_nat z) [] Hp ltac:(lia)) as H. unfold inserted in H. rewrite Z2Nat.id in H by lia. rewrite map_app in H.
      apply NoDup_remove_1 in H. rewrite app_nil_r in H. exact H.
    - replace (relabel ns 0 z) with ns; [apply positional_nodup; exact Hp|]. clear - Hge. assert (G : forall k, (Z.of_nat k + Z.of_nat (length ns) <= z)%Z -> ns = relabel ns k z).
      { clear Hge. induction ns as [|n ns IH]; intros k H; [reflexivity|]. cbn [relabel length] in *. replace (z <=? Z.of_nat k)%Z with false by (symmetry; apply Z.leb_gt; lia).
        f_equal. apply IH. lia. }
      apply G. lia. }
  rewrite <- (find_node_nth _ Hnd i _ R). f_equal. destruct (z <=? Z.of_nat i)%Z.
  - rewrite with_label_label. f_equal. lia.
  - symmetry. apply Hp. exact Em.
Qed.

Lemma insert_down p z v q n p' : n_walk (p_core p) q = Ok n -> P_Insert p z v q = PRet p' None ->
  (0 <= z < Z.of_nat (length (n_down n)))%Z /\
  (exists t ds, (opens v = false -> t = v /\ ds = []) /\ forall x r, n_walk (p_core p') (q ++ x :: r) = match find_node x (relabel (n_down n) 0 z ++ [Node (itoa z) t ds]) with Some c => n_walk c r | None => Err (EKeyNotFound x) end) /\
  forall r, parted q r -> n_walk (p_core p') r = n_walk (p_core p) r.
Proof.
  intros En H. unfold P_Insert in H. destruct v as [|c0 r0]; [discriminate H|]. set (v := c0 :: r0) in *.
  destruct (P_Get p q) as [json|e|] eqn:Eg; cbn [p_bind] in H; try discriminate H. cbv zeta in H.
  destruct q as [|x0 q].
  - cbn in En. injection En as <-.
    destruct (2 <=? length json)%nat; [|discriminate H]. destruct ((hd 0 json =? 91) && (last json 0 =? 93))%bool; [|discriminate H].
    assert (Hno : forall r : list bytes, parted [] r -> n_walk (p_core p') r = n_walk (p_core p) r) by (intros r (c & x & y & q' & r' & E & _); destruct c; discriminate E).
    destruct ((2 <=? length v)%nat && opens v)%bool eqn:Eo; [destruct (pCore v) as [ds|e|]; cbn [p_pure] in H; try discriminate H|];
      (destruct (n_insert (n_down (p_core p)) z) as [ns|e|] eqn:E1; cbn [p_bind] in H; try discriminate H);
      destruct (insert_inv _ _ _ E1) as (Hz & ->); unfold take_or_fail in H;
      (destruct (Insert (p_json p) z v []) as [out|out e|]; try discriminate H); cbn [p_core p_json] in H; (split; [exact Hz|]; split; [|exact Hno]).
    + rewrite with_down_down in H. destruct (n_insert (relabel (n_down (p_core p)) 0 z) z) as [ns|e|] eqn:E2; cbn [p_bind] in H; try discriminate H.
      destruct (insert_inv _ _ _ E2) as (_ & ->). injection H as <-. rewrite relabel_twice. exists [], ds. split; [apply andb_true_iff in Eo; destruct Eo as [_ ->]; discriminate|]. intros x r. cbn [app n_walk p_core].
      rewrite append_down, with_down_down. reflexivity.
    + rewrite append_down, with_down_down in H. match type of H with p_bind _ (n_insert ?l z) _ = _ => destruct (n_insert l z) as [ns|e|] eqn:E2; cbn [p_bind] in H; try discriminate H end.
      destruct (insert_inv _ _ _ E2) as (_ & ->). injection H as <-. rewrite removelast_relabel, relabel_twice. exists v, []. split; [auto|]. intros x r. cbn [app n_walk p_core].
      rewrite with_down_down. reflexivity.
  - set (path := x0 :: q) in *. rewrite En in H. cbn [p_bind] in H.
    destruct (2 <=? length json)%nat; [|discriminate H]. destruct ((hd 0 json =? 91) && (last json 0 =? 93))%bool; [|discriminate H].
    assert (K : (0 <= z < Z.of_nat (length (n_down n)))%Z /\ exists ds out, (opens v = false -> ds = []) /\ refresh (ancestors path) (Par (upd_node path (fun m => append_node (Node (itoa z) v ds) (with_down (relabel (n_down n) 0 z) m)) (p_core p)) out) = PRet p' None).
    { destruct ((2 <=? length v)%nat && opens v)%bool eqn:Eo; [destruct (pCore v) as [ds|e|]; cbn [p_pure] in H; try discriminate H|];
        (destruct (n_insert (n_down n) z) as [ns|e|] eqn:E1; cbn [p_bind] in H; try discriminate H);
        destruct (insert_inv _ _ _ E1) as (Hz & ->); unfold take_or_fail in H;
        (destruct (Insert (p_json p) z v path) as [out|out e|]; try discriminate H); cbn [p_core p_json] in H; (split; [exact Hz|]); eexists; exists out; (split; [|exact H]); intro K; [rewrite K, andb_false_r in Eo; discriminate Eo|reflexivity]. }
    destruct K as (Hz & ds & out & Hds & R). split; [exact Hz|].
    assert (Hl : forall m, n_label (append_node (Node (itoa z) v ds) (with_down (relabel (n_down n) 0 z) m)) = n_label m) by (intro m; rewrite append_label; apply with_down_label).
    split.
    + exists v, ds. split; [auto|]. intros x r. rewrite (walk_refresh _ _ _ _ R (beneath_ancestors path x r)). cbn [p_core].
      rewrite (walk_upd path _ Hl _ _ n En). cbn [n_walk]. rewrite append_down, with_down_down. reflexivity.
    + intros r Hr. rewrite (refresh_apart _ _ _ _ R (parted_apart _ _ _ Hr (ancestors_prefix path))). cbn [p_core]. apply upd_parted; assumption.
Qed.

Theorem insert_elsewhere d p z v q w els p' : wf_doc d = true -> Parse (text d) = Ok p -> lookup (d_val d) q = Some (JArr w els) ->
  straight (d_val d) q = true -> lonely (JArr w els) = false -> P_Insert p z v q = PRet p' None ->
  (0 <= z < Z.of_nat (length els))%Z /\
  (forall i r, (i < length els)%nat -> P_Get p' (q ++ itoa (Z.of_nat (if (z <=? Z.of_nat i)%Z then S i else i)) :: r) = P_Get p (q ++ itoa (Z.of_nat i) :: r)) /\
  (forall r, parted q r -> P_Get p' r = P_Get p r).
Proof.
  intros Hw HP Hl Hs Hlone H. destruct (parsed_array d p q w els Hw HP Hl Hs Hlone) as (n & Hn & Hlen & Hpos).
  destruct (insert_down p z v q n p' Hn H) as (Hz & (t & ds & _ & Hx) & Hr). rewrite Hlen in Hz. split; [exact Hz|]. split.
  - intros i r Hi. rewrite !P_Get_ne by (destruct q; discriminate). rewrite Hx, find_node_app, find_shifted by (assumption || lia).
    rewrite walk_app, Hn. cbn [bind n_walk]. destruct (nth_error (n_down n) i) as [m|] eqn:Em; [|apply nth_error_None in Em; lia]. cbn [option_map].
    pose proof (find_node_nth _ (positional_nodup _ Hpos) i m Em) as Hf. rewrite (Hpos _ _ Em) in Hf. rewrite Hf.
    destruct (z <=? Z.of_nat i)%Z; [|reflexivity]. destruct r as [|y r]; [cbn [n_walk bind]; rewrite with_label_value; reflexivity|].
    rewrite (walk_kids y r (with_label (itoa (Z.of_nat i + 1)) m) m (with_label_down _ m)). reflexivity.
  - intros r Hp. apply get_same; [exact (parted_ne _ _ Hp)|]. apply Hr. exact Hp.
Qed.

(** ** Values that open no bracket *)
Lemma walk_plain p q v n : q <> [] -> n_walk (p_core p) q = Ok n -> n_value n = v -> n_down n = [] -> P_Get p q = cleanValue v /\ barren p q.
Proof. intros Hq E Hv Hd. split; [|apply (walk_barren _ _ _ E Hd)]. rewrite P_Get_ne by exact Hq. rewrite E. cbn [bind]. rewrite Hv. reflexivity. Qed.
Theorem addkv_plain p k v q p' : opens v = false -> P_Get p (q ++ [k]) = Err (EKeyNotFound k) -> P_AddKeyValue p k v q = PRet p' None ->
  P_Get p' (q ++ [k]) = cleanValue v /\ barren p' (q ++ [k]).
Proof.
  intros Ho Habs H. unfold P_AddKeyValue in H. destruct k as [|k0 k1]; [discriminate H|]. set (k := k0 :: k1) in *.
  enough (E : n_walk (p_core p') (q ++ [k]) = Ok (Node k v [])) by (apply (walk_plain _ _ _ _ (not_nil q k) E); reflexivity).
  destruct (P_Get p q) as [json|e|] eqn:Eg; cbn [p_bind] in H; try discriminate H.
  assert (Hn : forall f g, (if (2 <=? length k)%nat then p_pure (at_ v 0) (fun c => if is_open c then p_pure (pCore v) f else g) else g) = PRet p' None -> g = PRet p' None).
  { intros f g K. destruct (2 <=? length k)%nat; [|exact K]. unfold opens in Ho. destruct v as [|c v]; [discriminate K|]. cbn [at_ nth_error p_pure] in K. rewrite Ho in K. exact K. }
  destruct q as [|x q].
  - pose proof (not_found p [] k (p_core p) Habs eq_refl) as Hf. unfold has_label in H. rewrite Hf in H.
    destruct (2 <=? length json)%nat; [|discriminate H]. destruct ((hd 0 json =? 123) && (last json 0 =? 125))%bool; [|discriminate H].
    apply Hn in H. unfold put_before_end in H. cbn [p_core p_json] in H.
    (match type of H with p_pure ?r _ = _ => destruct r as [j|e|]; try discriminate H end). cbn [p_pure] in H. injection H as <-. cbn [p_core app].
    rewrite append_found by exact Hf. reflexivity.
  - set (path := x :: q) in *. destruct (n_walk (p_core p) path) as [n|e|] eqn:En; cbn [p_bind] in H; try discriminate H.
    destruct (n_walk (p_core p) (removelast path)) as [up|e|]; cbn [p_pure] in H; try discriminate H. destruct (has_label k (n_down up)); [discriminate H|].
    destruct (2 <=? length json)%nat; [|discriminate H]. destruct ((hd 0 json =? 123) && (last json 0 =? 125))%bool; [|discriminate H].
    apply Hn in H. cbv zeta in H. unfold take_or_fail in H. destruct (AddKeyValue (p_json p) k (Some v) path) as [out|out e|]; cbn [p_core] in H; try discriminate H.
    apply (put_node p path k v [] n out _ p' En (not_found _ _ _ _ Habs En) H). apply beneath_ancestors.
Qed.
Theorem add_plain d p v q w els p' : wf_doc d = true -> Parse (text d) = Ok p -> lookup (d_val d) q = Some (JArr w els) ->
  straight (d_val d) q = true -> lonely (JArr w els) = false -> opens v = false -> P_Add p v q = PRet p' None ->
  P_Get p' (q ++ [itoa (Z.of_nat (length els))]) = cleanValue v /\ barren p' (q ++ [itoa (Z.of_nat (length els))]).
Proof.
  intros Hw HP Hl Hs Hlone Ho H. destruct (parsed_array d p q w els Hw HP Hl Hs Hlone) as (n & En & <- & Hpos). pose proof (next_slot _ Hpos) as Hf.
  set (k := itoa (Z.of_nat (length (n_down n)))) in *.
  enough (E : n_walk (p_core p') (q ++ [k]) = Ok (Node k v [])) by (apply (walk_plain _ _ _ _ (not_nil q k) E); reflexivity).
  unfold P_Add in H. destruct v as [|c0 r0]; [discriminate H|]. set (v := c0 :: r0) in *.
  destruct (P_Get p q) as [json|e|] eqn:Eg; cbn [p_bind] in H; try discriminate H. rewrite Ho, andb_false_r in H. cbv zeta in H. clear HP Hl Hs.
  destruct q as [|x q].
  - cbn in En. injection En as <-.
    destruct (2 <=? length json)%nat; [|discriminate H]. destruct ((hd 0 json =? 91) && (last json 0 =? 93))%bool; [|discriminate H].
    unfold put_before_end in H.
    match type of H with p_pure ?r _ = _ => destruct r as [j|e|]; try discriminate H end. cbn [p_pure] in H. injection H as <-. cbn [p_core].
    fold k. cbn [app]. rewrite append_found by exact Hf. reflexivity.
  - set (path := x :: q) in *. rewrite En in H. cbn [p_bind] in H.
    destruct (2 <=? length json)%nat; [|discriminate H]. destruct ((hd 0 json =? 91) && (last json 0 =? 93))%bool; [|discriminate H].
    fold k in H. unfold take_or_fail in H. destruct (Add_ (p_json p) v path) as [out|out e|]; cbn [p_core] in H; try discriminate H.
    apply (put_node p path k v [] n out _ p' En Hf H). apply beneath_ancestors.
Qed.
Theorem insert_plain d p z v q w els p' : wf_doc d = true -> Parse (text d) = Ok p -> lookup (d_val d) q = Some (JArr w els) ->
  straight (d_val d) q = true -> lonely (JArr w els) = false -> opens v = false -> P_Insert p z v q = PRet p' None ->
  P_Get p' (q ++ [itoa z]) = cleanValue v /\ barren p' (q ++ [itoa z]).
Proof.
  intros Hw HP Hl Hs Hlone Ho H. destruct (parsed_array d p q w els Hw HP Hl Hs Hlone) as (n & En & _ & Hpos).
  destruct (insert_down p z v q n p' En H) as (Hz & (t & ds & Ht & Hx) & _). destruct (Ht Ho) as (-> & ->).
  apply (walk_plain _ _ _ (Node (itoa z) v [])); [apply not_nil| |reflexivity|reflexivity].
  rewrite Hx, find_node_app, free_slot by assumption. cbn [find_node n_label]. rewrite bytes_eqb_refl. reflexivity.
Qed.

(** ** Above, for the calls that put in *)
Lemma in_removelast {A} (l : list A) a : In a (removelast l) -> In a l.
Proof. induction l as [|y l IH]; [exact (fun K => K)|]. cbn [removelast]. destruct l; [intros []|]. intros [<-|K]; [left; reflexivity|right; apply IH; exact K]. Qed.
Lemma ancestors_ne q : q <> [] -> ancestors q <> [].
Proof. destruct q as [|x q]; [contradiction|]. intros _ E. cbn [ancestors] in E. apply app_eq_nil in E. destruct E as [_ E]. discriminate E. Qed.
Lemma refresh_above_most q : forall p p' a t n, refresh (removelast (ancestors q)) p = PRet p' None -> n_walk (p_core p) q = Ok n -> q = a ++ t -> (2 <= length a)%nat ->
  asked_again p' a.
Proof.
  induction q as [|y q IH] using rev_ind; intros p p' a t n H Hn E Ha; [destruct a; [cbn in Ha; lia|discriminate E]|].
  assert (Hane : a <> []) by (destruct a; [cbn in Ha; lia|discriminate]).
  destruct (list_eq_dec (list_eq_dec N.eq_dec) q []) as [->|Hq].
  { exfalso. cbn [app] in E. apply (f_equal (@length bytes)) in E. rewrite app_length in E. cbn [length] in E. lia. }
  pose proof (refresh_text _ _ _ _ H) as Hj. rewrite ancestors_snoc in H. cbn [removelast] in H.
  pose proof (ancestors_ne q Hq) as Hne. destruct (ancestors q) as [|a0 l0] eqn:Ea; [contradiction|]. rewrite <- Ea in *. clear Ea.
  cbn [refresh] in H. destruct (Get (p_json p) (q ++ [y])) as [v|e|] eqn:Eg; try discriminate H.
  assert (Hd : n_walk (upd_node (q ++ [y]) (with_value v) (p_core p)) (q ++ [y]) = Ok (with_value v n)).
  { pose proof (walk_upd (q ++ [y]) _ (with_value_label v) (p_core p) [] n Hn) as K. rewrite app_nil_r in K. exact K. }
  destruct t as [|z t _] using rev_ind.
  - rewrite app_nil_r in E. subst a. exists v. rewrite Hj. split; [exact Eg|]. rewrite P_Get_ne by exact Hane.
    assert (B : beneath (removelast (ancestors q)) (q ++ [y])).
    { pose proof (beneath_ancestors q y []) as B. unfold beneath in *. rewrite Forall_forall in *. intros a Hin. apply B, in_removelast, Hin. }
    rewrite (walk_refresh _ _ _ (q ++ [y]) H B). cbn [p_core]. rewrite Hd. cbn [bind]. rewrite with_value_value. reflexivity.
  - rewrite app_assoc in E. apply app_inj_tail in E. destruct E as [-> ->]. rewrite walk_app in Hd.
    match type of Hd with (do m <- ?w; _) = _ => destruct w as [m|e|] eqn:Em; try discriminate Hd end.
    eapply IH; [exact H|exact Em|reflexivity|exact Ha].
Qed.


Theorem addkv_above p k v a t p' : a <> [] -> P_AddKeyValue p k v (a ++ t) = PRet p' None -> asked_again p' a.
Proof.
  intros Ha H. unfold P_AddKeyValue in H. destruct k as [|k0 k1]; [discriminate H|]. set (k := k0 :: k1) in *.
  destruct (P_Get p (a ++ t)) as [json|e|] eqn:Eg; cbn [p_bind] in H; try discriminate H.
  destruct (a ++ t) as [|x q] eqn:Eq; [destruct a; [contradiction|discriminate Eq]|]. set (path := x :: q) in *.
  destruct (n_walk (p_core p) path) as [n|e|] eqn:En; cbn [p_bind] in H; try discriminate H.
  destruct (n_walk (p_core p) (removelast path)) as [up|e|]; cbn [p_pure] in H; try discriminate H. destruct (has_label k (n_down up)); [discriminate H|].
  destruct (2 <=? length json)%nat; [|discriminate H]. destruct ((hd 0 json =? 123) && (last json 0 =? 125))%bool; [|discriminate H].
  assert (R : exists j ds, refresh (ancestors path) (Par (upd_node path (append_node (Node k v ds)) (p_core p)) j) = PRet p' None).
  { unfold take_or_fail in H. destruct (2 <=? length k)%nat.
    - destruct (at_ v 0) as [c|e|]; cbn [p_pure] in H; try discriminate H. destruct (is_open c); [destruct (pCore v) as [ds|e|]; cbn [p_pure] in H; try discriminate H|];
        (destruct (AddKeyValue (p_json p) k (Some v) path) as [out|out e|]; cbn [p_core] in H; try discriminate H); eauto.
    - destruct (AddKeyValue (p_json p) k (Some v) path) as [out|out e|]; cbn [p_core] in H; try discriminate H; eauto. }
  destruct R as (j & ds & R). pose proof (walk_upd path _ (append_label (Node k v ds)) _ [] n En) as K. rewrite app_nil_r in K.
  apply (refresh_above path _ _ a t _ R K (eq_sym Eq) Ha).
Qed.

Lemma append_value c n : n_value (append_node c n) = n_value n. Proof. destruct n. reflexivity. Qed.
Lemma walk_keeps q f : (forall m, n_label (f m) = n_label m) -> (forall m, n_value (f m) = n_value m) -> forall n a t m, q = a ++ t -> n_walk n a = Ok m ->
  exists m', n_walk (upd_node q f n) a = Ok m' /\ n_value m' = n_value m.
Proof.
  intros Hf Hv n a t m -> Hm. rewrite upd_node_app.
  assert (Hl : forall z, n_label (upd_node t f z) = n_label z) by (intro; apply upd_node_label; exact Hf).
  pose proof (walk_upd a (upd_node t f) Hl n [] m Hm) as K. rewrite app_nil_r in K. cbn [n_walk] in K. exists (upd_node t f m). split; [exact K|].
  destruct t; cbn [upd_node]; [apply Hv|destruct m; reflexivity].
Qed.

(** After Add of a container the outermost container on the path still shows what it was. *)
Theorem add_above p v q p' : P_Add p v q = PRet p' None ->
  if opens v && (2 <=? length v)%nat
  then (forall a t, q = a ++ t -> (2 <= length a)%nat -> asked_again p' a) /\ (forall x t, q = x :: t -> P_Get p' [x] = P_Get p [x])
  else forall a t, q = a ++ t -> a <> [] -> asked_again p' a.
Proof.
  intro H. unfold P_Add in H. destruct v as [|c0 r0]; [discriminate H|]. set (v := c0 :: r0) in *.
  destruct (P_Get p q) as [json|e|] eqn:Eg; cbn [p_bind] in H; try discriminate H. cbv zeta in H.
  destruct q as [|x q].
  { destruct (opens v && (2 <=? length v)%nat)%bool; [split|]; try (intros a t E Ha; destruct a; [contradiction || (cbn in Ha; lia)|discriminate E]). intros x t E. discriminate E. }
  set (path := x :: q) in *. destruct (n_walk (p_core p) path) as [n|e|] eqn:En; cbn [p_bind] in H; try discriminate H. 
  destruct (2 <=? length json)%nat; [|discriminate H]. destruct ((hd 0 json =? 91) && (last json 0 =? 93))%bool; [|discriminate H].
  rewrite (andb_comm (opens v)). destruct ((2 <=? length v)%nat && opens v)%bool.
  - destruct (pCore v) as [ds|e|]; cbn [p_pure] in H; try discriminate H. unfold take_or_fail in H.
    destruct (Add_ (p_json p) v path) as [out|out e|]; cbn [p_core] in H; try discriminate H.
    set (f := append_node (Node (itoa (Z.of_nat (length (n_down n)))) v ds)) in *.
    assert (Hf : forall m, n_label (f m) = n_label m) by (intro; apply append_label).
    split.
    + intros a t E Ha. pose proof (walk_upd path f Hf _ [] n En) as K. rewrite app_nil_r in K. apply (refresh_above_most path _ _ a t _ H K E Ha).
    + intros y t E. injection E as <- <-. change (x :: q) with ([x] ++ q) in path. destruct (walk_prefix _ [x] q n En) as (m & Hm).
      destruct (walk_keeps path f Hf (append_value _) (p_core p) [x] q m eq_refl Hm) as (m' & Hm' & Hv').
      assert (Hd : forall l p1 m1, Forall (fun a => exists u, a = x :: u /\ u <> []) l -> refresh l p1 = PRet p' None -> n_walk (p_core p1) [x] = Ok m1 ->
        exists m2, n_walk (p_core p') [x] = Ok m2 /\ n_value m2 = n_value m1).
      { clear. induction l as [|a l IH]; intros p1 m1 HF R Hm1; cbn [refresh] in R; [injection R as ->; eauto|].
        inversion HF as [|? ? (u & -> & Hu) HF']; subst. destruct (Get (p_json p1) (x :: u)) as [w|e|]; try discriminate R.
        assert (E : exists m3, n_walk (upd_node (x :: u) (with_value w) (p_core p1)) [x] = Ok m3 /\ n_value m3 = n_value m1).
        { change (x :: u) with ([x] ++ u). rewrite upd_node_app. pose proof (walk_upd [x] (upd_node u (with_value w)) (fun z => upd_node_label u _ z (with_value_label w)) (p_core p1) [] m1 Hm1) as K.
          cbn [app] in K. rewrite K. cbn [n_walk]. eexists. split; [reflexivity|]. destruct u as [|y u]; [contradiction|]. destruct m1. reflexivity. }
        destruct E as (m3 & E1 & E2). destruct (IH _ m3 HF' R E1) as (m2 & F1 & F2). exists m2. split; [exact F1|congruence]. }
      assert (HF : Forall (fun a => exists u, a = x :: u /\ u <> []) (removelast (ancestors path))).
      { unfold path. cbn [app ancestors]. rewrite removelast_last. apply Forall_forall. intros a Hin. apply in_map_iff in Hin. destruct Hin as (u & <- & Hu).
        exists u. split; [reflexivity|]. intros ->. clear - Hu. induction q as [|y q IH] using rev_ind; [exact Hu|]. rewrite ancestors_snoc in Hu.
        destruct Hu as [Hu|Hu]; [destruct q; discriminate Hu|exact (IH Hu)]. }
      destruct (Hd _ _ m' HF H Hm') as (m2 & F1 & F2).
      rewrite !P_Get_ne by discriminate. rewrite F1, Hm. cbn [bind]. rewrite F2, Hv'. reflexivity.
  - unfold take_or_fail in H. destruct (Add_ (p_json p) v path) as [out|out e|]; cbn [p_core] in H; try discriminate H.
    intros a t E Ha. pose proof (walk_upd path _ (append_label (Node (itoa (Z.of_nat (length (n_down n)))) v [])) _ [] n En) as K. rewrite app_nil_r in K.
    apply (refresh_above path _ _ a t _ H K E Ha).
Qed.

Theorem insert_above p z v a t p' : a <> [] -> P_Insert p z v (a ++ t) = PRet p' None -> asked_again p' a.
Proof.
  intros Ha H. unfold P_Insert in H. destruct v as [|c0 r0]; [discriminate H|]. set (v := c0 :: r0) in *.
  destruct (P_Get p (a ++ t)) as [json|e|] eqn:Eg; cbn [p_bind] in H; try discriminate H. cbv zeta in H.
  destruct (a ++ t) as [|x q] eqn:Eq; [destruct a; [contradiction|discriminate Eq]|]. set (path := x :: q) in *.
  destruct (n_walk (p_core p) path) as [n|e|] eqn:En; cbn [p_bind] in H; try discriminate H.
  destruct (2 <=? length json)%nat; [|discriminate H]. destruct ((hd 0 json =? 91) && (last json 0 =? 93))%bool; [|discriminate H].
  assert (K : exists f out, (forall m, n_label (f m) = n_label m) /\ refresh (ancestors path) (Par (upd_node path f (p_core p)) out) = PRet p' None).
  { destruct ((2 <=? length v)%nat && opens v)%bool; [destruct (pCore v) as [ds|e|]; cbn [p_pure] in H; try discriminate H|];
      (destruct (n_insert (n_down n) z) as [ns|e|] eqn:E1; cbn [p_bind] in H; try discriminate H); unfold take_or_fail in H;
      (destruct (Insert (p_json p) z v path) as [out|out e|]; try discriminate H); cbn [p_core p_json] in H; do 2 eexists; (split; [|exact H]);
      intro m; cbn beta; rewrite append_label; apply with_down_label. }
  destruct K as (f & out & Hf & R). pose proof (walk_upd path f Hf _ [] n En) as K. rewrite app_nil_r in K.
  apply (refresh_above path _ _ a t _ R K (eq_sym Eq) Ha).
Qed.
