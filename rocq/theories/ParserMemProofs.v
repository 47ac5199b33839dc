(** The Parser with memory does what the Parser of Parser.v does, and writes to nothing it was handed. *)
From Coq Require Import String.
From Verif Require Import GoStd Core Errors Api Iter Typed Parser GoMem Mem SpecMem MemProofs ParserMem SpecParserMem.

Local Open Scope nat_scope.

(** ** Nodes *)
Section MnodeInd.
  Variable P : mnode -> Prop.
  Hypothesis H : forall l v d, Forall P d -> P (MNode l v d).
  Fixpoint mnode_ind' (n : mnode) : P n :=
    match n with
    | MNode l v d => H l v d ((fix go ds : Forall P ds := match ds with [] => Forall_nil P | x :: r => Forall_cons x (mnode_ind' x) (go r) end) d)
    end.
End MnodeInd.

Definition good_node (h : mem) (R : nat -> Prop) (n : mnode) : Prop := Forall (good h R) (node_windows n).
Definition good_label (h : mem) (R : nat -> Prop) (l : mlabel) : Prop := match l with Own _ => True | Seen s => good h R s end.

Lemma good_node_iff h R l v d : good_node h R (MNode l v d) <-> good_label h R l /\ good h R v /\ Forall (good_node h R) d.
Proof.
  unfold good_node. cbn [node_windows]. rewrite Forall_app, Forall_cons_iff.
  assert (E : Forall (good h R) (flat_map node_windows d) <-> Forall (fun n => Forall (good h R) (node_windows n)) d).
  { induction d as [|x d IH]; cbn [flat_map]; [split; constructor|]. rewrite Forall_app, Forall_cons_iff, IH. tauto. }
  rewrite E. destruct l as [t|s]; cbn [label_windows good_label]; [rewrite Forall_nil_iff; tauto|]. rewrite Forall_cons_iff, Forall_nil_iff. tauto.
Qed.

Lemma keeps_iff h R p : keeps h R p <-> good h R (mp_json p) /\ good_node h R (mp_core p).
Proof. unfold keeps, held. rewrite Forall_cons_iff. reflexivity. Qed.

Lemma good_weak h (R R' : nat -> Prop) w : (forall a, R a -> R' a) -> good h R w -> good h R' w.
Proof. intros H [V G]. split; [exact V|]. destruct G; auto. Qed.
Lemma good_node_weak h (R R' : nat -> Prop) n : (forall a, R a -> R' a) -> good_node h R n -> good_node h R' n.
Proof. intros H. unfold good_node. apply Forall_impl. intros w. apply good_weak. exact H. Qed.
Lemma keeps_weak h (R R' : nat -> Prop) p : (forall a, R a -> R' a) -> keeps h R p -> keeps h R' p.
Proof. intros H. unfold keeps. apply Forall_impl. intros w. apply good_weak. exact H. Qed.

Lemma good_later h h' R w : extends h h' -> good h R w -> good h' R w.
Proof. intros E [V G]. split; [exact (extends_valid _ _ _ E V)|exact G]. Qed.
Lemma good_node_later h h' R n : extends h h' -> good_node h R n -> good_node h' R n.
Proof. intros E. unfold good_node. apply Forall_impl. intros w. apply good_later. exact E. Qed.
Lemma keeps_later h h' R p : extends h h' -> keeps h R p -> keeps h' R p.
Proof. intros E. unfold keeps. apply Forall_impl. intros w. apply good_later. exact E. Qed.

(** Contents seen by two memories alike. *)
Definition same_at (h h' : mem) (w : bsl) : Prop := content h' w = content h w.
Lemma shown_same h h' n : Forall (same_at h h') (node_windows n) -> shown h' n = shown h n.
Proof.
  induction n as [l v d IH] using mnode_ind'. cbn [node_windows shown]. rewrite Forall_app, Forall_cons_iff. intros (Hl & Hv & Hd).
  f_equal.
  - destruct l as [t|s]; cbn [label_text label_windows] in *; [reflexivity|]. rewrite Forall_cons_iff in Hl. apply Hl.
  - exact Hv.
  - induction d as [|x d IHd]; [reflexivity|]. cbn [flat_map] in Hd. rewrite Forall_app in Hd. inversion IH as [|? ? Hx Hr]; subst. cbn [map]. f_equal; tauto.
Qed.
Lemma shown_later h h' R n : extends h h' -> good_node h R n -> shown h' n = shown h n.
Proof. intros E G. apply shown_same. refine (Forall_impl _ _ G). intros w [V _]. exact (extends_content h h' w E V). Qed.
Lemma shown_parser_later h h' R p : extends h h' -> keeps h R p -> shown_parser h' p = shown_parser h p.
Proof.
  intros E K. apply keeps_iff in K. destruct K as [[V _] G]. unfold shown_parser. rewrite (shown_later h h' R) by assumption.
  rewrite (extends_content h h') by assumption. reflexivity.
Qed.

Lemma nil_good h R : good h R nil_.
Proof. split; [apply nil_valid|right; reflexivity]. Qed.
Lemma nil_shows h : content h nil_ = [].
Proof. reflexivity. Qed.

Lemma good_window h R s v i j : good h R s -> window s v i j -> valid h v -> good h R v.
Proof. intros [_ G] (W0 & W1 & W2 & W3) V. split; [exact V|]. rewrite W1. destruct G; [left; assumption|right; lia]. Qed.

(** ** Results related *)
Definition rel {A B} (Q : A -> B -> Prop) (r : res A) (r' : res B) : Prop :=
  match r, r' with Ok a, Ok a' => Q a a' | Err e, Err e' => e = e' | Panic, Panic => True | _, _ => False end.
Lemma rel_bind {A B A' B'} (Q : A -> B -> Prop) (Q' : A' -> B' -> Prop) r r' k k' :
  rel Q r r' -> (forall a a', Q a a' -> rel Q' (k a) (k' a')) -> rel Q' (bind r k) (bind r' k').
Proof. intros H K. destruct r as [a|e|], r' as [a'|e'|]; cbn in *; try contradiction; auto. Qed.
Lemma rel_same {A B} (Q : A -> A -> Prop) (Q' : B -> B -> Prop) (r : res A) : (forall a, Q a a) -> rel Q r r.
Proof. intro H. destruct r; cbn; auto. Qed.
Lemma rel_eq {A} (r : res A) : rel eq r r.
Proof. destruct r; cbn; auto. Qed.

Section Loop.
  Variables (h : mem) (R : nat -> Prop) (json : bsl).
  Hypothesis GJ : good h R json.
  Let t := content h json.

  Definition shows1 (v : bsl) (x : bytes) : Prop := good h R v /\ x = content h v.
  Definition frame_ok (f : mframe) (g : frame) : Prop :=
    good_label h R (mf_label f) /\ good h R (mf_value f) /\ Forall (good_node h R) (mf_down f) /\
    g = Fr (label_text h (mf_label f)) (content h (mf_value f)) (map (shown h) (mf_down f)).
  Definition node_ok (n : mnode) (m : node) : Prop := good_node h R n /\ m = shown h n.
  Definition nodes_ok (ns : list mnode) (ms : list node) : Prop := Forall (good_node h R) ns /\ ms = map (shown h) ns.

  Lemma json_len : length t = b_len json.
  Proof. apply content_len. apply GJ. Qed.

  Lemma cut_ok i j : j <= length t -> rel shows1 (cut json i j) (slice t i j).
  Proof.
    intro Hj. rewrite json_len in Hj. unfold cut, slice. rewrite json_len. destruct (i <=? j) eqn:E; cbn [andb]; [|exact I].
    apply Nat.leb_le in E. pose proof GJ as [V _]. pose proof V as [V1 V2].
    replace (j <=? b_cap json) with true by (symmetry; apply Nat.leb_le; lia). replace (j <=? b_len json) with true by (symmetry; apply Nat.leb_le; lia).
    cbn [rel]. destruct (sub_spec h json i j V ltac:(lia)) as (v & S & W & Vv & C). unfold sub in S.
    replace ((i <=? j) && (j <=? b_cap json)) with true in S by (symmetry; apply andb_true_iff; split; apply Nat.leb_le; lia).
    cbn [ret] in S. injection S as S. unfold ret in S. rewrite S. split; [exact (good_window h R json v i j GJ W Vv)|symmetry; exact C].
  Qed.

  Lemma add_down_ok n m up up' : node_ok n m -> Forall2 frame_ok up up' -> rel (Forall2 frame_ok) (m_add_down n up) (add_down m up').
  Proof.
    intros [G ->] F. destruct F as [|f g up up' (F1 & F2 & F3 & ->) F]; cbn; [exact I|]. constructor; [|exact F].
    split; [exact F1|]. split; [exact F2|]. split; [constructor; assumption|]. reflexivity.
  Qed.
  Lemma close_frame_ok f g : frame_ok f g -> node_ok (m_close_frame f) (close_frame g).
  Proof.
    intros (F1 & F2 & F3 & ->). unfold m_close_frame, close_frame. cbn [fr_label fr_value fr_down]. split.
    - apply good_node_iff. split; [exact F1|]. split; [exact F2|]. apply Forall_rev. exact F3.
    - cbn [shown]. rewrite map_rev. reflexivity.
  Qed.
  Lemma frame_add_ok n m f g : node_ok n m -> frame_ok f g -> frame_ok (m_frame_add n f) (frame_add m g).
  Proof. intros [G ->] (F1 & F2 & F3 & ->). split; [exact F1|]. split; [exact F2|]. split; [constructor; assumption|reflexivity]. Qed.
  Lemma go_up_ok v x up up' : shows1 v x -> Forall2 frame_ok up up' -> rel (Forall2 frame_ok) (m_go_up v up) (go_up x up').
  Proof.
    intros [G ->] F. destruct F as [|f g up up' Ff F]; cbn; [exact I|]. destruct F as [|f2 g2 up up' Ff2 F]; cbn; [constructor|].
    constructor; [|exact F]. apply frame_add_ok; [|exact Ff2]. apply close_frame_ok. destruct Ff as (F1 & F2 & F3 & ->).
    split; [exact F1|]. split; [exact G|]. split; [exact F3|reflexivity].
  Qed.
  Lemma close_onto_ok up up' : Forall2 frame_ok up up' -> forall n m, node_ok n m -> nodes_ok (m_close_onto n up) (close_onto m up').
  Proof.
    induction 1 as [|f g up up' Ff F IH]; intros n m N; cbn [m_close_onto close_onto].
    - destruct N as [G ->]. split; [constructor; [exact G|constructor]|reflexivity].
    - destruct F as [|f2 g2 up up' Ff2 F].
      + destruct N as [G ->]. destruct Ff as (F1 & F2 & F3 & ->). cbn [fr_down]. split; [apply Forall_rev; constructor; assumption|].
        rewrite map_rev. reflexivity.
      + apply IH. apply close_frame_ok. apply frame_add_ok; assumption.
  Qed.
  Lemma close_all_ok up up' : Forall2 frame_ok up up' -> nodes_ok (m_close_all up) (close_all up').
  Proof.
    destruct 1 as [|f g up up' Ff F]; cbn [m_close_all close_all]; [split; [constructor|reflexivity]|].
    destruct F as [|f2 g2 up up' Ff2 F].
    - destruct Ff as (F1 & F2 & F3 & ->). cbn [fr_down]. split; [apply Forall_rev; exact F3|]. rewrite map_rev. reflexivity.
    - apply close_onto_ok; [constructor; assumption|]. apply close_frame_ok. exact Ff.
  Qed.
  Lemma leaf_ok l x v y : good_label h R l -> x = label_text h l -> shows1 v y -> node_ok (MNode l v []) (Node x y []).
  Proof. intros G -> [G2 ->]. split; [|reflexivity]. apply good_node_iff. split; [exact G|]. split; [exact G2|constructor]. Qed.

  Lemma loop_ok : forall rest i inq start stop key kx vs last braces idx up up',
    i + length rest = length t -> stop <= length t -> shows1 key kx -> Forall2 frame_ok up up' ->
    rel nodes_ok (m_loop json t rest i inq start stop key vs last braces idx up) (p_loop t rest i inq start stop kx vs last braces idx up').
  Proof.
    induction rest as [|c r IH]; intros i inq start stop key kx vs last braces idx up up' Hi Hs K F; cbn [m_loop p_loop].
    - apply close_all_ok. exact F.
    - cbn [length] in Hi. assert (Hi' : S i + length r = length t) by lia.
      destruct (c =? 34)%N.
      { destruct inq; [|apply IH; assumption]. destruct (qscan t i) as [[]|]; apply IH; try assumption; lia. }
      destruct inq; [apply IH; assumption|].
      destruct (is_open c).
      { apply (rel_bind (fun l x => good_label h R l /\ x = label_text h l)).
        - unfold m_open_label, open_label. destruct (last =? 58)%N; [destruct K as [G ->]; split; [exact G|reflexivity]|].
          destruct idx as [|n idx]; cbn; [exact I|]. split; [exact I|reflexivity].
        - intros l x [G ->]. destruct F as [|f g up up' Ff F]; [exact I|]. apply IH; try assumption.
          constructor; [|constructor; assumption]. split; [exact G|]. split; [apply nil_good|]. split; [constructor|reflexivity]. }
      destruct (is_close c).
      { apply (rel_bind (fun a a' => Forall2 frame_ok (fst a) (fst a') /\ snd a = snd a')).
        - destruct (last =? 58)%N; [|destruct (last =? 44)%N].
          + apply (rel_bind shows1); [apply cut_ok; lia|]. intros v x Hv. apply (rel_bind (Forall2 frame_ok)).
            * apply add_down_ok; [|exact F]. destruct K as [G ->]. apply (leaf_ok (Seen key)); [exact G|reflexivity|exact Hv].
            * intros u u' Hu. split; [exact Hu|reflexivity].
          + apply (rel_bind eq); [apply rel_eq|]. intros n ? <-. apply (rel_bind shows1); [apply cut_ok; lia|]. intros v x Hv.
            apply (rel_bind (Forall2 frame_ok)).
            * apply add_down_ok; [|exact F]. apply (leaf_ok (Own _)); [exact I|reflexivity|exact Hv].
            * intros u u' Hu. split; [exact Hu|reflexivity].
          + split; [exact F|reflexivity].
        - intros [u vs1] [u' vs1'] [Hu E]. cbn [fst snd] in Hu, E. subst vs1'. apply (rel_bind eq); [apply rel_eq|]. intros [bp br] ? <-.
          apply (rel_bind shows1); [apply cut_ok; lia|]. intros v x Hv. apply (rel_bind eq); [apply rel_eq|]. intros [z ix] ? <-.
          apply (rel_bind (Forall2 frame_ok)); [apply go_up_ok; assumption|]. intros w w' Hw. apply IH; assumption. }
      destruct (c =? 58)%N.
      { apply (rel_bind shows1); [apply cut_ok; exact Hs|]. intros k x Hk. apply IH; assumption. }
      destruct (c =? 44)%N; [|apply IH; assumption].
      apply (rel_bind (Forall2 frame_ok)).
      + destruct (last =? 58)%N; [|destruct ((last =? 44)%N || (last =? 91)%N); [|exact F]].
        * apply (rel_bind shows1); [apply cut_ok; lia|]. intros v x Hv. apply add_down_ok; [|exact F].
          destruct K as [G ->]. apply (leaf_ok (Seen key)); [exact G|reflexivity|exact Hv].
        * apply (rel_bind eq); [apply rel_eq|]. intros n ? <-. apply (rel_bind shows1); [apply cut_ok; lia|]. intros v x Hv.
          apply add_down_ok; [|exact F]. apply (leaf_ok (Own _)); [exact I|reflexivity|exact Hv].
      + intros u u' Hu. apply (rel_bind eq); [apply rel_eq|]. intros ix ? <-. apply IH; assumption.
  Qed.
End Loop.

(** ** Parse *)
Definition parsed (h : mem) (R : nat -> Prop) (r : option (list mnode * mem)) (u : res (list node)) : Prop :=
  match r with None => u = Panic | Some (ns, h') => h' = h /\ Forall (good_node h R) ns /\ u = Ok (map (shown h) ns) end.

Lemma skip_space_no_err t i e : skip_space t i <> Err e.
Proof. revert i. induction t as [|c t IH]; intro i; cbn; [discriminate|]. destruct (space c); [apply IH|discriminate]. Qed.

Lemma skip_space_from t i n : skip_space t i = Ok n -> i <= n <= i + length t.
Proof.
  revert i. induction t as [|c t IH]; intro i; cbn; [discriminate|]. destruct (space c).
  - intro H. apply IH in H. lia.
  - intro H. inversion H. lia.
Qed.

Lemma seq_top_no_err s e : seq_top s <> Err e. Proof. destruct s; discriminate. Qed.
Lemma seq_pop_no_err s e : seq_pop s <> Err e. Proof. destruct s; discriminate. Qed.
Lemma seq_inc_no_err s e : seq_inc s <> Err e. Proof. destruct s; discriminate. Qed.
Lemma slice_no_err t i j e : slice t i j <> Err e. Proof. unfold slice. destruct (_ && _); discriminate. Qed.
Lemma add_down_no_err n u e : add_down n u <> Err e. Proof. destruct u; discriminate. Qed.
Lemma go_up_no_err v u e : go_up v u <> Err e. Proof. destruct u as [|? [|? ?]]; discriminate. Qed.
Lemma bind_no_err {A B} (r : res A) (k : A -> res B) e : (forall e, r <> Err e) -> (forall a, k a <> Err e) -> bind r k <> Err e.
Proof. intros H K. destruct r; cbn; [apply K|exfalso; eapply H; reflexivity|discriminate]. Qed.
Lemma p_loop_no_err t : forall rest i inq start stop key vs last braces idx up e,
  p_loop t rest i inq start stop key vs last braces idx up <> Err e.
Proof.
  assert (X1 := seq_top_no_err). assert (X2 := seq_pop_no_err). assert (X3 := seq_inc_no_err). assert (X4 := slice_no_err t).
  assert (X5 := add_down_no_err). assert (X6 := go_up_no_err).
  induction rest as [|c r IH]; intros i inq start stop key vs last braces idx up e; cbn [p_loop]; [discriminate|].
  destruct (c =? 34)%N. { destruct inq; [|apply IH]. destruct (qscan t i) as [[]|]; apply IH. }
  destruct inq; [apply IH|].
  destruct (is_open c).
  { apply bind_no_err; [intro; unfold open_label; destruct (last =? 58)%N; [discriminate|apply bind_no_err; [intro; apply X1|discriminate]]|].
    intro l. destruct up; [discriminate|apply IH]. }
  destruct (is_close c).
  { apply bind_no_err.
    - intro. destruct (last =? 58)%N; [|destruct (last =? 44)%N; [|discriminate]].
      + apply bind_no_err; [intro; apply X4|intro]. apply bind_no_err; [intro; apply X5|discriminate].
      + apply bind_no_err; [intro; apply X1|intro]. apply bind_no_err; [intro; apply X4|intro]. apply bind_no_err; [intro; apply X5|discriminate].
    - intros [u v]. apply bind_no_err; [intro; apply X2|intros [bp br]]. apply bind_no_err; [intro; apply X4|intro].
      apply bind_no_err; [intro; apply X2|intros [z ix]]. apply bind_no_err; [intro; apply X6|intro]. apply IH. }
  destruct (c =? 58)%N. { apply bind_no_err; [intro; apply X4|intro]. apply IH. }
  destruct (c =? 44)%N; [|apply IH]. apply bind_no_err.
  - intro. destruct (last =? 58)%N; [|destruct ((last =? 44)%N || (last =? 91)%N); [|discriminate]].
    + apply bind_no_err; [intro; apply X4|intro]. apply X5.
    + apply bind_no_err; [intro; apply X1|intro]. apply bind_no_err; [intro; apply X4|intro]. apply X5.
  - intro. apply bind_no_err; [intro; apply X3|intro]. apply IH.
Qed.

Lemma pCoreM_spec h R json : good h R json -> parsed h R (pCoreM json h) (pCore (content h json)).
Proof.
  intro G. unfold pCoreM, mbind, look, pCore. destruct (length (content h json) <? 2) eqn:E2.
  - cbn. split; [reflexivity|]. split; [constructor|reflexivity].
  - destruct (skip_space (content h json) 0) as [start|e|] eqn:ES; cbn [bind eval]; [|exfalso; exact (skip_space_no_err _ _ _ ES)|reflexivity].
    pose proof (skip_space_from _ _ _ ES) as HS. cbn [Nat.add] in HS.
    assert (L := loop_ok h R json G (skipn start (content h json)) start false start 0 nil_ [] 0 0%N [] [0]
      [MFr (Own []) nil_ []] [Fr [] [] []]).
    rewrite skipn_length in L. specialize (L ltac:(lia) ltac:(lia)). specialize (L (conj (nil_good h R) eq_refl)).
    assert (F : Forall2 (frame_ok h R) [MFr (Own []) nil_ []] [Fr [] [] []]).
    { constructor; [|constructor]. split; [exact I|]. split; [apply nil_good|]. split; [constructor|reflexivity]. }
    specialize (L F). unfold rel in L.
    pose proof (p_loop_no_err (content h json) (skipn start (content h json)) start false start 0 [] 0 0%N [] [0] [Fr [] [] []]) as NE.
    destruct (m_loop _ _ _ _ _ _ _ _ _ _ _ _ _) as [ns|e|]; destruct (p_loop _ _ _ _ _ _ _ _ _ _ _ _) as [ms|e'|]; try contradiction; cbn [eval parsed ret panic].
    + destruct L as [L1 ->]. split; [reflexivity|]. split; [exact L1|reflexivity].
    + exfalso. exact (NE e' eq_refl).
    + reflexivity.
Qed.

Theorem ParseM_spec h R json : good h R json ->
  match ParseM json h with
  | None => Parse (content h json) = Panic
  | Some (inl e, h') => h' = h /\ Parse (content h json) = Err e
  | Some (inr p, h') => h' = h /\ keeps h R p /\ Parse (content h json) = Ok (shown_parser h p)
  end.
Proof.
  intro G. pose proof (pCoreM_spec h R json G) as P. unfold ParseM, mbind, Parse. destruct (pCoreM json h) as [[ns h']|]; cbn [parsed] in P; [|rewrite P; reflexivity].
  destruct P as (-> & F & ->). cbn [bind ret]. destruct ns as [|n ns]; cbn [map]; [split; reflexivity|]. split; [reflexivity|]. split; [|reflexivity].
  apply keeps_iff. split; [exact G|]. inversion F; assumption.
Qed.

(** ** Walking *)
Lemma label_shown h n : n_label (shown h n) = label_text h (m_label n).
Proof. destruct n; reflexivity. Qed.
Lemma value_shown h n : n_value (shown h n) = content h (m_value n).
Proof. destruct n; reflexivity. Qed.
Lemma down_shown h n : n_down (shown h n) = map (shown h) (m_down n).
Proof. destruct n; reflexivity. Qed.
Lemma good_parts h R n : good_node h R n -> good_label h R (m_label n) /\ good h R (m_value n) /\ Forall (good_node h R) (m_down n).
Proof. destruct n as [l v d]. apply good_node_iff. Qed.

Lemma find_shown h x ns : find_node x (map (shown h) ns) = option_map (shown h) (m_find h x ns).
Proof. induction ns as [|n r IH]; [reflexivity|]. cbn [map find_node m_find]. rewrite label_shown. destruct (bytes_eqb _ x); [reflexivity|exact IH]. Qed.
Lemma find_good h R x ns n : Forall (good_node h R) ns -> m_find h x ns = Some n -> good_node h R n.
Proof.
  induction 1 as [|m r G F IH]; cbn [m_find]; [discriminate|]. destruct (bytes_eqb _ x); [intro E; inversion E; subst; exact G|exact IH].
Qed.
Lemma walk_ok h R path : forall n, good_node h R n -> rel (node_ok h R) (m_walk h n path) (n_walk (shown h n) path).
Proof.
  induction path as [|x p IH]; intros n G; cbn [m_walk n_walk].
  - split; [exact G|reflexivity].
  - rewrite down_shown, find_shown. destruct (m_find h x (m_down n)) as [c|] eqn:E; cbn [option_map]; [|reflexivity].
    apply IH. exact (find_good h R x _ c (proj2 (proj2 (good_parts h R n G))) E).
Qed.
Lemma has_shown h x ns : has_label x (map (shown h) ns) = m_has_label h x ns.
Proof. unfold has_label, m_has_label. rewrite find_shown. destruct (m_find h x ns); reflexivity. Qed.

Section UpdNode.
  Variables (h : mem) (R : nat -> Prop) (f : mnode -> mnode) (g : node -> node).
  Hypothesis Hf : forall n, good_node h R n -> good_node h R (f n) /\ shown h (f n) = g (shown h n).
  Lemma upd_first_ok x (f' : mnode -> mnode) g' : (forall n, good_node h R n -> good_node h R (f' n) /\ shown h (f' n) = g' (shown h n)) ->
    forall ns, Forall (good_node h R) ns ->
    Forall (good_node h R) (m_upd_first h x f' ns) /\ map (shown h) (m_upd_first h x f' ns) = upd_first x g' (map (shown h) ns).
  Proof.
    intros H ns F. induction F as [|n r G F IH]; cbn [m_upd_first map upd_first]; [split; [constructor|reflexivity]|].
    rewrite label_shown. destruct (bytes_eqb _ x); cbn [map].
    - destruct (H n G) as [G' ->]. split; [constructor; assumption|reflexivity].
    - destruct IH as [IH1 ->]. split; [constructor; assumption|reflexivity].
  Qed.
  Lemma upd_node_ok path : forall n, good_node h R n -> good_node h R (m_upd_node h path f n) /\ shown h (m_upd_node h path f n) = upd_node path g (shown h n).
  Proof.
    induction path as [|x p IH]; intros n G; [apply Hf; exact G|]. destruct n as [l v d]. cbn [m_upd_node upd_node shown].
    apply good_node_iff in G. destruct G as (G1 & G2 & G3). destruct (upd_first_ok x _ _ IH d G3) as [U ->]. split; [|reflexivity].
    apply good_node_iff. split; [exact G1|]. split; [exact G2|exact U].
  Qed.
End UpdNode.

Lemma with_value_ok h R v n : good h R v -> good_node h R n -> good_node h R (m_with_value v n) /\ shown h (m_with_value v n) = with_value (content h v) (shown h n).
Proof. intros V G. destruct n as [l v' d]. apply good_node_iff in G. split; [apply good_node_iff; tauto|reflexivity]. Qed.
Lemma with_label_ok h R t n : good_node h R n -> good_node h R (m_with_label (Own t) n) /\ shown h (m_with_label (Own t) n) = with_label t (shown h n).
Proof. intros G. destruct n as [l v' d]. apply good_node_iff in G. split; [apply good_node_iff; cbn; tauto|reflexivity]. Qed.
Lemma with_down_ok h R ns n : Forall (good_node h R) ns -> good_node h R n ->
  good_node h R (m_with_down ns n) /\ shown h (m_with_down ns n) = with_down (map (shown h) ns) (shown h n).
Proof. intros V G. destruct n as [l v' d]. apply good_node_iff in G. split; [apply good_node_iff; tauto|reflexivity]. Qed.
Lemma append_node_ok h R c n : good_node h R c -> good_node h R n ->
  good_node h R (m_append_node c n) /\ shown h (m_append_node c n) = append_node (shown h c) (shown h n).
Proof.
  intros C G. unfold m_append_node, append_node. rewrite down_shown. change [shown h c] with (map (shown h) [c]). rewrite <- map_app.
  apply with_down_ok; [|exact G]. apply Forall_app. split; [apply (good_parts h R n G)|constructor; [exact C|constructor]].
Qed.
Lemma drop_label_ok h R x n : good_node h R n -> good_node h R (m_drop_label h x n) /\ shown h (m_drop_label h x n) = drop_label x (shown h n).
Proof.
  intro G. unfold m_drop_label, drop_label. rewrite down_shown.
  assert (E : filter (fun d => negb (bytes_eqb (n_label d) x)) (map (shown h) (m_down n)) =
              map (shown h) (filter (fun d => negb (bytes_eqb (label_text h (m_label d)) x)) (m_down n))).
  { induction (m_down n) as [|d r IH]; [reflexivity|]. cbn [map filter]. rewrite label_shown. destruct (bytes_eqb _ x); cbn [negb map]; [exact IH|rewrite IH; reflexivity]. }
  rewrite E. apply with_down_ok; [|exact G]. pose proof (proj2 (proj2 (good_parts h R n G))) as F.
  rewrite Forall_forall in *. intros y Hy. apply filter_In in Hy. apply F. apply Hy.
Qed.
Lemma relabel_ok h R index : forall ns i, Forall (good_node h R) ns ->
  Forall (good_node h R) (m_relabel ns i index) /\ map (shown h) (m_relabel ns i index) = relabel (map (shown h) ns) i index.
Proof.
  induction ns as [|n r IH]; intros i F; cbn [m_relabel map relabel]; [split; [constructor|reflexivity]|]. inversion F as [|? ? G Fr]; subst.
  destruct (IH (S i) Fr) as [I1 ->]. destruct (index <=? Z.of_nat i)%Z; [|split; [constructor; assumption|reflexivity]].
  destruct (with_label_ok h R (itoa (Z.of_nat i + 1)) n G) as [W ->]. split; [constructor; assumption|reflexivity].
Qed.
Lemma insert_ok h R ns index : Forall (good_node h R) ns -> rel (nodes_ok h R) (m_insert ns index) (n_insert (map (shown h) ns) index).
Proof.
  intro F. unfold m_insert, n_insert. destruct ns as [|n r]; cbn [map]; [reflexivity|]. change (shown h n :: map (shown h) r) with (map (shown h) (n :: r)).
  rewrite map_length. destruct (_ <? index)%Z; [reflexivity|]. destruct (index <? 0)%Z; [exact I|]. destruct (relabel_ok h R index (n :: r) 0 F) as [A B].
  split; [exact A|symmetry; exact B].
Qed.

(** ** cleanValue *)
Lemma trim1_suffix t : exists u, t = u ++ trim1 t.
Proof.
  induction t as [|c t IH]; [exists []; reflexivity|]. cbn [trim1]. destruct t as [|d t]; [exists []; reflexivity|].
  destruct (space c); [|exists []; reflexivity]. destruct IH as [u E]. exists (c :: u). cbn [app]. rewrite <- E. reflexivity.
Qed.
Lemma trim1_nonempty t : t <> [] -> trim1 t <> [].
Proof. induction t as [|c t IH]; [contradiction|]. intros _. cbn [trim1]. destruct t as [|d t]; [discriminate|]. destruct (space c); [apply IH; discriminate|discriminate]. Qed.
Lemma trims t : exists u w, t = u ++ rev (trim1 (rev (trim1 t))) ++ w /\ length u = length t - length (trim1 t).
Proof.
  destruct (trim1_suffix t) as [u E]. destruct (trim1_suffix (rev (trim1 t))) as [w W].
  exists u, (rev w). split; [|apply (f_equal (@length _)) in E; rewrite app_length in E; lia].
  assert (X : trim1 t = rev (trim1 (rev (trim1 t))) ++ rev w) by (rewrite <- rev_app_distr, <- W, rev_involutive; reflexivity).
  rewrite <- X. exact E.
Qed.

Lemma middle {A} (u x w : list A) : firstn (length x) (skipn (length u) (u ++ x ++ w)) = x.
Proof. rewrite skipn_app, skipn_all, Nat.sub_diag. cbn [app skipn]. rewrite firstn_app, Nat.sub_diag, firstn_all. cbn [firstn]. apply app_nil_r. Qed.

Lemma cleanValueM_spec h v : valid h v ->
  match cleanValueM v h with
  | None => cleanValue (content h v) = Panic
  | Some (o, h') => h' = h /\ valid h o /\ (exists i j, window v o i j) /\ cleanValue (content h v) = Ok (content h o)
  end.
Proof.
  intro V. unfold cleanValueM, mbind, look, cleanValue. pose proof (content_len h v V) as L. remember (content h v) as t eqn:Et.
  destruct t as [|c0 t0].
  - cbn. split; [reflexivity|]. split; [exact V|]. split; [exists 0, (b_len v); unfold window; cbn in L; lia|]. rewrite <- Et. reflexivity.
  - assert (NE : c0 :: t0 <> []) by discriminate. remember (c0 :: t0) as t eqn:Ec. clear c0 t0 Ec.
    destruct (trims t) as (u & w & D & Lu). remember (rev (trim1 (rev (trim1 t)))) as x eqn:Ex.
    assert (NX : x <> []).
    { intro X. rewrite X in Ex. symmetry in Ex. apply (f_equal (@rev _)) in Ex. rewrite rev_involutive in Ex. cbn in Ex.
      apply (trim1_nonempty (rev (trim1 t))); [|exact Ex]. intro Y. apply (f_equal (@rev _)) in Y. rewrite rev_involutive in Y.
      exact (trim1_nonempty t NE Y). }
    rewrite <- Lu. assert (Lx : length x > 0) by (destruct x; [contradiction|cbn; lia]).
    assert (LT : length u + length x + length w = b_len v) by (rewrite <- L, D, !app_length; lia).
    assert (E1 : nth (length u) t 0%N = hd 0%N x).
    { rewrite D. rewrite app_nth2, Nat.sub_diag by lia. destruct x; [contradiction|reflexivity]. }
    assert (E2 : nth (pred (length u + length x)) t 0%N = last x 0%N).
    { rewrite D. rewrite app_nth2 by lia. replace (pred (length u + length x) - length u) with (pred (length x)) by lia. rewrite app_nth1 by lia.
      clear - NX. destruct (exists_last NX) as (y & a & ->). rewrite last_last, app_length. cbn [length]. replace (pred (length y + 1)) with (length y) by lia.
      apply nth_middle. }
    rewrite E1, E2. destruct ((hd 0%N x =? 34)%N && (last x 0%N =? 34)%N) eqn:Q.
    + destruct x as [|a x]; [contradiction|]. destruct x as [|a' x].
      * unfold sub. replace (S (length u) <=? pred (length u + length [a])) with false by (symmetry; apply Nat.leb_gt; cbn [length]; lia). reflexivity.
      * destruct (sub_spec h v (S (length u)) (pred (length u + length (a :: a' :: x))) V ltac:(cbn [length] in *; lia)) as (o & -> & W & Vo & C).
        split; [reflexivity|]. split; [exact Vo|]. split; [eexists _, _; exact W|]. f_equal. rewrite C, <- Et, D.
        replace (pred (length u + length (a :: a' :: x)) - S (length u)) with (length x) by (cbn [length]; lia).
        assert (NY : a' :: x <> []) by discriminate. destruct (exists_last NY) as (y & z & Ey). rewrite Ey, removelast_last.
        assert (Ly : length x = length y) by (apply (f_equal (@length _)) in Ey; rewrite app_length in Ey; cbn [length] in Ey; lia).
        rewrite Ly. replace (u ++ (a :: y ++ [z]) ++ w) with ((u ++ [a]) ++ y ++ ([z] ++ w)) by (rewrite <- !app_assoc; cbn [app]; rewrite <- !app_assoc; reflexivity).
        replace (S (length u)) with (length (u ++ [a])) by (rewrite app_length; cbn; lia). symmetry. apply middle.
    + destruct (sub_spec h v (length u) (length u + length x) V ltac:(lia)) as (o & -> & W & Vo & C).
      split; [reflexivity|]. split; [exact Vo|]. split; [eexists _, _; exact W|]. f_equal. rewrite C, <- Et.
      replace (length u + length x - length u) with (length x) by lia. rewrite D. symmetry. apply middle.
Qed.

(** ** Get *)
Lemma walk_windows h q : forall m n, m_walk h m q = Ok n -> incl (node_windows n) (node_windows m).
Proof.
  induction q as [|y q IH]; intros m n; cbn [m_walk]; [intro E; inversion E; apply incl_refl|].
  destruct (m_find h y (m_down m)) as [c|] eqn:F; [|discriminate]. intro E. apply IH in E. refine (incl_tran E _).
  destruct m as [l v d]. cbn [m_down node_windows] in *. apply incl_appr, incl_tl. clear - F.
  induction d as [|a d IHd]; cbn [m_find] in F; [discriminate|]. cbn [flat_map]. destruct (bytes_eqb _ y); [inversion F; subst; apply incl_appl, incl_refl|].
  apply incl_appr. exact (IHd F).
Qed.
Theorem P_GetM_spec h R p path : keeps h R p ->
  match P_GetM p path h with
  | None => P_Get (shown_parser h p) path = Panic
  | Some (inl e, h') => h' = h /\ P_Get (shown_parser h p) path = Err e
  | Some (inr v, h') => h' = h /\ valid h v /\ (exists w i j, In w (held p) /\ window w v i j) /\ good h R v /\
      P_Get (shown_parser h p) path = Ok (content h v)
  end.
Proof.
  intro K. pose proof K as K0. apply keeps_iff in K. destruct K as [GJ GN]. destruct path as [|x path].
  - cbn. split; [reflexivity|]. split; [apply GJ|]. split; [|split; [exact GJ|reflexivity]]. exists (mp_json p), 0, (b_len (mp_json p)).
    split; [left; reflexivity|]. unfold window. lia.
  - unfold P_GetM, P_Get, mbind, ask. cbn [shown_parser p_core]. pose proof (walk_ok h R (x :: path) (mp_core p) GN) as W. unfold rel in W.
    destruct (m_walk h (mp_core p) (x :: path)) as [n|e|] eqn:E; destruct (n_walk (shown h (mp_core p)) (x :: path)) as [m|e'|]; try contradiction; cbn [bind].
    + destruct W as [G ->]. rewrite value_shown. pose proof (good_parts h R n G) as (_ & GV & _).
      pose proof (cleanValueM_spec h (m_value n) (proj1 GV)) as C. destruct (cleanValueM (m_value n) h) as [[o h']|]; [|exact C].
      destruct C as (-> & Vo & (i & j & Wi) & ->). cbn [ret]. split; [reflexivity|]. split; [exact Vo|]. split; [|split; [exact (good_window h R _ o i j GV Wi Vo)|reflexivity]].
      exists (m_value n), i, j. split; [|exact Wi]. right. apply (walk_windows _ _ _ _ E). destruct n as [l v d]. cbn [node_windows m_value]. apply in_app_iff. right. left. reflexivity.
    + subst e'. split; reflexivity.
    + reflexivity.
Qed.

(** ** Updates *)
Lemma or_new_here h (R : nat -> Prop) a : R a -> or_new h R a.
Proof. left. assumption. Qed.
Lemma or_new_twice h h' R a : extends h h' -> or_new h' (or_new h R) a -> or_new h R a.
Proof. intros E [H|H]; [exact H|]. right. apply extends_len in E. lia. Qed.
Lemma pb_base h h1 R r u : extends h h1 -> parser_behaves h1 (or_new h R) r u -> parser_behaves h R r u.
Proof.
  intros E. destruct r as [[[p e] h']|]; cbn [parser_behaves]; [|auto]. intros (H1 & H2 & H3). split; [exact (extends_trans _ _ _ E H1)|]. split; [|exact H3].
  refine (keeps_weak _ _ _ _ _ H2). intros a. apply or_new_twice. exact E.
Qed.
Lemma pb_ret h R p e : keeps h R p -> parser_behaves h R (ret (p, e) h) (PRet (shown_parser h p) e).
Proof. intro K. split; [apply extends_refl|]. split; [|reflexivity]. refine (keeps_weak _ _ _ _ _ K). apply or_new_here. Qed.
Lemma pb_bind {A B} h R (Q : A -> B -> Prop) p (r : res A) (r' : res B) k k' : keeps h R p -> rel Q r r' ->
  (forall a a', Q a a' -> parser_behaves h R (k a h) (k' a')) -> parser_behaves h R (mp_bind p r k h) (p_bind (shown_parser h p) r' k').
Proof.
  intros K H C. destruct r as [a|e|], r' as [a'|e'|]; cbn [rel mp_bind p_bind] in *; try contradiction; [apply C; exact H| |reflexivity]. subst e'. apply pb_ret. exact K.
Qed.
Lemma pb_pure {A B} h R (Q : A -> B -> Prop) (r : res A) (r' : res B) (k : A -> PM) k' : rel Q r r' ->
  (forall a a', Q a a' -> parser_behaves h R (k a h) (k' a')) -> parser_behaves h R (mbind (eval r) k h) (p_pure r' k').
Proof.
  intros H C. unfold mbind. destruct r as [a|e|], r' as [a'|e'|]; cbn [rel eval ret panic p_pure] in *; try contradiction; try reflexivity. apply C; exact H.
Qed.
Lemma pb_parse h R v (k : list mnode -> PM) k' : good h R v -> (forall ns, Forall (good_node h R) ns -> parser_behaves h R (k ns h) (k' (map (shown h) ns))) ->
  parser_behaves h R (mbind (pCoreM v) k h) (p_pure (pCore (content h v)) k').
Proof.
  intros G C. unfold mbind. pose proof (pCoreM_spec h R v G) as P. destruct (pCoreM v h) as [[ns h']|]; cbn [parsed] in P; [|rewrite P; reflexivity].
  destruct P as (-> & F & ->). cbn [p_pure]. apply C. exact F.
Qed.
Lemma pb_get h R p path (k : err + bsl -> PM) k' : keeps h R p ->
  (forall e, parser_behaves h R (k (inl e) h) (PRet (shown_parser h p) (Some e))) ->
  (forall v, good h R v -> parser_behaves h R (k (inr v) h) (k' (content h v))) ->
  parser_behaves h R (mbind (P_GetM p path) k h) (p_bind (shown_parser h p) (P_Get (shown_parser h p) path) k').
Proof.
  intros K H1 H2. unfold mbind. pose proof (P_GetM_spec h R p path K) as P. destruct (P_GetM p path h) as [[[e|v] h']|]; [| |rewrite P; reflexivity].
  - destruct P as (-> & ->). apply H1.
  - destruct P as (-> & _ & _ & G & ->). apply H2. exact G.
Qed.

Lemma keeps_par h R core json : good_node h R core -> good h R json -> keeps h R (MPar core json).
Proof. intros. apply keeps_iff. split; assumption. Qed.

Lemma with_value_upd h R path v core : good h R v -> good_node h R core ->
  good_node h R (m_upd_node h path (m_with_value v) core) /\ shown h (m_upd_node h path (m_with_value v) core) = upd_node path (with_value (content h v)) (shown h core).
Proof. intros G C. apply upd_node_ok with (g := with_value (content h v)); [intros n; apply with_value_ok; exact G|exact C]. Qed.

Lemma refreshM_ok R paths : forall h p, keeps h R p -> parser_behaves h R (refreshM paths p h) (refresh paths (shown_parser h p)).
Proof.
  induction paths as [|a r IH]; intros h p K; cbn [refreshM refresh]; [apply pb_ret; exact K|]. unfold mbind at 1. cbn [shown_parser p_json p_core].
  pose proof K as K'. apply keeps_iff in K'. destruct K' as [GJ GN]. pose proof (GetM_spec h (mp_json p) a (proj1 GJ)) as P.
  destruct (GetM (mp_json p) a h) as [[[e|v] h']|]; [| |rewrite P; reflexivity].
  - destruct P as (-> & ->). unfold mbind, ask. destruct (with_value_upd h R a nil_ (mp_core p) (nil_good h R) GN) as [U E]. cbn [content] in E. rewrite nil_shows in E. rewrite <- E.
    apply (pb_ret h R (MPar _ _)). apply keeps_par; assumption.
  - destruct P as (-> & Vv & (i & j & W) & ->). unfold mbind, ask. assert (Gv : good h R v) by exact (good_window h R _ v i j GJ W Vv).
    destruct (with_value_upd h R a v (mp_core p) Gv GN) as [U E]. rewrite <- E. apply (IH h (MPar _ _)). apply keeps_par; assumption.
Qed.
Lemma refresh_quietM_ok R paths : forall h p, keeps h R p -> parser_behaves h R (refresh_quietM paths p h) (refresh_quiet paths (shown_parser h p)).
Proof.
  induction paths as [|a r IH]; intros h p K; cbn [refresh_quietM refresh_quiet]; [apply pb_ret; exact K|]. unfold mbind at 1. cbn [shown_parser p_json p_core].
  pose proof K as K'. apply keeps_iff in K'. destruct K' as [GJ GN]. pose proof (GetM_spec h (mp_json p) a (proj1 GJ)) as P.
  destruct (GetM (mp_json p) a h) as [[[e|v] h']|]; [| |rewrite P; reflexivity].
  - destruct P as (-> & ->). unfold mbind, ask. destruct (with_value_upd h R a nil_ (mp_core p) (nil_good h R) GN) as [U E]. rewrite nil_shows in E. rewrite <- E.
    apply (IH h (MPar _ _)). apply keeps_par; assumption.
  - destruct P as (-> & Vv & (i & j & W) & ->). unfold mbind, ask. assert (Gv : good h R v) by exact (good_window h R _ v i j GJ W Vv).
    destruct (with_value_upd h R a v (mp_core p) Gv GN) as [U E]. rewrite <- E. apply (IH h (MPar _ _)). apply keeps_par; assumption.
Qed.

(** A call of the library that returns the new text. *)
Section Take.
  Variables (h : mem) (R : nat -> Prop) (core : mnode) (json : bsl).
  Hypothesis (GN : good_node h R core) (GJ : good h R json).
  Lemma after_call h' out : extends h h' -> valid h' out -> (fresh h out \/ out = json) ->
    keeps h' (or_new h R) (MPar core out) /\ shown_parser h' (MPar core out) = Par (shown h core) (content h' out).
  Proof.
    intros E V F. split.
    - apply keeps_par; [apply (good_node_weak h' R); [apply or_new_here|exact (good_node_later h h' R core E GN)]|].
      split; [exact V|]. destruct F as [F| ->]; [left; right; exact F|]. destruct GJ as [_ [G|G]]; [left; left; exact G|right; exact G].
    - unfold shown_parser. cbn [mp_core mp_json]. rewrite (shown_later h h' R) by assumption. reflexivity.
  Qed.
  Lemma take_text_ok m u k k' j : behaves h json (m h) u ->
    (forall h' p, extends h h' -> keeps h' (or_new h R) p -> parser_behaves h' (or_new h R) (k p h') (k' (shown_parser h' p))) ->
    parser_behaves h R (take_textM core m k h) (take_text (Par (shown h core) j) u k').
  Proof.
    intros B C. unfold take_textM, mbind. destruct (m h) as [[[out|out e] h']|]; cbn [behaves] in B.
    - destruct B as (B1 & B2 & B3 & ->). cbn [take_text p_core]. destruct (after_call h' out B1 B2 (or_introl B3)) as [A1 A2]. rewrite <- A2.
      apply (pb_base h h'); [exact B1|]. apply C; assumption.
    - destruct B as (B1 & -> & ->). cbn [take_text p_core odef]. destruct (after_call h' json B1 (extends_valid _ _ _ B1 (proj1 GJ)) (or_intror eq_refl)) as [A1 A2].
      rewrite <- (extends_content h h' json B1 (proj1 GJ)), <- A2. apply (pb_base h h'); [exact B1|]. apply C; assumption.
    - rewrite B. reflexivity.
  Qed.
  Lemma take_or_fail_ok m u k k' j : behaves h json (m h) u ->
    (forall h' p, extends h h' -> keeps h' (or_new h R) p -> mp_core p = core -> parser_behaves h' (or_new h R) (k p h') (k' (shown_parser h' p))) ->
    parser_behaves h R (take_or_failM core m k h) (take_or_fail (Par (shown h core) j) u k').
  Proof.
    intros B C. unfold take_or_failM, mbind. destruct (m h) as [[[out|out e] h']|]; cbn [behaves] in B.
    - destruct B as (B1 & B2 & B3 & ->). cbn [take_or_fail p_core]. destruct (after_call h' out B1 B2 (or_introl B3)) as [A1 A2]. rewrite <- A2.
      apply (pb_base h h'); [exact B1|]. apply C; [exact B1|exact A1|reflexivity].
    - destruct B as (B1 & -> & ->). cbn [take_or_fail p_core odef]. destruct (after_call h' json B1 (extends_valid _ _ _ B1 (proj1 GJ)) (or_intror eq_refl)) as [A1 A2].
      rewrite <- (extends_content h h' json B1 (proj1 GJ)), <- A2. apply (pb_base h h'); [exact B1|]. apply pb_ret. exact A1.
    - rewrite B. reflexivity.
  Qed.
End Take.

Lemma put_before_endM_ok grow h R core json new : good_node h R core -> good h R json -> valid h new ->
  parser_behaves h R (put_before_endM grow core json new h)
    (put_before_end (Par (shown h core) (content h json)) (content h new) (fun p => PRet p None)).
Proof.
  intros GN GJ VN. unfold put_before_endM, mbind, put_before_end. cbn [p_json p_core].
  assert (L : length (content h json) = b_len json) by (apply content_len; apply GJ).
  destruct (replaceM_spec grow h json new (pred (b_len json)) (pred (b_len json)) (proj1 GJ) VN ltac:(lia) ltac:(lia)) as (o & h' & -> & B1 & B2 & B3 & B4).
  unfold replace. rewrite L. replace ((pred (b_len json) <=? b_len json) && (pred (b_len json) <=? b_len json)) with true
    by (symmetry; apply andb_true_iff; split; apply Nat.leb_le; lia). cbn [p_pure]. rewrite <- B4.
  destruct (after_call h R core json GN GJ h' o B1 B2 (or_introl B3)) as [A1 A2]. rewrite <- A2. apply (pb_base h h'); [exact B1|]. apply pb_ret. exact A1.
Qed.

Section Methods.
  Variable grow : nat -> nat.
  Variables (h : mem) (R : nat -> Prop) (p : mparser).
  Hypothesis K : keeps h R p.
  Let GJ : good h R (mp_json p) := proj1 (proj1 (keeps_iff h R p) K).
  Let GN : good_node h R (mp_core p) := proj2 (proj1 (keeps_iff h R p) K).

  Theorem P_SetM_ok v path : good h R v -> parser_behaves h R (P_SetM grow p v path h) (P_Set (shown_parser h p) (content h v) path).
  Proof.
    intro GV. destruct path as [|x path]; [apply pb_ret; exact K|]. unfold P_SetM, P_Set. unfold mbind at 1, ask. cbn [shown_parser p_core p_json].
    apply (pb_bind h R (node_ok h R)); [exact K|apply walk_ok; exact GN|]. intros n m [Gn ->].
    unfold mbind at 1, look. destruct ((2 <=? length (content h v)) && opens (content h v)).
    - apply pb_parse; [exact GV|]. intros ns F.
      assert (U : forall n, good_node h R n -> good_node h R (MNode (m_label n) v ns) /\ shown h (MNode (m_label n) v ns) = Node (n_label (shown h n)) (content h v) (map (shown h) ns)).
      { intros n' G'. split; [|rewrite label_shown; reflexivity]. apply good_node_iff. split; [apply (good_parts h R n' G')|]. split; [exact GV|exact F]. }
      destruct (upd_node_ok h R _ (fun n => Node (n_label n) (content h v) (map (shown h) ns)) U (x :: path) (mp_core p) GN) as [U1 U2]. rewrite <- U2.
      apply take_text_ok with (json := mp_json p); [exact U1|exact GJ|apply SetM_spec; [apply GJ|apply GV]|]. intros h' q _. apply refreshM_ok.
    - destruct (with_value_upd h R (x :: path) v (mp_core p) GV GN) as [U1 U2]. rewrite <- U2.
      apply take_text_ok with (json := mp_json p); [exact U1|exact GJ|apply SetM_spec; [apply GJ|apply GV]|]. intros h' q _. apply refreshM_ok.
  Qed.

  Theorem P_SetKeyM_ok key path : parser_behaves h R (P_SetKeyM grow p key path h) (P_SetKey (shown_parser h p) key path).
  Proof.
    destruct path as [|x path]; [apply pb_ret; exact K|]. destruct key as [|k key]; [apply pb_ret; exact K|]. unfold P_SetKeyM, P_SetKey. unfold mbind at 1, ask. cbn [shown_parser p_core p_json].
    apply (pb_bind h R (node_ok h R)); [exact K|apply walk_ok; exact GN|]. intros n m [Gn ->].
    apply (pb_pure h R (node_ok h R)); [apply walk_ok; exact GN|]. intros up m [Gu ->]. rewrite down_shown, has_shown.
    destruct (m_has_label h (k :: key) (m_down up)); [apply (pb_ret h R p); exact K|].
    destruct (upd_node_ok h R (m_with_label (Own (k :: key))) (with_label (k :: key)) (with_label_ok h R (k :: key)) (x :: path) (mp_core p) GN) as [U1 U2].
    rewrite <- U2. apply take_text_ok with (json := mp_json p); [exact U1|exact GJ|apply SetKeyM_spec; apply GJ|]. intros h' q _. apply refresh_quietM_ok.
  Qed.

  Theorem P_DeleteM_ok path : parser_behaves h R (P_DeleteM grow p path h) (P_Delete (shown_parser h p) path).
  Proof.
    destruct path as [|x path]; [apply pb_ret; exact K|]. unfold P_DeleteM, P_Delete. unfold mbind at 1, ask. cbn [shown_parser p_core p_json].
    apply (pb_bind h R (node_ok h R)); [exact K|apply walk_ok; exact GN|]. intros n m [Gn ->]. rewrite label_shown.
    destruct (upd_node_ok h R _ _ (drop_label_ok h R (label_text h (m_label n))) (removelast (x :: path)) (mp_core p) GN) as [U1 U2].
    rewrite <- U2. apply take_or_fail_ok with (json := mp_json p); [exact U1|exact GJ|apply DeleteM_spec; apply GJ|]. intros h' q _ Q _. apply refreshM_ok. exact Q.
  Qed.

  Lemma new_node_ok (R' : nat -> Prop) h' lbl v d : good h' R' v -> Forall (good_node h' R') d -> good_node h' R' (MNode (Own lbl) v d) /\
    shown h' (MNode (Own lbl) v d) = Node lbl (content h' v) (map (shown h') d).
  Proof. intros G F. split; [|reflexivity]. apply good_node_iff. split; [exact I|]. split; assumption. Qed.

  Lemma nested_ok is v k k' : good h R v ->
    (forall o, Forall (good_node h R) (kids o) -> parser_behaves h R (k o h) (k' (option_map (map (shown h)) o))) ->
    parser_behaves h R (nestedM is v k h) (if is then p_pure (pCore (content h v)) (fun d => k' (Some d)) else k' None).
  Proof.
    intros G C. unfold nestedM. destruct is; [apply pb_parse; [exact G|intros ns F; exact (C (Some ns) F)]|exact (C None (Forall_nil _))].
  Qed.
End Methods.

Lemma kids_shown h o : match option_map (map (shown h)) o with Some d => d | None => [] end = map (shown h) (kids o).
Proof. destruct o; reflexivity. Qed.

Lemma root_text_ok grow h R p core newV (o : option (list mnode)) c x : keeps h R p -> good_node h R core -> valid h newV -> content h newV = c :: x ->
  parser_behaves h R
    (match o with
     | Some _ => if b_len (mp_json p) =? 2 then let! rest := sub_from newV 1 in put_before_endM grow core (mp_json p) rest
                 else put_before_endM grow core (mp_json p) newV
     | None => put_before_endM grow core (mp_json p) newV
     end h)
    (put_before_end (Par (shown h core) (content h (mp_json p)))
       ((if match option_map (map (shown h)) o with Some _ => negb (length (content h (mp_json p)) =? 2) | None => true end then [c] else []) ++ x)
       (fun p => PRet p None)).
Proof.
  intros K GN V C. pose proof K as K'. apply keeps_iff in K'. destruct K' as [GJ _]. rewrite (content_len h (mp_json p)) by apply GJ.
  destruct o as [d|]; cbn [option_map]; [|cbn [app]; rewrite <- C; apply put_before_endM_ok; assumption].
  destruct (b_len (mp_json p) =? 2); cbn [negb app]; [|rewrite <- C; apply put_before_endM_ok; assumption].
  assert (L : b_len newV = S (length x)) by (rewrite <- (content_len h newV V), C; reflexivity).
  unfold mbind, sub_from. destruct (sub_spec h newV 1 (b_len newV) V ltac:(lia)) as (rest & -> & W & Vr & Cr).
  replace x with (content h rest); [apply put_before_endM_ok; assumption|]. rewrite Cr, C, L. cbn [skipn]. replace (S (length x) - 1) with (length x) by lia. apply firstn_all.
Qed.

Section Adds.
  Variable grow : nat -> nat.
  Variables (h : mem) (R : nat -> Prop) (p : mparser).
  Hypothesis K : keeps h R p.
  Let GJ : good h R (mp_json p) := proj1 (proj1 (keeps_iff h R p) K).
  Let GN : good_node h R (mp_core p) := proj2 (proj1 (keeps_iff h R p) K).

  Lemma appended (R' : nat -> Prop) h' c m path core : good_node h' R' c -> shown h' c = m -> good_node h' R' core ->
    good_node h' R' (m_upd_node h' path (m_append_node c) core) /\ shown h' (m_upd_node h' path (m_append_node c) core) = upd_node path (append_node m) (shown h' core).
  Proof. intros G <- C. apply upd_node_ok with (g := append_node (shown h' c)); [intros n; apply append_node_ok; exact G|exact C]. Qed.

  Theorem P_AddM_ok v path : good h R v -> parser_behaves h R (P_AddM grow p v path h) (P_Add (shown_parser h p) (content h v) path).
  Proof.
    intro GV. unfold P_AddM, P_Add. unfold mbind at 1, look. destruct (content h v) as [|c0 t0] eqn:Et; [apply pb_ret; exact K|].
    remember (c0 :: t0) as t eqn:Ec. clear c0 t0 Ec. apply pb_get; [exact K|intro; apply pb_ret; exact K|]. intros json Gj.
    unfold mbind at 1, look. unfold mbind at 1, ask. cbn [shown_parser p_core p_json]. destruct path as [|x path].
    - destruct (2 <=? length (content h json)); [|apply (pb_ret h R p); exact K]. destruct (_ && _); [|apply (pb_ret h R p); exact K].
      unfold mbind at 1, of_string. destruct (new_block_spec h (44%N :: t) (grow (length t + 1))) as (nv & h1 & -> & E & V1 & F1 & C1 & _).
      apply (pb_base h h1); [exact E|].
      assert (K1 : keeps h1 (or_new h R) p) by (apply (keeps_weak h1 R); [apply or_new_here|exact (keeps_later _ _ _ _ E K)]).
      assert (GV1 : good h1 (or_new h R) v) by (apply (good_weak h1 R); [apply or_new_here|exact (good_later _ _ _ _ E GV)]).
      assert (Et1 : content h1 v = t) by (rewrite (extends_content h h1) by (try exact E; apply GV); exact Et).
      pose proof (proj1 (keeps_iff _ _ _) K1) as [GJ1 GN1].
      rewrite <- (shown_later h h1 R (mp_core p) E GN), <- (extends_content h h1 (mp_json p) E (proj1 GJ)), <- Et1.
      refine (nested_ok h1 _ _ v _ (fun o => put_before_end (Par (append_node (Node (itoa (Z.of_nat (length (n_down (shown h1 (mp_core p)))))) (content h1 v)
         (match o with Some d => d | None => [] end)) (shown h1 (mp_core p))) (content h1 (mp_json p)))
         ((if match o with Some _ => negb (length (content h1 (mp_json p)) =? 2) | None => true end then [44%N] else []) ++ content h1 v) (fun p => PRet p None)) GV1 _).
      intros o FO. rewrite kids_shown, down_shown, map_length.
      destruct (new_node_ok (or_new h R) h1 (itoa (Z.of_nat (length (m_down (mp_core p))))) v (kids o) GV1 FO) as [N1 N2]. rewrite <- N2.
      destruct (append_node_ok h1 _ _ (mp_core p) N1 GN1) as [A1 A2]. rewrite <- A2. apply root_text_ok; try assumption. rewrite Et1. exact C1.
    - apply (pb_bind h R (node_ok h R)); [exact K|apply walk_ok; exact GN|]. intros n m [Gn ->].
      destruct (2 <=? length (content h json)); [|apply (pb_ret h R p); exact K]. destruct (_ && _); [|apply (pb_ret h R p); exact K].
      rewrite <- Et.
      refine (nested_ok h R _ v _ (fun o => take_or_fail (Par (upd_node (x :: path) (append_node (Node (itoa (Z.of_nat (length (n_down (shown h n))))) (content h v)
         (match o with Some d => d | None => [] end))) (shown h (mp_core p))) (content h (mp_json p))) (Add_ (content h (mp_json p)) (content h v) (x :: path))
         (refresh (match o with Some _ => removelast (ancestors (x :: path)) | None => ancestors (x :: path) end))) GV _).
      intros o FO. rewrite kids_shown, down_shown, map_length.
      destruct (new_node_ok R h (itoa (Z.of_nat (length (m_down n)))) v (kids o) GV FO) as [N1 N2]. 
      destruct (appended R h _ _ (x :: path) (mp_core p) N1 N2 GN) as [A1 A2]. rewrite <- A2.
      apply take_or_fail_ok with (json := mp_json p); [exact A1|exact GJ|apply AddM_spec; [apply GJ|apply GV]|]. intros h' q _ Q _. destruct o; apply refreshM_ok; exact Q.
  Qed.

  Theorem P_AddKeyValueM_ok key v path : good h R v ->
    parser_behaves h R (P_AddKeyValueM grow p key v path h) (P_AddKeyValue (shown_parser h p) key (content h v) path).
  Proof.
    intro GV. unfold P_AddKeyValueM, P_AddKeyValue. destruct key as [|k0 key0]; [apply pb_ret; exact K|].
    remember (k0 :: key0) as key eqn:Ec. clear k0 key0 Ec. apply pb_get; [exact K|intro; apply pb_ret; exact K|]. intros json Gj.
    unfold mbind at 1, look. unfold mbind at 1. unfold mbind at 1, ask. cbn [shown_parser p_core p_json].
    assert (NK : forall h' (R' : nat -> Prop) k k', good h' R' v -> content h' v = content h v ->
      (forall o, Forall (good_node h' R') (kids o) -> parser_behaves h' R' (k o h') (k' (option_map (map (shown h')) o))) ->
      parser_behaves h' R' ((if 2 <=? length key then let! c := eval (at_ (content h v) 0) in nestedM (is_open c) v k else k None) h')
        (if 2 <=? length key then p_pure (at_ (content h v) 0) (fun c => if is_open c then p_pure (pCore (content h v)) (fun d => k' (Some d)) else k' None) else k' None)).
    { intros h' R' k k' G' E' C'. destruct (2 <=? length key); [|exact (C' None (Forall_nil _))].
      apply (pb_pure h' R' eq); [apply rel_eq|]. intros c c' <-. rewrite <- E'. apply nested_ok; assumption. }
    destruct path as [|x path].
    - rewrite down_shown, has_shown. destruct (m_has_label h key _); [apply (pb_ret h R p); exact K|].
      destruct (2 <=? length (content h json)); [|apply (pb_ret h R p); exact K]. destruct (_ && _); [|apply (pb_ret h R p); exact K].
      unfold mbind at 1, of_string. destruct (new_block_spec h (44%N :: pair_text key (content h v)) (grow (length key + length (content h v) + 4))) as (nv & h1 & -> & E & V1 & F1 & C1 & _).
      apply (pb_base h h1); [exact E|].
      assert (K1 : keeps h1 (or_new h R) p) by (apply (keeps_weak h1 R); [apply or_new_here|exact (keeps_later _ _ _ _ E K)]).
      assert (GV1 : good h1 (or_new h R) v) by (apply (good_weak h1 R); [apply or_new_here|exact (good_later _ _ _ _ E GV)]).
      assert (Et1 : content h1 v = content h v) by (apply extends_content; [exact E|apply GV]).
      pose proof (proj1 (keeps_iff _ _ _) K1) as [GJ1 GN1].
      rewrite <- (shown_later h h1 R (mp_core p) E GN), <- (extends_content h h1 (mp_json p) E (proj1 GJ)).
      refine (NK h1 _ _ (fun o => put_before_end (Par (append_node (Node key (content h v)
         (match o with Some d => d | None => [] end)) (shown h1 (mp_core p))) (content h1 (mp_json p)))
         ((if match o with Some _ => negb (length (content h1 (mp_json p)) =? 2) | None => true end then [44%N] else []) ++ pair_text key (content h v)) (fun p => PRet p None)) GV1 Et1 _).
      intros o FO. rewrite kids_shown.
      destruct (new_node_ok (or_new h R) h1 key v (kids o) GV1 FO) as [N1 N2]. rewrite Et1 in N2. rewrite <- N2.
      destruct (append_node_ok h1 _ _ (mp_core p) N1 GN1) as [A1 A2]. rewrite <- A2. apply root_text_ok; assumption.
    - apply (pb_bind h R (node_ok h R)); [exact K|apply walk_ok; exact GN|]. intros n m [Gn ->].
      apply (pb_pure h R (node_ok h R)); [apply walk_ok; exact GN|]. intros up m [Gu ->]. rewrite down_shown, has_shown.
      destruct (m_has_label h key _); [apply (pb_ret h R p); exact K|].
      destruct (2 <=? length (content h json)); [|apply (pb_ret h R p); exact K]. destruct (_ && _); [|apply (pb_ret h R p); exact K].
      refine (NK h R _ (fun o => take_or_fail (Par (upd_node (x :: path) (append_node (Node key (content h v)
         (match o with Some d => d | None => [] end))) (shown h (mp_core p))) (content h (mp_json p))) (AddKeyValue (content h (mp_json p)) key (Some (content h v)) (x :: path))
         (refresh (ancestors (x :: path)))) GV eq_refl _).
      intros o FO. rewrite kids_shown.
      destruct (new_node_ok R h key v (kids o) GV FO) as [N1 N2]. 
      destruct (appended R h _ _ (x :: path) (mp_core p) N1 N2 GN) as [A1 A2]. rewrite <- A2.
      apply take_or_fail_ok with (json := mp_json p); [exact A1|exact GJ| |intros h' q _ Q _; apply refreshM_ok; exact Q].
      apply (AddKeyValueM_spec grow h (mp_json p) key (Some v)); [apply GJ|]. intros w E. inversion E; subst. apply GV.
  Qed.

  Lemma removelast_map {A B} (f : A -> B) l : removelast (map f l) = map f (removelast l).
  Proof. induction l as [|a [|b' l] IH]; [reflexivity|reflexivity|]. cbn [map removelast] in *. rewrite IH. reflexivity. Qed.
  Lemma Forall_removelast {A} (P : A -> Prop) l : Forall P l -> Forall P (removelast l).
  Proof. induction 1 as [|a l Ha Hl IH]; [constructor|]. cbn [removelast]. destruct l; [constructor|]. constructor; assumption. Qed.

  Theorem P_InsertM_ok index v path : good h R v ->
    parser_behaves h R (P_InsertM grow p index v path h) (P_Insert (shown_parser h p) index (content h v) path).
  Proof.
    intro GV. unfold P_InsertM, P_Insert. unfold mbind at 1, look. destruct (content h v) as [|c0 t0] eqn:Et; [apply pb_ret; exact K|].
    remember (c0 :: t0) as t eqn:Ec. clear c0 t0 Ec. apply pb_get; [exact K|intro; apply pb_ret; exact K|]. intros json Gj.
    unfold mbind at 1, look. unfold mbind at 1, ask. cbn [shown_parser p_core p_json]. destruct path as [|x path].
    - destruct (2 <=? length (content h json)); [|apply (pb_ret h R p); exact K]. destruct (_ && _); [|apply (pb_ret h R p); exact K].
      rewrite <- Et.
      refine (nested_ok h R _ v _ (fun o => p_bind (shown_parser h p) (n_insert (n_down (shown h (mp_core p))) index) (fun ns =>
              match o with
              | Some d =>
                  take_or_fail (Par (with_down ns (shown h (mp_core p))) (content h (mp_json p))) (Insert (content h (mp_json p)) index (content h v) []) (fun p =>
                  p_bind p (n_insert (n_down (p_core p)) index) (fun ns =>
                  PRet (Par (append_node (Node (itoa index) [] d) (with_down ns (p_core p))) (p_json p)) None))
              | None =>
                  take_or_fail (Par (append_node (Node (itoa index) (content h v) []) (with_down ns (shown h (mp_core p)))) (content h (mp_json p)))
                    (Insert (content h (mp_json p)) index (content h v) []) (fun p =>
                  p_bind p (n_insert (n_down (p_core p)) index) (fun ns =>
                  PRet (Par (with_down (removelast ns ++ [Node (itoa index) (content h v) []]) (p_core p)) (p_json p)) None))
              end)) GV _).
      intros o FO. rewrite down_shown. apply (pb_bind h R (nodes_ok h R)); [exact K|apply insert_ok; apply (good_parts h R _ GN)|]. intros ns ms [FN ->].
      destruct (with_down_ok h R ns (mp_core p) FN GN) as [W1 W2]. destruct o as [d|]; cbn [option_map].
      + rewrite <- W2. apply take_or_fail_ok with (json := mp_json p); [exact W1|exact GJ|apply InsertM_spec; [apply GJ|apply GV]|].
        intros h' q E Q _. pose proof (proj1 (keeps_iff _ _ _) Q) as [GJ' GN']. cbn [shown_parser p_core p_json]. rewrite down_shown.
        apply (pb_bind h' _ (nodes_ok h' (or_new h R))); [exact Q|apply insert_ok; apply (good_parts h' _ _ GN')|]. intros ns' ms' [FN' ->].
        destruct (with_down_ok h' _ ns' (mp_core q) FN' GN') as [W1' W2']. rewrite <- W2'.
        assert (FD : Forall (good_node h' (or_new h R)) d).
        { refine (Forall_impl _ _ FO). intros y Gy. apply (good_node_weak h' R); [apply or_new_here|exact (good_node_later h h' R y E Gy)]. }
        assert (SD : map (shown h) d = map (shown h') d).
        { change (Forall (good_node h R) d) in FO. clear - E FO. induction FO as [|y r Gy Fr IH]; [reflexivity|]. cbn [map]. rewrite IH, (shown_later h h' R y E Gy). reflexivity. }
        destruct (new_node_ok (or_new h R) h' (itoa index) nil_ d (nil_good _ _) FD) as [N1 N2]. rewrite nil_shows in N2. rewrite SD, <- N2.
        destruct (append_node_ok h' _ _ _ N1 W1') as [A1 A2]. rewrite <- A2. apply (pb_ret h' _ (MPar _ _)). apply keeps_par; assumption.
      + rewrite <- W2. destruct (new_node_ok R h (itoa index) v [] GV (Forall_nil _)) as [N1 N2]. cbn [map] in N2. rewrite <- N2.
        destruct (append_node_ok h R _ _ N1 W1) as [A1 A2]. rewrite <- A2.
        apply take_or_fail_ok with (json := mp_json p); [exact A1|exact GJ|apply InsertM_spec; [apply GJ|apply GV]|].
        intros h' q E Q _. pose proof (proj1 (keeps_iff _ _ _) Q) as [GJ' GN']. cbn [shown_parser p_core p_json]. rewrite down_shown.
        apply (pb_bind h' _ (nodes_ok h' (or_new h R))); [exact Q|apply insert_ok; apply (good_parts h' _ _ GN')|]. intros ns' ms' [FN' ->].
        assert (N1' : good_node h' (or_new h R) (MNode (Own (itoa index)) v [])) by (apply (good_node_weak h' R); [apply or_new_here|exact (good_node_later h h' R _ E N1)]).
        rewrite <- (shown_later h h' R _ E N1), removelast_map.
        change [shown h' (MNode (Own (itoa index)) v [])] with (map (shown h') [MNode (Own (itoa index)) v []]). rewrite <- map_app.
        assert (FL : Forall (good_node h' (or_new h R)) (removelast ns' ++ [MNode (Own (itoa index)) v []])).
        { apply Forall_app. split; [apply Forall_removelast; exact FN'|constructor; [exact N1'|constructor]]. }
        destruct (with_down_ok h' _ _ (mp_core q) FL GN') as [W1' W2']. rewrite <- W2'. apply (pb_ret h' _ (MPar _ _)). apply keeps_par; assumption.
    - apply (pb_bind h R (node_ok h R)); [exact K|apply walk_ok; exact GN|]. intros n m [Gn ->].
      destruct (2 <=? length (content h json)); [|apply (pb_ret h R p); exact K]. destruct (_ && _); [|apply (pb_ret h R p); exact K].
      rewrite <- Et.
      refine (nested_ok h R _ v _ (fun o => p_bind (shown_parser h p) (n_insert (n_down (shown h n)) index) (fun ns =>
              let new := Node (itoa index) (content h v) (match o with Some d => d | None => [] end) in
              take_or_fail (Par (upd_node (x :: path) (fun n => append_node new (with_down ns n)) (shown h (mp_core p))) (content h (mp_json p)))
                (Insert (content h (mp_json p)) index (content h v) (x :: path)) (refresh (ancestors (x :: path))))) GV _).
      intros o FO. rewrite down_shown. apply (pb_bind h R (nodes_ok h R)); [exact K|apply insert_ok; apply (good_parts h R _ Gn)|]. intros ns ms [FN ->].
      rewrite kids_shown. cbv zeta. destruct (new_node_ok R h (itoa index) v (kids o) GV FO) as [N1 N2]. rewrite <- N2.
      assert (U : forall m, good_node h R m -> good_node h R (m_append_node (MNode (Own (itoa index)) v (kids o)) (m_with_down ns m)) /\
        shown h (m_append_node (MNode (Own (itoa index)) v (kids o)) (m_with_down ns m)) = append_node (shown h (MNode (Own (itoa index)) v (kids o))) (with_down (map (shown h) ns) (shown h m))).
      { intros m Gm. destruct (with_down_ok h R ns m FN Gm) as [W1 W2]. rewrite <- W2. apply append_node_ok; assumption. }
      destruct (upd_node_ok h R _ (fun m => append_node (shown h (MNode (Own (itoa index)) v (kids o))) (with_down (map (shown h) ns) m)) U (x :: path) (mp_core p) GN) as [A1 A2]. rewrite <- A2.
      apply take_or_fail_ok with (json := mp_json p); [exact A1|exact GJ|apply InsertM_spec; [apply GJ|apply GV]|]. intros h' q _ Q _. apply refreshM_ok; exact Q.
  Qed.
End Adds.

(** ** dive and GetNew: writing within memory of their own *)

(** From [h] to [h'] no array but [a] was written to, and [a] kept its size. *)
Definition keep_but (a : nat) (h h' : mem) : Prop :=
  length h <= length h' /\ (forall c, c <> a -> c < length h -> block h' c = block h c) /\ length (block h' a) = length (block h a).

Lemma keep_but_refl a h : keep_but a h h.
Proof. split; [lia|]. split; [reflexivity|reflexivity]. Qed.
Lemma keep_but_extends a h h' : a < length h -> extends h h' -> keep_but a h h'.
Proof.
  intros A E. split; [exact (extends_len _ _ E)|]. split; [intros c _ L; exact (extends_block h h' c E L)|]. rewrite (extends_block h h' a E A). reflexivity.
Qed.
Lemma keep_but_trans a c h1 h2 h3 : a < length h1 -> keep_but a h1 h2 -> keep_but c h2 h3 -> (c = a \/ length h1 <= c) -> keep_but a h1 h3.
Proof.
  intros A (L1 & B1 & S1) (L2 & B2 & S2) C. split; [lia|]. split.
  - intros d D L. rewrite B2 by (destruct C; lia). apply B1; assumption.
  - destruct C as [-> |C]; [congruence|]. rewrite B2 by lia. exact S1.
Qed.
Lemma keep_but_see a h h' s : keep_but a h h' -> valid h s -> b_arr s <> a -> valid h' s /\ content h' s = content h s.
Proof.
  intros (_ & B & _) V D. destruct (Nat.lt_ge_cases (b_arr s) (length h)) as [H|H].
  - unfold valid, content. rewrite B by assumption. split; [exact V|reflexivity].
  - destruct (nowhere h s V H) as (E1 & E2 & E3). unfold valid, content. rewrite E2. split; [lia|reflexivity].
Qed.
Lemma keep_but_valid a h h' s : keep_but a h h' -> valid h s -> b_arr s = a -> valid h' s.
Proof. intros (_ & _ & S) [V1 V2] E. unfold valid. rewrite E in *. rewrite S. split; assumption. Qed.
Lemma extends_by_blocks h h' : length h <= length h' -> (forall c, c < length h -> block h' c = block h c) -> extends h h'.
Proof.
  intros L B. exists (skipn (length h) h'). rewrite <- (firstn_skipn (length h) h') at 1. f_equal.
  apply nth_ext with (d := []) (d' := []); [rewrite firstn_length; lia|]. intros c Hc. rewrite firstn_length in Hc.
  change (nth c h []) with (block h c). rewrite <- (B c) by lia. unfold block.
  rewrite <- (firstn_skipn (length h) h') at 2. rewrite app_nth1 by (rewrite firstn_length; lia). reflexivity.
Qed.
Lemma new_block_in h t n s h' : new_block t n h = Some (s, h') -> b_arr s < length h'.
Proof. unfold new_block. intro E. inversion E. cbn [b_arr]. rewrite app_length. cbn [length]. lia. Qed.
Lemma keep_but_over h0 a h h' : extends h0 h -> length h0 <= a -> keep_but a h h' -> extends h0 h'.
Proof.
  intros E A (L & B & _). pose proof (extends_len _ _ E). apply extends_by_blocks; [lia|]. intros c C. rewrite B by lia. exact (extends_block h0 h c E C).
Qed.

Lemma append_any grow h out xs : valid h out -> b_arr out < length h ->
  exists out' h', append_bytes grow out xs h = Some (out', h') /\ valid h' out' /\ content h' out' = content h out ++ xs /\
    keep_but (b_arr out) h h' /\ (b_arr out' = b_arr out \/ length h <= b_arr out') /\ b_arr out' < length h'.
Proof.
  intros V L. unfold append_bytes. destruct (b_len out + length xs <=? b_cap out) eqn:E.
  - apply Nat.leb_le in E. eexists _, _. split; [reflexivity|]. split; [|split; [apply poke_end; assumption|split; [|split; [left; reflexivity|cbn [b_arr]; unfold poke; rewrite set_block_len; exact L]]]].
    + apply poke_valid; [exact V|lia|]. unfold valid. cbn [b_len b_cap b_off b_arr]. destruct V. lia.
    + split; [unfold poke; rewrite set_block_len; lia|]. split; [intros c D _; unfold poke; apply set_block_other; congruence|].
      rewrite poke_block by (try exact V; lia). destruct V. apply overwrite_len. lia.
  - destruct (new_block_spec h (content h out ++ xs) (grow (b_len out + length xs))) as (s & h' & H0 & H1 & H2 & H3 & H4 & _). exists s, h'.
    split; [exact H0|]. split; [exact H2|]. split; [exact H4|]. split; [|split; [right; exact H3|exact (new_block_in _ _ _ _ _ H0)]].
    apply keep_but_extends; assumption.
Qed.

Lemma packKeyValueM_spec grow h label v : valid h v ->
  exists kv h', packKeyValueM grow label v h = Some (kv, h') /\ building h h' kv (packKeyValue label (content h v)).
Proof.
  intro V. unfold packKeyValueM. change 16%Z with (Z.of_nat 16). unfold mbind at 1. rewrite make_cap_spec.
  destruct (new_building h [] 16) as (o1 & h1 & -> & B1).
  unfold mbind at 1. destruct (append_spec grow h h1 o1 _ [34%N] B1) as (o2 & h2 & -> & B2).
  unfold mbind at 1. destruct (append_spec grow h h2 o2 _ label B2) as (o3 & h3 & -> & B3).
  unfold mbind at 1. destruct (append_spec grow h h3 o3 _ [34%N] B3) as (o4 & h4 & -> & B4).
  unfold mbind at 1. destruct (append_spec grow h h4 o4 _ [58%N] B4) as (o5 & h5 & -> & B5). pose proof B5 as (E5 & _).
  destruct (append_slice_spec grow h h5 o5 _ v B5) as (o6 & h6 & -> & B6). exists o6, h6. split; [reflexivity|].
  rewrite (extends_content h h5) in B6 by assumption. unfold packKeyValue. cbn [app] in B6. rewrite <- !app_assoc in B6. exact B6.
Qed.
Lemma packValueM_spec grow h v : valid h v -> exists kv h', packValueM grow v h = Some (kv, h') /\ building h h' kv (content h v).
Proof.
  intro V. unfold packValueM. change 16%Z with (Z.of_nat 16). unfold mbind at 1. rewrite make_cap_spec.
  destruct (new_building h [] 16) as (o1 & h1 & -> & B1). pose proof B1 as (E1 & _).
  destruct (append_slice_spec grow h h1 o1 _ v B1) as (o2 & h2 & -> & B2). exists o2, h2. split; [reflexivity|].
  rewrite (extends_content h h1) in B2 by assumption. exact B2.
Qed.

Section Dive.
  Variable grow : nat -> nat.
  Variable h0 : mem.

  (** [temp] shows [x] in memory [h], in an array no older than [hb]; of the older ones only [a] was written to. *)
  Definition making (a : nat) (hb h : mem) (temp : bsl) (x : bytes) : Prop :=
    keep_but a hb h /\ valid h temp /\ content h temp = x /\ length hb <= b_arr temp < length h.

  Lemma making_append a hb h temp x xs : a < length hb -> making a hb h temp x ->
    exists t' h', append_bytes grow temp xs h = Some (t', h') /\ making a hb h' t' (x ++ xs).
  Proof.
    intros A (M1 & M2 & M3 & M4). destruct (append_any grow h temp xs M2 ltac:(lia)) as (t' & h' & -> & V & C & KB & AR & AL). exists t', h'. split; [reflexivity|].
    split; [refine (keep_but_trans a (b_arr temp) hb h h' A M1 KB _); right; lia|]. split; [exact V|]. split; [rewrite C, M3; reflexivity|].
    destruct AR as [E|AR]; destruct M1; lia.
  Qed.
  Lemma making_later a hb h h' temp x : a < length hb -> making a hb h temp x -> keep_but a h h' -> making a hb h' temp x.
  Proof.
    intros A (M1 & M2 & M3 & M4) KB. destruct (keep_but_see a h h' temp KB M2 ltac:(lia)) as [V C].
    split; [refine (keep_but_trans a a hb h h' A M1 KB _); left; reflexivity|]. split; [exact V|]. split; [congruence|]. destruct KB. lia.
  Qed.

  (** The value put for a child: memory it may be in, and what it shows. *)
  Definition dived (buf : bsl) (hb : mem) (r : option (bsl * mem)) (u : res bytes) : Prop :=
    match r with
    | None => u = Panic
    | Some (o, h') => valid h' o /\ u = Ok (content h' o) /\ keep_but (b_arr buf) hb h'
    end.

  Definition dived_new (buf : bsl) (hb : mem) (r : option (bsl * mem)) (u : res bytes) : Prop :=
    dived buf hb r u /\ match r with Some (o, _) => length h0 <= b_arr o | None => True end.

  Theorem diveM_ok n : good_node h0 (fun _ => True) n -> forall buf hb, extends h0 hb -> valid hb buf -> b_len buf = 0 -> length h0 <= b_arr buf < length hb ->
    dived_new buf hb (diveM grow n buf hb) (dive (shown h0 n)).
  Proof.
    induction n as [l v ds IH] using mnode_ind'. intros G buf hb E VB LB AB. apply good_node_iff in G. destruct G as (_ & [GV _] & GD).
    cbn [diveM shown dive]. unfold mbind at 1, look. rewrite (extends_content h0 hb) by assumption. unfold mbind at 1. change 32%Z with (Z.of_nat 32). rewrite make_cap_spec.
    destruct (new_block_spec hb [] 32) as (t0 & h1 & NB & E1 & V1 & F1 & C1 & _). rewrite NB.
    destruct (at_ (content h0 v) 0) as [c|e|] eqn:Ec; cbn [bind]; [| |split; [reflexivity|exact I]].
    2:{ unfold at_ in Ec. destruct (nth_error _ _); discriminate. }
    unfold mbind at 1. cbn [eval ret]. set (a := b_arr buf) in *.
    assert (M0 : making a hb h1 t0 []).
    { split; [apply keep_but_extends; [lia|exact E1]|]. split; [exact V1|]. split; [exact C1|]. split; [exact F1|exact (new_block_in _ _ _ _ _ NB)]. }
    unfold mbind at 1. destruct (making_append a hb h1 t0 [] [c] ltac:(lia) M0) as (t1 & h2 & -> & M1). cbn [app] in M1.
    match goal with |- context [mbind (?f ds t1) _ h2] => set (go := f) end.
    match goal with |- context [bind (?f (map (shown h0) ds)) _] => set (vgo := f) end.
    assert (L : forall ds h temp x, Forall (fun n => good_node h0 (fun _ => True) n -> forall buf hb, extends h0 hb -> valid hb buf -> b_len buf = 0 -> length h0 <= b_arr buf < length hb ->
         dived_new buf hb (diveM grow n buf hb) (dive (shown h0 n))) ds -> Forall (good_node h0 (fun _ => True)) ds -> making a hb h temp x ->
         match go ds temp h with
         | None => vgo (map (shown h0) ds) = Panic
         | Some (temp', h') => exists it, vgo (map (shown h0) ds) = Ok it /\ making a hb h' temp' (x ++ it)
         end).
    { clear ds IH GD. induction ds as [|[dl dv dd] r IHr]; intros h temp x IH GD M.
      - cbn. exists []. split; [reflexivity|]. rewrite app_nil_r. exact M.
      - inversion IH as [|? ? IHd IHr']; subst. inversion GD as [|? ? Gd Gr]; subst. specialize (IHr). cbn [map]. unfold vgo, go; fold go vgo. cbn [shown].
        assert (EH : extends h0 h) by (apply (keep_but_over h0 a hb h E ltac:(lia)); apply M).
        assert (VBh : valid h buf) by (apply (keep_but_valid a hb h buf); [apply M|exact VB|reflexivity]).
        assert (AH : length h0 <= a < length h) by (destruct M as ((? & _) & _); lia).
        assert (DV : dived buf h ((match dd with [] => ret dv | _ => diveM grow (MNode dl dv dd) buf end) h)
                       (match map (shown h0) dd with [] => Ok (content h0 dv) | _ => dive (shown h0 (MNode dl dv dd)) end)).
        { pose proof (proj1 (good_node_iff h0 _ dl dv dd) Gd) as (_ & [Gdv _] & _). destruct dd as [|d1 dd]; cbn [map].
          - cbn [ret dived]. split; [exact (extends_valid _ _ _ EH Gdv)|]. split; [rewrite (extends_content h0 h) by assumption; reflexivity|apply keep_but_refl].
          - apply (fun A1 A2 A3 A4 A5 => proj1 (IHd A1 buf h A2 A3 A4 A5)); assumption. }
        assert (LT : forall hx, extends h0 hx -> label_text hx dl = label_text h0 dl).
        { intros hx Ex. destruct dl as [y|y]; [reflexivity|]. cbn [label_text]. pose proof (proj1 (good_node_iff h0 _ _ dv dd) Gd) as ([Vy _] & _). exact (extends_content h0 hx y Ex Vy). }
        cbn [shown] in DV. unfold mbind at 1.
        destruct ((match dd with [] => ret dv | _ => diveM grow (MNode dl dv dd) buf end) h) as [[val h3]|]; cbn [dived] in DV; [|rewrite DV; reflexivity].
        destruct DV as (Vv & -> & KB). cbn [bind]. fold a in KB. assert (M3 := making_later a hb h h3 temp x ltac:(lia) M KB).
        unfold mbind at 1, ask. rewrite LT by (exact (keep_but_over h0 a h h3 EH ltac:(lia) KB)).
        assert (A3 : a < length h3) by (destruct M3 as ((? & _) & _); lia).
        assert (S1 : exists t4 h4, (if (c =? 123)%N then let! kv := packKeyValueM grow (label_text h0 dl) val in append_slice grow temp kv else ret temp) h3 = Some (t4, h4) /\
          making a hb h4 t4 (x ++ (if (c =? 123)%N then packKeyValue (label_text h0 dl) (content h3 val) else [])) /\ ((c =? 123)%N = true \/ h4 = h3)).
        { destruct (c =? 123)%N; [|exists temp, h3; rewrite app_nil_r; auto]. unfold mbind.
          destruct (packKeyValueM_spec grow h3 (label_text h0 dl) val Vv) as (kv & h4 & -> & B1 & B2 & B3 & B4).
          assert (M4 := making_later a hb h3 h4 temp x ltac:(lia) M3 (keep_but_extends a h3 h4 A3 B1)). unfold append_slice, mbind, look. rewrite B4.
          destruct (making_append a hb h4 temp x (packKeyValue (label_text h0 dl) (content h3 val)) ltac:(lia) M4) as (t5 & h5 & -> & M5). exists t5, h5. auto. }
        destruct S1 as (t4 & h4 & S1 & M4 & H4). unfold mbind at 1. rewrite S1.
        assert (S2 : exists t5 h5, (if (c =? 91)%N then let! kv := packValueM grow val in append_slice grow t4 kv else ret t4) h4 = Some (t5, h5) /\
          making a hb h5 t5 ((x ++ (if (c =? 123)%N then packKeyValue (label_text h0 dl) (content h3 val) else [])) ++ (if (c =? 91)%N then content h3 val else []))).
        { destruct (c =? 91)%N eqn:E91; [|exists t4, h4; rewrite app_nil_r; auto]. destruct H4 as [H4| ->]; [apply N.eqb_eq in H4, E91; subst c; discriminate|]. unfold mbind.
          destruct (packValueM_spec grow h3 val Vv) as (kv & h5 & -> & B1 & B2 & B3 & B4).
          assert (M5 := making_later a hb h3 h5 t4 _ ltac:(lia) M4 (keep_but_extends a h3 h5 A3 B1)). unfold append_slice, mbind, look. rewrite B4.
          destruct (making_append a hb h5 t4 _ (content h3 val) ltac:(lia) M5) as (t6 & h6 & -> & M6). exists t6, h6. auto. }
        destruct S2 as (t5 & h5 & S2 & M5). unfold mbind at 1. rewrite S2. unfold mbind at 1.
        destruct (making_append a hb h5 t5 _ [44%N] ltac:(lia) M5) as (t6 & h6 & -> & M6).
        specialize (IHr h6 t6 _ IHr' Gr M6). destruct (go r t6 h6) as [[t7 h7]|]; [|rewrite IHr; reflexivity]. destruct IHr as (it & -> & M7). cbn [bind].
        eexists. split; [reflexivity|]. rewrite <- !app_assoc in M7. exact M7. }
    specialize (L ds h2 t1 [c] IH GD M1). unfold mbind at 1. destruct (go ds t1 h2) as [[t2 h3]|]; [|rewrite L; split; [reflexivity|exact I]].
    destruct L as (it & -> & M2). cbn [bind]. pose proof M2 as (K2 & V2 & C2 & A2).
    assert (L2 : b_len t2 = S (length it)) by (rewrite <- (content_len h3 t2 V2), C2; reflexivity).
    replace (b_len t2 =? 0) with false by (symmetry; apply Nat.eqb_neq; lia).
    unfold mbind at 1, sub_to. destruct (sub_spec h3 t2 0 (pred (b_len t2)) V2 ltac:(lia)) as (t3 & -> & W & V3 & C3).
    assert (M3 : making a hb h3 t3 (removelast (c :: it))).
    { split; [exact K2|]. split; [exact V3|]. split; [|destruct W as (_ & -> & _); exact A2]. rewrite C3, C2, L2. cbn [skipn pred app]. rewrite Nat.sub_0_r.
      rewrite removelast_firstn_len. reflexivity. }
    unfold mbind at 1. destruct (making_append a hb h3 t3 _ [((c + 2) mod 256)%N] ltac:(lia) M3) as (t4 & h4 & -> & M4). pose proof M4 as (K4 & V4 & C4 & A4).
    unfold append_slice, mbind, look. rewrite C4. assert (VB4 : valid h4 buf) by (apply (keep_but_valid a hb h4 buf); [exact K4|exact VB|reflexivity]).
    destruct (append_any grow h4 buf (removelast (c :: it) ++ [((c + 2) mod 256)%N]) VB4 ltac:(destruct K4; fold a; lia)) as (o & h5 & -> & Vo & Co & KB & AR & _).
    split; [|destruct AR as [-> |AR]; [apply AB|destruct K4; lia]]. cbn [dived]. split; [exact Vo|]. split; [|refine (keep_but_trans a a hb h4 h5 _ K4 KB _); [lia|left; reflexivity]].
    rewrite Co. assert (X : content h4 buf = []) by (apply length_zero_iff_nil; rewrite (content_len h4 buf VB4); exact LB). rewrite X. reflexivity.
  Qed.

End Dive.

(** parse_get.go:31-46: what GetNew returns is a window of a slice the parser holds, or memory of its own. *)
Theorem P_GetNewM_ok grow h R p path : keeps h R p ->
  match P_GetNewM grow p path h with
  | None => P_GetNew (shown_parser h p) path = Panic
  | Some (v, h') => extends h h' /\ valid h' v /\ ((exists w i j, In w (nil_ :: held p) /\ window w v i j) \/ fresh h v) /\
      P_GetNew (shown_parser h p) path = Ok (content h' v)
  end.
Proof.
  intro K. pose proof (proj1 (keeps_iff h R p) K) as [GJ GN]. unfold P_GetNewM, P_GetNew, mbind at 1, ask. cbn [shown_parser p_core].
  pose proof (walk_ok h R path (mp_core p) GN) as W. unfold rel in W.
  destruct (m_walk h (mp_core p) path) as [n|e|] eqn:E; destruct (n_walk (shown h (mp_core p)) path) as [m|e'|]; try contradiction.
  - destruct W as [G ->]. rewrite down_shown, value_shown. pose proof (good_parts h R n G) as (_ & GV & GD). destruct (m_down n) as [|d0 ds] eqn:ED; cbn [map].
    + pose proof (cleanValueM_spec h (m_value n) (proj1 GV)) as C. destruct (cleanValueM (m_value n) h) as [[o h']|]; [|exact C].
      destruct C as (-> & Vo & (i & j & Wi) & ->). split; [apply extends_refl|]. split; [exact Vo|]. split; [|reflexivity]. left. exists (m_value n), i, j.
      split; [|exact Wi]. right. right. apply (walk_windows _ _ _ _ E). destruct n as [l v d]. cbn [node_windows m_value]. apply in_app_iff. right. left. reflexivity.
    + clear GD ED d0 ds. unfold mbind at 1. change 128%Z with (Z.of_nat 128). rewrite make_cap_spec.
      destruct (new_block_spec h [] 128) as (buf & h1 & NB & E1 & V1 & F1 & C1 & L1 & _). rewrite NB. unfold mbind.
      pose proof (diveM_ok grow h n (good_node_weak h R _ n (fun _ _ => I) G) buf h1 E1 V1 L1 (conj F1 (new_block_in _ _ _ _ _ NB))) as [D DF].
      destruct (diveM grow n buf h1) as [[o h2]|]; [|cbn [dived] in D; rewrite D; reflexivity]. destruct D as (Vo & -> & KB). cbn [bind].
      assert (E2 : extends h h2) by exact (keep_but_over h _ h1 h2 E1 F1 KB).
      pose proof (cleanValueM_spec h2 o Vo) as C. destruct (cleanValueM o h2) as [[o' h']|]; [|exact C].
      destruct C as (-> & Vo' & (i & j & Wi) & ->). split; [exact E2|]. split; [exact Vo'|]. split; [|reflexivity]. right. unfold fresh. destruct Wi as (_ & -> & _). exact DF.
  - split; [apply extends_refl|]. split; [apply nil_valid|]. split; [|reflexivity]. left. exists nil_, 0, 0. split; [left; reflexivity|]. cbv. lia.
  - reflexivity.
Qed.

(** ** Programs *)
Lemma the_content h hs v : nth v (map (content h) hs) [] = content h (the hs v).
Proof. unfold the. change (@nil N) with (content h (Bsl 0 0 0 0)) at 1. apply map_nth. Qed.
Lemma the_good h R hs v : Forall (good h R) hs -> good h R (the hs v).
Proof.
  intro F. unfold the. destruct (nth_in_or_default v hs (Bsl 0 0 0 0)) as [I|E]; [rewrite Forall_forall in F; exact (F _ I)|rewrite E; apply (nil_good h R)].
Qed.
Lemma map_content_later h h' R hs : extends h h' -> Forall (good h R) hs -> map (content h') hs = map (content h) hs.
Proof. intros E F. induction F as [|s r [V _] F IH]; [reflexivity|]. cbn [map]. rewrite IH, (extends_content h h' s E V). reflexivity. Qed.
Lemma goods_later h h' R hs : extends h h' -> Forall (good h R) hs -> Forall (good h' (or_new h R)) hs.
Proof. intros E. apply Forall_impl. intros s G. apply (good_weak h' R); [apply or_new_here|exact (good_later _ _ _ _ E G)]. Qed.

Definition step_ok (h : mem) (R : nat -> Prop) (r : option (mparser * list bsl * option err * mem)) (u : option (parser * list bytes * option err)) : Prop :=
  match r with
  | None => u = None
  | Some (p', hs', e, h') => extends h h' /\ keeps h' (or_new h R) p' /\ Forall (good h' (or_new h R)) hs' /\
      u = Some (shown_parser h' p', map (content h') hs', e)
  end.

Lemma upd_call_ok h R hs m u : Forall (good h R) hs -> parser_behaves h R (m h) u -> step_ok h R (upd_call hs m h) (v_upd (map (content h) hs) u).
Proof.
  intros F B. unfold upd_call, mbind. destruct (m h) as [[[p' e] h']|]; cbn [parser_behaves] in B; [|rewrite B; reflexivity].
  destruct B as (B1 & B2 & ->). cbn [ret fst snd step_ok v_upd]. split; [exact B1|]. split; [exact B2|]. split; [exact (goods_later h h' R hs B1 F)|].
  rewrite (map_content_later h h' R hs B1 F). reflexivity.
Qed.
Lemma see_ok h h' R p hs v : extends h h' -> keeps h R p -> Forall (good h R) hs -> good h' (or_new h R) v ->
  step_ok h R (Some (p, hs ++ [v], None, h')) (Some (shown_parser h p, map (content h) hs ++ [content h' v], None)).
Proof.
  intros E K F G. cbn [step_ok]. split; [exact E|]. split; [apply (keeps_weak h' R); [apply or_new_here|exact (keeps_later _ _ _ _ E K)]|].
  split; [apply Forall_app; split; [exact (goods_later h h' R hs E F)|constructor; [exact G|constructor]]|].
  rewrite map_app, (map_content_later h h' R hs E F), (shown_parser_later h h' R p E K). reflexivity.
Qed.

Lemma pstep_ok grow c h R p hs : keeps h R p -> Forall (good h R) hs ->
  step_ok h R (pstep grow c p hs h) (vpstep c (shown_parser h p) (map (content h) hs)).
Proof.
  intros K F. destruct c as [v path|key path|path|v path|key v path|index v path|path|path|]; cbn [pstep vpstep]; rewrite ?the_content;
    try (apply upd_call_ok; [exact F|]).
  - apply P_SetM_ok; [exact K|apply the_good; exact F].
  - apply P_SetKeyM_ok; exact K.
  - apply P_DeleteM_ok; exact K.
  - apply P_AddM_ok; [exact K|apply the_good; exact F].
  - apply P_AddKeyValueM_ok; [exact K|apply the_good; exact F].
  - apply P_InsertM_ok; [exact K|apply the_good; exact F].
  - unfold mbind. pose proof (P_GetM_spec h R p path K) as P. destruct (P_GetM p path h) as [[[e|v] h']|]; [| |rewrite P; reflexivity].
    + destruct P as (-> & ->). cbn [ret step_ok]. split; [apply extends_refl|]. split; [exact (keeps_weak _ _ _ _ (or_new_here h R) K)|].
      split; [exact (goods_later _ _ _ _ (extends_refl h) F)|reflexivity].
    + destruct P as (-> & _ & _ & G & ->). apply see_ok; try assumption; [apply extends_refl|exact (good_weak _ _ _ _ (or_new_here h R) G)].
  - unfold mbind. pose proof (P_GetNewM_ok grow h R p path K) as P. destruct (P_GetNewM grow p path h) as [[v h']|]; [|rewrite P; reflexivity].
    destruct P as (E & V & W & ->). apply see_ok; try assumption. destruct W as [(w & i & j & I & W)|FR]; [|split; [exact V|left; right; exact FR]].
    assert (G : good h R w) by (destruct I as [<-|I]; [apply nil_good|]; unfold keeps in K; rewrite Forall_forall in K; exact (K w I)).
    apply (good_weak h' R); [apply or_new_here|]. exact (good_window h' R w v i j (good_later _ _ _ _ E G) W V).
  - apply see_ok; try assumption; [apply extends_refl|]. apply (good_weak h R); [apply or_new_here|]. apply (proj1 (keeps_iff h R p) K).
Qed.

Theorem psession_ok grow cs : forall h R p hs, keeps h R p -> Forall (good h R) hs ->
  match psession grow cs p hs h with
  | None => vpsession cs (shown_parser h p) (map (content h) hs) = None
  | Some (p', hs', es, h') => extends h h' /\ keeps h' (or_new h R) p' /\ Forall (good h' (or_new h R)) hs' /\
      vpsession cs (shown_parser h p) (map (content h) hs) = Some (shown_parser h' p', map (content h') hs', es)
  end.
Proof.
  induction cs as [|c r IH]; intros h R p hs K F; cbn [psession vpsession].
  - cbn [ret]. split; [apply extends_refl|]. split; [exact (keeps_weak _ _ _ _ (or_new_here h R) K)|]. split; [exact (goods_later _ _ _ _ (extends_refl h) F)|reflexivity].
  - unfold mbind at 1. pose proof (pstep_ok grow c h R p hs K F) as S. destruct (pstep grow c p hs h) as [[[[p1 hs1] e] h1]|]; cbn [step_ok] in S; [|rewrite S; reflexivity].
    destruct S as (E1 & K1 & F1 & ->). cbn [fst snd]. unfold mbind. specialize (IH h1 (or_new h R) p1 hs1 K1 F1).
    destruct (psession grow r p1 hs1 h1) as [[[[p2 hs2] es] h2]|]; [|rewrite IH; reflexivity]. destruct IH as (E2 & K2 & F2 & ->). cbn [ret fst snd].
    split; [exact (extends_trans _ _ _ E1 E2)|]. split; [refine (keeps_weak _ _ _ _ _ K2); intros a; apply or_new_twice; exact E1|].
    split; [|reflexivity]. refine (Forall_impl _ _ F2). intros s. apply good_weak. intros a. apply or_new_twice. exact E1.
Qed.

(** Writing to an array the parser holds nothing of changes nothing about the parser. *)
Lemma poke_unheld h (R : nat -> Prop) p s i xs : keeps h R p -> ~ R (b_arr s) -> valid h s -> i + length xs <= b_cap s ->
  keeps (poke s i xs h) R p /\ shown_parser (poke s i xs h) p = shown_parser h p.
Proof.
  intros K NR V L. assert (S : forall w, good h R w -> good (poke s i xs h) R w /\ content (poke s i xs h) w = content h w).
  { intros w [Vw Gw]. split; [split; [apply poke_valid; assumption|exact Gw]|]. destruct Gw as [G|G].
    - apply poke_other. intro E. apply NR. rewrite E. exact G.
    - unfold content. rewrite G. reflexivity. }
  split; [refine (Forall_impl _ _ K); intros w G; apply S; exact G|].
  pose proof (proj1 (keeps_iff h R p) K) as [GJ GN]. unfold shown_parser. f_equal; [|apply S; exact GJ].
  apply shown_same. refine (Forall_impl _ _ GN). intros w G. apply S. exact G.
Qed.

(** GetNew of a place with children. *)
Theorem P_GetNewM_own grow h R p path n v h' : keeps h R p -> n_walk (p_core (shown_parser h p)) path = Ok n -> n_down n <> [] ->
  P_GetNewM grow p path h = Some (v, h') -> fresh h v.
Proof.
  intros K. pose proof (proj1 (keeps_iff h R p) K) as [GJ GN]. cbn [shown_parser p_core]. intros W NE. unfold P_GetNewM, mbind at 1, ask.
  pose proof (walk_ok h R path (mp_core p) GN) as X. rewrite W in X. unfold rel in X.
  destruct (m_walk h (mp_core p) path) as [m|e|] eqn:E; try contradiction. destruct X as [G ->]. rewrite down_shown in NE.
  destruct (m_down m) as [|d0 ds] eqn:ED; [contradiction|]. clear NE ED d0 ds. unfold mbind at 1. change 128%Z with (Z.of_nat 128). rewrite make_cap_spec.
  destruct (new_block_spec h [] 128) as (buf & h1 & NB & E1 & V1 & F1 & C1 & L1 & _). rewrite NB. unfold mbind.
  pose proof (diveM_ok grow h m (good_node_weak h R _ m (fun _ _ => I) G) buf h1 E1 V1 L1 (conj F1 (new_block_in _ _ _ _ _ NB))) as [D DF].
  destruct (diveM grow m buf h1) as [[o h2]|]; [|discriminate]. destruct D as (Vo & _ & _).
  pose proof (cleanValueM_spec h2 o Vo) as C. destruct (cleanValueM o h2) as [[o' h'']|]; [|discriminate]. intro Q. injection Q as <- _.
  destruct C as (_ & _ & (i & j & (_ & A & _)) & _). unfold fresh. rewrite A. exact DF.
Qed.

(** ** The parser shares memory *)
Definition w_mem : mem := [b "{""a"":1,""b"":2}"; b "7"].
Definition w_doc : bsl := Bsl 0 0 13 13.
Definition w_val : bsl := Bsl 1 0 1 1.
Definition w_parser : mparser := match ParseM w_doc w_mem with Some (inr p, _) => p | _ => MPar (MNode (Own []) nil_ []) nil_ end.
Lemma w_doc_valid : valid w_mem w_doc. Proof. unfold valid. cbn. lia. Qed.
Lemma w_val_valid : valid w_mem w_val. Proof. unfold valid. cbn. lia. Qed.

Lemma parse_shares : ~ (forall h json p pos c h', valid h json -> ParseM json h = Some (inr p, h) -> store json pos c h = Some (tt, h') ->
  p_core (shown_parser h' p) = p_core (shown_parser h p)).
Proof.
  intro F. assert (E := F w_mem w_doc w_parser 5 (hd 0%N (b "9")) [b "{""a"":9,""b"":2}"; b "7"] w_doc_valid eq_refl eq_refl). vm_compute in E. discriminate.
Qed.
Lemma update_shares : ~ (forall grow h json v p path p' h' pos c h'', valid h json -> valid h v -> ParseM json h = Some (inr p, h) ->
  P_SetM grow p v path h = Some (p', None, h') -> store json pos c h' = Some (tt, h'') -> shown_parser h'' p' = shown_parser h' p').
Proof.
  intro F. specialize (F (fun _ => 0) w_mem w_doc w_val w_parser [b "a"]).
  destruct (P_SetM (fun _ => 0) w_parser w_val [b "a"] w_mem) as [[[p' e] h']|] eqn:E; [|vm_compute in E; discriminate].
  destruct (store w_doc 11 (hd 0%N (b "9")) h') as [[u h'']|] eqn:S; [|vm_compute in E; injection E as <- <- <-; vm_compute in S; discriminate].
  destruct u. vm_compute in E. injection E as <- <- <-. specialize (F _ _ _ _ _ w_doc_valid w_val_valid eq_refl eq_refl S).
  vm_compute in S. injection S as <-. vm_compute in F. discriminate.
Qed.
Lemma value_shares : ~ (forall grow h json v p path p' h' pos c h'', valid h json -> valid h v -> ParseM json h = Some (inr p, h) ->
  P_SetM grow p v path h = Some (p', None, h') -> store v pos c h' = Some (tt, h'') -> shown_parser h'' p' = shown_parser h' p').
Proof.
  intro F. specialize (F (fun _ => 0) w_mem w_doc w_val w_parser [b "a"]).
  destruct (P_SetM (fun _ => 0) w_parser w_val [b "a"] w_mem) as [[[p' e] h']|] eqn:E; [|vm_compute in E; discriminate].
  destruct (store w_val 0 (hd 0%N (b "9")) h') as [[u h'']|] eqn:S; [|vm_compute in E; injection E as <- <- <-; vm_compute in S; discriminate].
  destruct u. vm_compute in E. injection E as <- <- <-. specialize (F _ _ _ _ _ w_doc_valid w_val_valid eq_refl eq_refl S).
  vm_compute in S. injection S as <-. vm_compute in F. discriminate.
Qed.
Lemma getnew_shares : ~ (forall grow h json p path v h', valid h json -> ParseM json h = Some (inr p, h) -> P_GetNewM grow p path h = Some (v, h') -> fresh h v).
Proof.
  intro F. assert (E := F (fun _ => 0) w_mem w_doc w_parser [b "b"] (Bsl 0 11 1 2) w_mem w_doc_valid eq_refl eq_refl). unfold fresh in E. cbn in E. lia.
Qed.
