(** The tree built by Parse against the document. *)
From Coq Require Import String.
From Verif Require Import GoStd Json Core Skip Focus CoreProofs Errors Api ApiProofs SpecIter Iter IterProofs Typed SpecParser Parser.

Local Open Scope N_scope.

(** ** When a node stands for a value *)

(** The child with a label: elements are labelled 0, 1, 2, ... *)
Fixpoint nth_label (k : nat) (x : bytes) (els : list (elem jv)) : option (elem jv) :=
  match els with
  | [] => None
  | e :: r => if bytes_eqb (itoa (Z.of_nat k)) x then Some e else nth_label (S k) x r
  end.
Definition lstep (v : jv) (x : bytes) : option jv :=
  match v with
  | JArr _ els => option_map e_val (nth_label 0 x els)
  | JObj _ ms => option_map m_val (find_mem x ms)
  | _ => None
  end.

(** The labels are the positions. *)
Definition positional (ns : list node) : Prop := forall i n, nth_error ns i = Some n -> n_label n = itoa (Z.of_nat i).
Definition counted (v : jv) (ns : list node) : Prop :=
  match v with
  | JArr _ els => ns = [] \/ (length ns = length els /\ positional ns)
  | JObj _ ms => map n_label ns = map m_key ms
  | _ => True
  end.

(** The bytes are the text of the value; next to those of a scalar or string there may be blanks. *)
Definition shows (x : bytes) (v : jv) : Prop :=
  wf v = true /\ exists u w, ws_ok u = true /\ ws_ok w = true /\ x = u ++ render v ++ w /\ (container v = true -> u = [] /\ w = []).
Lemma shows_clean x v : shows x v -> cleanValue x = Ok (bare v).
Proof. intros (Hv & u & w & Hu & Hw & -> & _). apply cleanValue_value; assumption. Qed.
Lemma shows_render v : wf v = true -> shows (render v) v.
Proof. intro H. split; [exact H|]. exists [], []. rewrite app_nil_r. repeat split. Qed.
Lemma shows_leaf u v w : ws_ok u = true -> wf v = true -> ws_ok w = true -> container v = false -> shows (u ++ render v ++ w) v.
Proof. intros Hu Hv Hw Hc. split; [exact Hv|]. exists u, w. repeat split; auto; congruence. Qed.

(** Parametrised by a condition on the children; [counted] is what Parse guarantees. *)
Inductive agreesG (C : jv -> list node -> Prop) : jv -> node -> Prop :=
| Agrees v l x ns :
    shows x v ->
    (forall p n, find_node p ns = Some n -> exists c, lstep v p = Some c /\ agreesG C c n) ->
    (forall p c, lstep v p = Some c -> find_node p ns = None -> lonely v = true) ->
    C v ns ->
    agreesG C v (Node l x ns).
Notation agrees := (agreesG counted).

(** ** The nodes Parse makes: containers get their text, leaves the text between the separators *)
Fixpoint node_of (l : bytes) (v : jv) : node :=
  match v with
  | JArr w els =>
      Node l (render v)
        (if lonely v then [] else
         (fix go (k : nat) (u : bytes) (es : list (elem jv)) : list node :=
            match es with
            | [] => []
            | Elem p x q :: r =>
                let lbl := itoa (Z.of_nat k) in
                (if container x then node_of lbl x else Node lbl ((u ++ p) ++ render x ++ q) []) :: go (S k) [] r
            end) O w els)
  | JObj _ ms =>
      Node l (render v)
        ((fix go (ms : list (mem jv)) : list node :=
            match ms with
            | [] => []
            | Mem _ key _ u x q :: r => (if container x then node_of key x else Node key (u ++ render x ++ q) []) :: go r
            end) ms)
  | _ => Node l (render v) []
  end.
Fixpoint els_kids (k : nat) (els : list (elem jv)) : list node :=
  match els with
  | [] => []
  | e :: r =>
      (if container (e_val e) then node_of (itoa (Z.of_nat k)) (e_val e) else Node (itoa (Z.of_nat k)) (elem_text e) []) :: els_kids (S k) r
  end.
Definition mem_kid (m : mem jv) : node :=
  if container (m_val m) then node_of (m_key m) (m_val m) else Node (m_key m) (m_mid2 m ++ render (m_val m) ++ m_post m) [].

Lemma node_of_arr l w els :
  node_of l (JArr w els) = Node l (render (JArr w els)) (if lonely (JArr w els) then [] else els_kids 0 (absorb_e w els)).
Proof.
  cbn [node_of]. destruct (lonely (JArr w els)); [reflexivity|]. f_equal.
  assert (H : forall es k, (fix go (k : nat) (u : bytes) (es : list (elem jv)) : list node :=
            match es with
            | [] => []
            | Elem p x q :: r =>
                let lbl := itoa (Z.of_nat k) in
                (if container x then node_of lbl x else Node lbl ((u ++ p) ++ render x ++ q) []) :: go (S k) [] r
            end) k [] es = els_kids k es).
  { induction es as [|[p x q] r IH]; intro k; [reflexivity|]. cbn [els_kids e_val]. rewrite IH. reflexivity. }
  destruct els as [|[p x q] r]; [reflexivity|]. cbn [absorb_e els_kids e_val e_pre e_post]. rewrite H. reflexivity.
Qed.
Lemma node_of_obj l w ms : node_of l (JObj w ms) = Node l (render (JObj w ms)) (map mem_kid ms).
Proof.
  cbn [node_of]. f_equal. induction ms as [|[p k m u x q] r IH]; [reflexivity|]. cbn [map]. rewrite IH. reflexivity.
Qed.
Lemma node_of_leaf l v : container v = false -> node_of l v = Node l (render v) [].
Proof. destruct v; [reflexivity|reflexivity|discriminate|discriminate]. Qed.

(** ** Plain steps of the loop *)
Section Loop.
  Variable json : bytes.
  Local Notation L := (p_loop json).

  Lemma p_plain c r i start stop key vs last braces idx up : plain c = true ->
    L (c :: r) i false start stop key vs last braces idx up = L r (S i) false start stop key vs last braces idx up.
  Proof.
    intro Hp. pose proof (plain_neq _ Hp) as H. cbn [p_loop].
    rewrite (plain_not_open _ Hp), (plain_not_close _ Hp), !eqb_false by tauto. reflexivity.
  Qed.

  Lemma p_plains w : forall pre r start stop key vs last braces idx up, forallb plain w = true ->
    L (w ++ r) (length pre) false start stop key vs last braces idx up =
    L r (length (pre ++ w)) false start stop key vs last braces idx up.
  Proof.
    induction w as [|c w IH]; intros pre r start stop key vs last braces idx up Hw; [rewrite app_nil_r; reflexivity|].
    cbn [forallb] in Hw. apply andb_true_iff in Hw. destruct Hw as [Hc Hw]. cbn [app]. rewrite p_plain by exact Hc.
    rewrite <- length_snoc with (c := c). rewrite IH by exact Hw. rewrite <- app_assoc. reflexivity.
  Qed.

  Lemma ws_plains w : ws_ok w = true -> forallb plain w = true.
  Proof.
    intro H. apply ws_ok_Forall in H. apply forallb_forall. intros c Hc. rewrite Forall_forall in H.
    apply ws_plain. apply H. exact Hc.
  Qed.
  Lemma scalar_plains s : scalar_ok s = true -> forallb plain s = true.
  Proof.
    intro H. apply scalar_ok_inv in H. destruct H as [_ H]. rewrite Forall_forall in H. apply forallb_forall.
    intros c Hc. apply token_plain. apply H. exact Hc.
  Qed.

  Lemma p_str s pre r start stop key vs last braces idx up : str_ok s = true -> json = pre ++ 34 :: s ++ 34 :: r ->
    L (34 :: s ++ 34 :: r) (length pre) false start stop key vs last braces idx up =
    L r (length (pre ++ 34 :: s ++ [34])) false (S (length pre)) (length (pre ++ 34 :: s)) key vs last braces idx up.
  Proof.
    intros Hs Hj. cbn [p_loop N.eqb Pos.eqb].
    rewrite (str_skip json _ (fun r i => L r i true (S (length pre)) stop key vs last braces idx up)) with (post := 34 :: r).
    - cbn [p_loop N.eqb Pos.eqb]. replace (qscan json (length (pre ++ 34 :: s))) with (Some true)
        by (rewrite Hj; symmetry; apply qscan_close; exact Hs).
      f_equal. len.
    - intros pre0 c r0 _ Hc. cbn [p_loop]. rewrite eqb_false by exact Hc. reflexivity.
    - intros pre0 r0 _ Hq. cbn [p_loop N.eqb Pos.eqb]. rewrite Hq. reflexivity.
    - exact Hs.
    - exact Hj.
  Qed.

  (** A scalar or string changes [start] and [stop] at most. *)
  Lemma p_leaf v pre r start stop key vs last braces idx up : wf v = true -> container v = false -> json = pre ++ render v ++ r ->
    exists start' stop',
    L (render v ++ r) (length pre) false start stop key vs last braces idx up =
    L r (length (pre ++ render v)) false start' stop' key vs last braces idx up.
  Proof.
    intros Hw Hc Hj. destruct v as [s|s|w els|w ms]; try discriminate Hc; cbn [wf render] in *.
    - exists start, stop. apply p_plains. apply scalar_plains. exact Hw.
    - exists (S (length pre)), (length (pre ++ 34 :: s)). cbn [app] in *. rewrite <- app_assoc in *. cbn [app] in *.
      apply p_str; assumption.
  Qed.

  (** A container adds its node to the innermost open one. *)
  Definition Pass (v : jv) : Prop := wf v = true -> container v = true ->
    forall pre r start stop key vs last braces k idx f up, json = pre ++ render v ++ r ->
    exists start' stop' key' vs' last',
    L (render v ++ r) (length pre) false start stop key vs last braces (k :: idx) (f :: up) =
    L r (length (pre ++ render v)) false start' stop' key' vs' last' braces (k :: idx)
      (frame_add (node_of (if last =? 58 then key else itoa (Z.of_nat k)) v) f :: up) /\
    is_close last' = true.

  (** A value between blanks; [vs] and [key] are kept by a leaf. *)
  Definition Passed (v : jv) (vs : nat) (key : bytes) (last : N) (f : frame) (k : nat)
             (vs' : nat) (key' : bytes) (last' : N) (f' : frame) : Prop :=
    if container v then
      is_close last' = true /\ f' = frame_add (node_of (if last =? 58 then key else itoa (Z.of_nat k)) v) f
    else vs' = vs /\ key' = key /\ last' = last /\ f' = f.

  Lemma value_pass u v w pre r start stop key vs last braces k idx f up :
    Pass v -> ws_ok u = true -> wf v = true -> ws_ok w = true -> json = pre ++ (u ++ render v ++ w) ++ r ->
    exists start' stop' key' vs' last' f',
    L ((u ++ render v ++ w) ++ r) (length pre) false start stop key vs last braces (k :: idx) (f :: up) =
    L r (length (pre ++ u ++ render v ++ w)) false start' stop' key' vs' last' braces (k :: idx) (f' :: up) /\
    Passed v vs key last f k vs' key' last' f'.
  Proof.
    intros HP Hu Hv Hw Hj. unfold Passed. rewrite <- !app_assoc in *. rewrite p_plains by (apply ws_plains; exact Hu).
    rewrite app_assoc in Hj. destruct (container v) eqn:Hc.
    - destruct (HP Hv Hc _ _ start stop key vs last braces k idx f up Hj) as (s1 & s2 & k1 & v1 & l1 & E & H).
      rewrite E. rewrite p_plains by (apply ws_plains; exact Hw).
      do 6 eexists. split; [f_equal; len|]. split; [exact H|reflexivity].
    - destruct (p_leaf v _ _ start stop key vs last braces (k :: idx) (f :: up) Hv Hc Hj) as (s1 & s2 & E).
      rewrite E. rewrite p_plains by (apply ws_plains; exact Hw).
      exists s1, s2, key, vs, last, f. split; [f_equal; len|tauto].
  Qed.

  (** ** Elements *)
  Lemma closing_not c : is_close c = true -> (c =? 58) = false /\ (c =? 44) = false /\ (c =? 91) = false.
  Proof. intro H. apply close_cases in H. destruct H; subst c; repeat split. Qed.

  Lemma arr_run els : Forall (fun e => Pass (e_val e)) els -> els <> [] -> forallb elem_ok els = true ->
    forall pre post start stop key last bp braces k idx f g up val,
    json = pre ++ join (map elem_text els) ++ 93 :: post ->
    last = 44 \/ (last = 91 /\ k = O) ->
    slice json bp (S (length (pre ++ join (map elem_text els)))) = Ok val ->
    exists start' stop' key' vs',
    L (join (map elem_text els) ++ 93 :: post) (length pre) false start stop key (length pre) last (bp :: braces) (k :: idx) (f :: g :: up) =
    L post (S (length (pre ++ join (map elem_text els)))) false start' stop' key' vs' 93 braces idx
      (frame_add (Node (fr_label f) val (rev (fr_down f) ++ (if (last =? 91) && lonely (JArr [] els) then [] else els_kids k els))) g :: up).
  Proof.
    intros HP Hne Hok. revert Hne Hok. induction HP as [|e l He HP IH]; intros Hne Hok; [contradiction|].
    intros pre post start stop key last bp braces k idx f g up val Hj Hlast Hval.
    cbn [forallb] in Hok. apply andb_true_iff in Hok. destruct Hok as [Hoe Hol].
    cbn [map] in *. rewrite join_cons in *. rewrite <- app_assoc in *.
    pose proof Hoe as Hoe'. unfold elem_ok in Hoe'. nbool.
    destruct (value_pass (e_pre e) (e_val e) (e_post e) pre (jpost (map elem_text l) ++ 93 :: post) start stop key
                (length pre) last (bp :: braces) k idx f (g :: up)) as (s1 & s2 & k1 & v1 & l1 & f1 & E & HQ); try assumption.
    unfold elem_text at 1. rewrite E. clear E. fold (elem_text e) in *.
    assert (H58 : (last =? 58) = false) by (destruct Hlast as [->|[-> _]]; reflexivity).
    assert (Hsl : slice json (length pre) (length (pre ++ elem_text e)) = Ok (elem_text e))
      by (rewrite Hj; apply slice_app).
    unfold Passed in HQ. rewrite H58 in HQ.
    destruct l as [|e2 l].
    - (* last element *)
      cbn [map jpost concat app] in *. rewrite app_nil_r in *. cbn [p_loop].
      change (93 =? 34) with false. change (is_open 93) with false. change (is_close 93) with true. cbn [andb].
      destruct (container (e_val e)) eqn:Hc.
      + destruct HQ as (Hl1 & ->). destruct (closing_not _ Hl1) as (E1 & E2 & _). rewrite E1, E2.
        cbn [bind seq_pop]. rewrite Hval. cbn [bind go_up].
        exists s1, s2, k1, v1. cbn [lonely els_kids]. rewrite Hc. cbn [negb]. rewrite andb_false_r. reflexivity.
      + destruct HQ as (-> & -> & -> & ->). destruct Hlast as [->|[-> ->]].
        * change (44 =? 58) with false. change (44 =? 44) with true. cbn [bind seq_top]. rewrite Hsl. cbn [bind add_down seq_pop].
          rewrite Hval. cbn [bind go_up].
          exists s1, s2, key, (S (length (pre ++ elem_text e))). cbn [els_kids]. rewrite Hc. reflexivity.
        * change (91 =? 58) with false. change (91 =? 44) with false. cbn [bind seq_pop]. rewrite Hval. cbn [bind go_up].
          exists s1, s2, key, (length pre). cbn [lonely]. rewrite Hc, app_nil_r. reflexivity.
    - (* a comma follows *)
      cbn [map] in *. rewrite jpost_cons in *. cbn [app p_loop] in *.
      change (44 =? 34) with false. change (is_open 44) with false. change (is_close 44) with false.
      change (44 =? 58) with false. change (44 =? 44) with true. cbn [andb].
      specialize (IH ltac:(discriminate) Hol ((pre ++ elem_text e) ++ [44]) post).
      rewrite length_snoc in IH. rewrite join_cons in IH.
      assert (Hj' : json = ((pre ++ elem_text e) ++ [44]) ++ (elem_text e2 ++ jpost (map elem_text l)) ++ 93 :: post)
        by (rewrite Hj; same_text).
      assert (Hval' : slice json bp (S (length (((pre ++ elem_text e) ++ [44]) ++ elem_text e2 ++ jpost (map elem_text l)))) = Ok val).
      { rewrite <- Hval. f_equal. f_equal. f_equal. same_text. }
      destruct (container (e_val e)) eqn:Hc.
      + destruct HQ as (Hl1 & ->). destruct (closing_not _ Hl1) as (E1 & E2 & E3). rewrite E1, E2, E3. cbn [orb bind seq_inc].
        destruct (IH s1 s2 k1 44 bp braces (S k) idx (frame_add (node_of (itoa (Z.of_nat k)) (e_val e)) f) g up val Hj' (or_introl eq_refl) Hval')
          as (t1 & t2 & t3 & t4 & E).
        exists t1, t2, t3, t4. rewrite <- app_assoc in E |- *. fold (elem_text e) in *. rewrite E. f_equal; [len|].
        cbn [frame_add fr_label fr_down rev lonely els_kids]. rewrite Hc, andb_false_r. rewrite <- app_assoc. reflexivity.
      + destruct HQ as (-> & -> & -> & ->).
        fold (elem_text e).
        replace (if last =? 58 then _ else _) with (Ok (frame_add (Node (itoa (Z.of_nat k)) (elem_text e) []) f :: g :: up))
          by (destruct Hlast as [->|[-> ->]]; cbn -[slice]; rewrite Hsl; reflexivity).
        cbn [bind seq_inc].
        destruct (IH s1 s2 key 44 bp braces (S k) idx (frame_add (Node (itoa (Z.of_nat k)) (elem_text e) []) f) g up val Hj' (or_introl eq_refl) Hval')
          as (t1 & t2 & t3 & t4 & E).
        exists t1, t2, t3, t4. rewrite <- app_assoc in E |- *. fold (elem_text e) in *. rewrite E. f_equal; [len|].
        cbn [frame_add fr_label fr_down rev lonely els_kids]. rewrite Hc, andb_false_r. rewrite <- app_assoc. reflexivity.
  Qed.
  (** ** Members *)
  Lemma head_run m pre r start stop key vs last braces idx up : mem_ok m = true -> json = pre ++ mem_head m ++ 58 :: r ->
    exists start' stop',
    L (mem_head m ++ 58 :: r) (length pre) false start stop key vs last braces idx up =
    L r (length (pre ++ mem_head m ++ [58])) false start' stop' (m_key m) (length (pre ++ mem_head m ++ [58])) 58 braces idx up.
  Proof.
    unfold mem_ok, mem_head. intros Hok Hj. nbool. rewrite <- app_assoc in *. cbn [app] in *. rewrite <- app_assoc in *. cbn [app] in *.
    rewrite p_plains by (apply ws_plains; assumption).
    assert (Hj1 : json = (pre ++ m_pre m) ++ 34 :: m_key m ++ 34 :: m_mid m ++ 58 :: r) by (rewrite Hj; same_text).
    rewrite (p_str (m_key m)) by assumption. rewrite p_plains by (apply ws_plains; assumption).
    cbn [p_loop]. change (58 =? 34) with false. change (is_open 58) with false. change (is_close 58) with false.
    change (58 =? 58) with true. cbn [andb].
    rewrite (slice_app_eq _ ((pre ++ m_pre m) ++ [34]) (m_key m) (34 :: m_mid m ++ 58 :: r)); [|rewrite Hj1; same_text|len|len].
    cbn [bind]. do 2 eexists. f_equal; len.
  Qed.

  Lemma obj_run ms : Forall (fun m => Pass (m_val m)) ms -> ms <> [] -> forallb mem_ok ms = true ->
    forall pre post start stop key vs last bp braces k idx f g up val,
    json = pre ++ join (map mem_text ms) ++ 125 :: post ->
    slice json bp (S (length (pre ++ join (map mem_text ms)))) = Ok val ->
    exists start' stop' key' vs',
    L (join (map mem_text ms) ++ 125 :: post) (length pre) false start stop key vs last (bp :: braces) (k :: idx) (f :: g :: up) =
    L post (S (length (pre ++ join (map mem_text ms)))) false start' stop' key' vs' 125 braces idx
      (frame_add (Node (fr_label f) val (rev (fr_down f) ++ map mem_kid ms)) g :: up).
  Proof.
    intros HP Hne Hok. revert Hne Hok. induction HP as [|m l He HP IH]; intros Hne Hok; [contradiction|].
    intros pre post start stop key vs last bp braces k idx f g up val Hj Hval.
    cbn [forallb] in Hok. apply andb_true_iff in Hok. destruct Hok as [Hom Hol].
    cbn [map] in *. rewrite join_cons in *. rewrite mem_text_split in *. unfold mem_tail in *.
    rewrite <- !app_assoc in *. cbn [app] in *. rewrite <- !app_assoc in *.
    destruct (head_run m pre (m_mid2 m ++ render (m_val m) ++ m_post m ++ jpost (map mem_text l) ++ 125 :: post)
                start stop key vs last (bp :: braces) (k :: idx) (f :: g :: up) Hom Hj) as (a1 & a2 & E).
    rewrite E. clear E.
    pose proof Hom as Hom'. unfold mem_ok in Hom'. nbool.
    set (pc := pre ++ mem_head m ++ [58]) in *.
    assert (Hj1 : json = pc ++ (m_mid2 m ++ render (m_val m) ++ m_post m) ++ jpost (map mem_text l) ++ 125 :: post)
      by (rewrite Hj; subst pc; same_text).
    destruct (value_pass (m_mid2 m) (m_val m) (m_post m) pc (jpost (map mem_text l) ++ 125 :: post) a1 a2 (m_key m)
                (length pc) 58 (bp :: braces) k idx f (g :: up)) as (s1 & s2 & k1 & v1 & l1 & f1 & E & HQ); try assumption.
    rewrite <- !app_assoc in E. rewrite E. clear E.
    set (vt := m_mid2 m ++ render (m_val m) ++ m_post m) in *.
    assert (Hsl : slice json (length pc) (length (pc ++ vt)) = Ok vt) by (rewrite Hj1; apply slice_app).
    unfold Passed in HQ. change (58 =? 58) with true in HQ. cbv iota in HQ.
    destruct l as [|m2 l].
    - cbn [map jpost concat app] in *. rewrite ?app_nil_r in *. cbn [p_loop].
      change (125 =? 34) with false. change (is_open 125) with false. change (is_close 125) with true. cbn [andb].
      replace (pre ++ mem_head m ++ 58 :: m_mid2 m ++ render (m_val m) ++ m_post m) with (pc ++ vt) in *
        by (subst pc vt; same_text).
      destruct (container (m_val m)) eqn:Hc.
      + destruct HQ as (Hl1 & ->). destruct (closing_not _ Hl1) as (E1 & E2 & _). rewrite E1, E2.
        cbn [bind seq_pop]. rewrite Hval. cbn [bind go_up].
        exists s1, s2, k1, v1. unfold mem_kid. cbn [map]. rewrite Hc. reflexivity.
      + destruct HQ as (-> & -> & -> & ->). change (58 =? 58) with true. cbv iota. rewrite Hsl. cbn [bind add_down seq_pop].
        rewrite Hval. cbn [bind go_up].
        exists s1, s2, (m_key m), (length pc). unfold mem_kid. cbn [map]. rewrite Hc. reflexivity.
    - cbn [map] in *. rewrite jpost_cons in *. cbn [app p_loop] in *.
      change (44 =? 34) with false. change (is_open 44) with false. change (is_close 44) with false.
      change (44 =? 58) with false. change (44 =? 44) with true. cbn [andb].
      specialize (IH ltac:(discriminate) Hol ((pc ++ vt) ++ [44]) post).
      rewrite length_snoc in IH. rewrite join_cons in IH.
      assert (Hj' : json = ((pc ++ vt) ++ [44]) ++ (mem_text m2 ++ jpost (map mem_text l)) ++ 125 :: post)
        by (rewrite Hj1; same_text).
      assert (Hval' : slice json bp (S (length (((pc ++ vt) ++ [44]) ++ mem_text m2 ++ jpost (map mem_text l)))) = Ok val).
      { rewrite <- Hval. f_equal. f_equal. f_equal. subst pc vt. same_text. }
      destruct (container (m_val m)) eqn:Hc.
      + destruct HQ as (Hl1 & ->). destruct (closing_not _ Hl1) as (E1 & E2 & E3). rewrite E1, E2, E3. cbn [orb bind seq_inc].
        destruct (IH s1 s2 k1 (S (length (pc ++ vt))) 44 bp braces (S k) idx (frame_add (node_of (m_key m) (m_val m)) f) g up val Hj' Hval')
          as (t1 & t2 & t3 & t4 & E).
        exists t1, t2, t3, t4. rewrite <- app_assoc in E |- *. rewrite E. f_equal; [subst pc vt; len|].
        cbn [frame_add fr_label fr_down rev map]. replace (mem_kid m) with (node_of (m_key m) (m_val m)) by (unfold mem_kid; rewrite Hc; reflexivity).
        rewrite <- app_assoc. reflexivity.
      + destruct HQ as (-> & -> & -> & ->). change (58 =? 58) with true. cbv iota. rewrite Hsl. cbn [bind add_down seq_inc].
        destruct (IH s1 s2 (m_key m) (S (length (pc ++ vt))) 44 bp braces (S k) idx (frame_add (Node (m_key m) vt []) f) g up val Hj' Hval')
          as (t1 & t2 & t3 & t4 & E).
        exists t1, t2, t3, t4. rewrite <- app_assoc in E |- *. rewrite E. f_equal; [subst pc vt; len|].
        cbn [frame_add fr_label fr_down rev map]. replace (mem_kid m) with (Node (m_key m) vt []) by (unfold mem_kid; rewrite Hc; reflexivity).
        rewrite <- app_assoc. reflexivity.
  Qed.

  Theorem pass v : Pass v.
  Proof.
    induction v as [s|s|w els IH|w ms IH] using jv_ind'; intros Hw Hc; try discriminate Hc;
      intros pre r start stop key vs last braces k idx f up Hj.
    - rewrite node_of_arr, render_arr in *. cbn [app p_loop] in *.
      change (91 =? 34) with false. change (is_open 91) with true. cbn [andb].
      assert (Hol : open_label last key (k :: idx) = Ok (if last =? 58 then key else itoa (Z.of_nat k)))
        by (unfold open_label; destruct (last =? 58); reflexivity).
      rewrite Hol. cbn [bind]. clear Hol. set (lbl := if last =? 58 then key else itoa (Z.of_nat k)).
      rewrite <- length_snoc with (c := 91).
      assert (Hv : slice json (length pre) (length (pre ++ 91 :: w ++ join (map elem_text els) ++ [93])) =
                   Ok (91 :: w ++ join (map elem_text els) ++ [93])) by (rewrite Hj; apply (slice_app pre (91 :: w ++ join (map elem_text els) ++ [93]) r)).
      destruct els as [|e l].
      + cbn [map join app] in *. rewrite <- app_assoc. cbn [app]. rewrite wf_arr in Hw. nbool.
        rewrite p_plains by (apply ws_plains; assumption).
        cbn [p_loop]. change (93 =? 34) with false. change (is_open 93) with false. change (is_close 93) with true.
        change (91 =? 58) with false. change (91 =? 44) with false. cbn [andb bind seq_pop].
        replace (S (length ((pre ++ [91]) ++ w))) with (length (pre ++ 91 :: w ++ [93])) by len.
        rewrite Hv. cbn [bind go_up close_frame fr_label fr_down rev].
        do 5 eexists. split; reflexivity.
      + rewrite (app_assoc w) in *. rewrite join_absorb_e in * by discriminate.
        destruct (arr_run (absorb_e w (e :: l))) with (pre := pre ++ [91]) (post := r) (start := start) (stop := stop) (key := key)
          (last := 91) (bp := length pre) (braces := braces) (k := O) (idx := k :: idx) (f := Fr lbl [] []) (g := f) (up := up)
          (val := 91 :: join (map elem_text (absorb_e w (e :: l))) ++ [93]) as (t1 & t2 & t3 & t4 & E).
        * inversion IH; subst. constructor; assumption.
        * discriminate.
        * apply absorb_e_ok. exact Hw.
        * rewrite Hj. same_text.
        * right. split; reflexivity.
        * rewrite <- Hv. f_equal. len.
        * rewrite <- app_assoc. cbn [app]. rewrite E. do 5 eexists.
          split; [f_equal; len|reflexivity].
    - rewrite node_of_obj, render_obj in *. cbn [app p_loop] in *.
      change (123 =? 34) with false. change (is_open 123) with true. cbn [andb].
      assert (Hol : open_label last key (k :: idx) = Ok (if last =? 58 then key else itoa (Z.of_nat k)))
        by (unfold open_label; destruct (last =? 58); reflexivity).
      rewrite Hol. cbn [bind]. clear Hol. set (lbl := if last =? 58 then key else itoa (Z.of_nat k)).
      rewrite <- length_snoc with (c := 123).
      assert (Hv : slice json (length pre) (length (pre ++ 123 :: w ++ join (map mem_text ms) ++ [125])) =
                   Ok (123 :: w ++ join (map mem_text ms) ++ [125])) by (rewrite Hj; apply (slice_app pre (123 :: w ++ join (map mem_text ms) ++ [125]) r)).
      destruct ms as [|e l].
      + cbn [map join app] in *. rewrite <- app_assoc. cbn [app]. rewrite wf_obj in Hw. nbool.
        rewrite p_plains by (apply ws_plains; assumption).
        cbn [p_loop]. change (125 =? 34) with false. change (is_open 125) with false. change (is_close 125) with true.
        change (123 =? 58) with false. change (123 =? 44) with false. cbn [andb bind seq_pop].
        replace (S (length ((pre ++ [123]) ++ w))) with (length (pre ++ 123 :: w ++ [125])) by len.
        rewrite Hv. cbn [bind go_up close_frame fr_label fr_down rev].
        do 5 eexists. split; reflexivity.
      + rewrite (app_assoc w) in *. rewrite join_absorb_m in * by discriminate.
        destruct (obj_run (absorb_m w (e :: l))) with (pre := pre ++ [123]) (post := r) (start := start) (stop := stop) (key := key)
          (vs := length (pre ++ [123])) (last := 123) (bp := length pre) (braces := braces) (k := O) (idx := k :: idx) (f := Fr lbl [] []) (g := f) (up := up)
          (val := 123 :: join (map mem_text (absorb_m w (e :: l))) ++ [125]) as (t1 & t2 & t3 & t4 & E).
        * inversion IH; subst. constructor; assumption.
        * discriminate.
        * apply absorb_m_ok. exact Hw.
        * rewrite Hj. same_text.
        * rewrite <- Hv. f_equal. len.
        * rewrite <- app_assoc. cbn [app]. rewrite E. do 5 eexists.
          split; [f_equal; len|reflexivity].
  Qed.
End Loop.

Theorem pCore_exact d : wf_doc d = true -> container (d_val d) = true -> pCore (text d) = Ok [node_of (b "0") (d_val d)].
Proof.
  unfold wf_doc. intros Hw Hc. nbool. unfold pCore.
  assert (Hl : (2 <= length (render (d_val d)))%nat).
  { destruct (d_val d); try discriminate Hc; cbn [render]; len. }
  replace (length (text d) <? 2)%nat with false by (symmetry; apply Nat.ltb_ge; unfold text; len).
  destruct (render_cons (d_val d)) as (c & t & Er & Hnw); [assumption|].
  assert (Hs : skip_space (text d) 0 = Ok (length (d_pre d))).
  { unfold text. rewrite Er. cbn [app]. apply (skip_space_ws (d_pre d) c (t ++ d_post d) 0); [assumption|].
    exact Hnw. }
  rewrite Hs. cbn [bind].
  replace (skipn (length (d_pre d)) (text d)) with (render (d_val d) ++ d_post d)
    by (unfold text; rewrite skipn_length_app; reflexivity).
  destruct (pass (text d) (d_val d)) with (pre := d_pre d) (r := d_post d) (start := length (d_pre d)) (stop := O) (key := @nil N) (vs := O) (last := 0)
    (braces := @nil nat) (k := O) (idx := @nil nat) (f := Fr [] [] []) (up := @nil frame) as (t1 & t2 & t3 & t4 & t5 & E & _);
    try assumption; [reflexivity|].
  rewrite E. pose proof (p_plains (text d) (d_post d) (d_pre d ++ render (d_val d)) [] t1 t2 t3 t4 t5 [] [0%nat]) as E2.
  rewrite app_nil_r in E2. rewrite E2 by (apply ws_plains; assumption). reflexivity.
Qed.
Theorem parse_exact d : wf_doc d = true -> container (d_val d) = true ->
  Parse (text d) = Ok (Par (node_of (b "0") (d_val d)) (text d)).
Proof. intros Hw Hc. unfold Parse. rewrite (pCore_exact d Hw Hc). reflexivity. Qed.

(** ** The nodes stand for the values *)
Fixpoint els_nodes (k : nat) (els : list (elem jv)) (ns : list node) : Prop :=
  match els, ns with
  | [], [] => True
  | e :: r, n :: ns' => n_label n = itoa (Z.of_nat k) /\ agrees (e_val e) n /\ els_nodes (S k) r ns'
  | _, _ => False
  end.

Definition mems_nodes (ms : list (mem jv)) (ns : list node) : Prop :=
  Forall2 (fun m n => n_label n = m_key m /\ agrees (m_val m) n) ms ns.

Lemma agrees_leaf v l x : container v = false -> shows x v -> agrees v (Node l x []).
Proof.
  intros Hc Hx. constructor; [exact Hx|discriminate| |destruct v; try exact I; discriminate Hc].
  intros p c H. destruct v; discriminate.
Qed.

(** From lists of nodes to lookups *)
Lemma els_find els : forall k ns x, els_nodes k els ns ->
  match find_node x ns, nth_label k x els with
  | Some n, Some e => agrees (e_val e) n
  | None, None => True
  | _, _ => False
  end.
Proof.
  induction els as [|e r IH]; intros k [|n ns] x H; cbn in H; try contradiction; [exact I|].
  destruct H as (Hl & Ha & Hr). cbn [find_node nth_label]. rewrite Hl.
  destruct (bytes_eqb (itoa (Z.of_nat k)) x); [exact Ha|]. apply IH. exact Hr.
Qed.
Lemma mems_find ms : forall ns x, mems_nodes ms ns ->
  match find_node x ns, find_mem x ms with
  | Some n, Some m => agrees (m_val m) n
  | None, None => True
  | _, _ => False
  end.
Proof.
  intros ns x H. induction H as [|m n ms ns [Hl Ha] _ IH]; [exact I|].
  cbn [find_node find_mem find]. rewrite Hl. destruct (bytes_eqb (m_key m) x); [exact Ha|exact IH].
Qed.
Lemma els_length els : forall k ns, els_nodes k els ns -> length ns = length els.
Proof.
  induction els as [|e r IH]; intros k [|n ns] H; cbn in H; try contradiction; [reflexivity|].
  cbn [length]. f_equal. apply (IH (S k)). tauto.
Qed.
Lemma els_labels els : forall k ns, els_nodes k els ns ->
  forall i n, nth_error ns i = Some n -> n_label n = itoa (Z.of_nat (k + i)).
Proof.
  induction els as [|e r IH]; intros k [|n ns] H i n' Hi; cbn in H; try contradiction; [destruct i; discriminate|].
  destruct i as [|i]; cbn in Hi; [injection Hi as <-; rewrite Nat.add_0_r; tauto|].
  rewrite (IH (S k) ns ltac:(tauto) i n' Hi). f_equal. lia.
Qed.

Lemma agrees_arr w els l x ns : shows x (JArr w els) ->
  els_nodes 0 els ns \/ (ns = [] /\ lonely (JArr w els) = true) -> agrees (JArr w els) (Node l x ns).
Proof.
  intros Hx [H|[-> H]].
  - constructor; [exact Hx| | |right; split; [apply els_length with (k := O); exact H|exact (els_labels els 0 ns H)]].
    + intros p n Hn. pose proof (els_find els 0 ns p H) as HF. rewrite Hn in HF. cbn [lstep].
      destruct (nth_label 0 p els) as [e|]; [|contradiction]. exists (e_val e). split; [reflexivity|exact HF].
    + intros p c Hc Hn. pose proof (els_find els 0 ns p H) as HF. rewrite Hn in HF. cbn [lstep] in Hc.
      destruct (nth_label 0 p els); [contradiction|discriminate].
  - constructor; [exact Hx|discriminate|intros; exact H|left; reflexivity].
Qed.
Lemma mems_labels ms ns : mems_nodes ms ns -> map n_label ns = map m_key ms.
Proof. induction 1 as [|m n ms ns Hm _ IH]; cbn [map]; [reflexivity|]. rewrite IH. f_equal. apply Hm. Qed.
Lemma agrees_obj w ms l x ns : shows x (JObj w ms) -> mems_nodes ms ns -> agrees (JObj w ms) (Node l x ns).
Proof.
  intros Hx H. constructor; [exact Hx| | |exact (mems_labels ms ns H)].
  - intros p n Hn. pose proof (mems_find ms ns p H) as HF. rewrite Hn in HF. cbn [lstep].
    destruct (find_mem p ms) as [e|]; [|contradiction]. exists (m_val e). split; [reflexivity|exact HF].
  - intros p c Hc Hn. pose proof (mems_find ms ns p H) as HF. rewrite Hn in HF. cbn [lstep] in Hc.
    destruct (find_mem p ms); [contradiction|discriminate].
Qed.

Lemma clean_render v : wf v = true -> cleanValue (render v) = Ok (bare v).
Proof. intro H. pose proof (cleanValue_value [] v [] eq_refl H eq_refl) as E. rewrite app_nil_r in E. exact E. Qed.

Lemma els_kids_nodes els : Forall (fun e => container (e_val e) = true -> forall l, agrees (e_val e) (node_of l (e_val e))) els ->
  forallb elem_ok els = true -> forall k, els_nodes k els (els_kids k els).
Proof.
  induction 1 as [|e r He _ IH]; intros Hok k; cbn [forallb els_kids els_nodes] in *; [exact I|]. nbool.
  unfold elem_ok in *. nbool. destruct (container (e_val e)) eqn:Hc.
  - split; [destruct (e_val e); reflexivity|]. split; [apply He; reflexivity|apply IH; assumption].
  - split; [reflexivity|]. split; [|apply IH; assumption]. apply agrees_leaf; [exact Hc|]. apply shows_leaf; assumption.
Qed.

Lemma node_label l v : n_label (node_of l v) = l.
Proof. destruct v; reflexivity. Qed.

Theorem node_agrees v : wf v = true -> forall l, agrees v (node_of l v).
Proof.
  induction v as [s|s|w els IH|w ms IH] using jv_ind'; intros Hw l.
  - apply agrees_leaf; [reflexivity|]. apply (shows_render (JScalar s)). exact Hw.
  - apply agrees_leaf; [reflexivity|]. apply (shows_render (JString s)). exact Hw.
  - rewrite node_of_arr. apply agrees_arr; [apply (shows_render (JArr w els)); exact Hw|].
    destruct (lonely (JArr w els)) eqn:El; [right; split; reflexivity|]. left.
    pose proof (absorb_e_ok w els Hw) as Hok. rewrite wf_arr in Hw. nbool.
    assert (HF : Forall (fun e => container (e_val e) = true -> forall l, agrees (e_val e) (node_of l (e_val e))) (absorb_e w els)).
    { assert (HG : Forall (fun e => container (e_val e) = true -> forall l, agrees (e_val e) (node_of l (e_val e))) els).
      { rewrite Forall_forall in IH |- *. intros e He _ l'. apply IH; [exact He|].
        match goal with H : forallb elem_ok els = true |- _ => rewrite forallb_forall in H; specialize (H e He); unfold elem_ok in H end.
        nbool. assumption. }
      destruct els; [constructor|]. inversion HG; subst. constructor; assumption. }
    pose proof (els_kids_nodes _ HF Hok 0) as HN. destruct els; exact HN.
  - rewrite node_of_obj. apply agrees_obj; [apply (shows_render (JObj w ms)); exact Hw|]. rewrite wf_obj in Hw. nbool.
    unfold mems_nodes. clear - IH H0. induction IH as [|m ms Hm _ IH']; cbn [map forallb] in *; constructor; nbool; [|apply IH'; assumption].
    unfold mem_ok in *. nbool. unfold mem_kid. destruct (container (m_val m)) eqn:Hc.
    + split; [apply node_label|]. apply Hm. assumption.
    + split; [reflexivity|]. apply agrees_leaf; [exact Hc|]. apply shows_leaf; assumption.
Qed.

Theorem parse_agrees d : wf_doc d = true -> container (d_val d) = true ->
  exists n, Parse (text d) = Ok (Par n (text d)) /\ agrees (d_val d) n.
Proof.
  intros Hw Hc. eexists. split; [apply parse_exact; assumption|]. apply node_agrees. unfold wf_doc in Hw. nbool. assumption.
Qed.
