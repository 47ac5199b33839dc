(** The methods of Parser statement by statement (ParserGo.v) compute what the models in Pointers.v, Parser.v and Tree.v compute. *)
From Coq Require Import String.
From Verif Require Import GoStd GoLang Core Errors Api Iter Parser Tree SpecPtr Pointers PointerProofs.
From Verif Require MakeGo ParserGo.
From Verif Require Import CoreGoProofs MakeGoProofs NoPanicC ParseAny.

Local Open Scope Z_scope.
Module O := ParserGo.
Notation M0 := O.models.
Ltac lib := cbn [O.l_get O.l_set O.l_setKey O.l_delete O.l_addKeyValue O.l_add O.l_insert O.l_core O.l_clean O.l_replace O.models].

Definition found (r : res nat) : flow unit (option nat * option err) :=
  match r with Ok a => Ret (Some a, None) | Err e => Ret (None, Some e) | Panic => Pan end.
Definition gave (r : res bytes) : flow unit (bytes * option err) :=
  match r with Ok v => Ret (v, None) | Err e => Ret ([], Some e) | Panic => Pan end.

Lemma field_ok {A} (f : cell -> A) h a c : nth_error h a = Some c -> O.field f h (Some a) = Ok (f c).
Proof. intro H. unfold O.field. rewrite (deref_ok _ _ _ H). reflexivity. Qed.
Lemma field_of {A} (f : cell -> A) h p : O.field f h p = match deref h p with Ok (_, c) => Ok (f c) | Err e => Err e | Panic => Panic end.
Proof. unfold O.field. destruct (deref h p) as [[a c]|e|]; reflexivity. Qed.
Lemma deref_some h p a c : deref h p = Ok (a, c) -> p = Some a /\ nth_error h a = Some c.
Proof. destruct p as [x|]; cbn; [|discriminate]. destruct (nth_error h x) eqn:E; [|discriminate]. intro H. injection H as -> ->. auto. Qed.
(** ** Functions that return no error *)
Definition ne {A : Type} (r : res A) : Prop := forall e, r <> Err e.
Lemma ne_bind {A B} (r : res A) (k : A -> res B) : ne r -> (forall a, ne (k a)) -> ne (do a <- r; k a).
Proof. intros H H1 e. destruct r as [a|e'|]; cbn [bind]; [apply H1|intros _; apply (H e'); reflexivity|discriminate]. Qed.
Lemma ne_ok {A} (a : A) : ne (Ok a). Proof. intro. discriminate. Qed.
Lemma ne_panic {A} : ne (@Panic A). Proof. intro. discriminate. Qed.
Lemma ne_slice t i j : ne (slice t i j). Proof. intro e. unfold slice. destruct (_ && _); discriminate. Qed.
Lemma ne_at (v : bytes) i : ne (at_ v i). Proof. intro e. unfold at_. destruct (nth_error v i); discriminate. Qed.
Lemma ne_skip t : forall i, ne (skip_space t i).
Proof. induction t as [|c r IH]; intros i; [apply ne_panic|]. cbn [skip_space]. destruct (space c); [apply IH|apply ne_ok]. Qed.
Lemma ne_top s : ne (seq_top s). Proof. destruct s; [apply ne_panic|apply ne_ok]. Qed.
Lemma ne_pop s : ne (seq_pop s). Proof. destruct s; [apply ne_panic|apply ne_ok]. Qed.
Lemma ne_inc s : ne (seq_inc s). Proof. destruct s; [apply ne_panic|apply ne_ok]. Qed.
Lemma ne_add n up : ne (add_down n up). Proof. destruct up; [apply ne_panic|apply ne_ok]. Qed.
Lemma ne_up v up : ne (go_up v up). Proof. destruct up as [|f [|g r]]; [apply ne_panic|apply ne_ok..]. Qed.
Lemma ne_deref h p : ne (deref h p).
Proof. intro e. destruct p as [x|]; cbn; [|discriminate]. destruct (nth_error h x); discriminate. Qed.
Lemma ne_write h p f : ne (write h p f).
Proof. unfold write. apply ne_bind; [apply ne_deref|]. intros [a c]. apply ne_ok. Qed.
Lemma ne_find h x ds : ne (q_find h x ds).
Proof. induction ds as [|d r IH]; [apply ne_ok|]. cbn [q_find]. apply ne_bind; [apply ne_deref|]. intros [a c]. destruct (bytes_eqb _ _); [apply ne_ok|exact IH]. Qed.
Lemma ne_loop json : forall rest i inq start stop key vs last braces idx up, ne (p_loop json rest i inq start stop key vs last braces idx up).
Proof.
  induction rest as [|c r IH]; intros; [apply ne_ok|]. cbn [p_loop].
  repeat first [apply ne_bind; [|intros]|match goal with
    | |- ne (let '(_, _) := ?a in _) => destruct a
    | |- ne (p_loop _ _ _ _ _ _ _ _ _ _ _ _) => apply IH
    | |- ne (if ?a then _ else _) => destruct a
    | |- ne (match ?a with _ => _ end) => destruct a
    | |- ne (open_label ?a _ _) => unfold open_label
    end|apply ne_ok|apply ne_panic|apply ne_slice|apply ne_top|apply ne_pop|apply ne_inc|apply ne_add|apply ne_up].
Qed.
Lemma ne_pCore json : ne (pCore json).
Proof. unfold pCore. destruct (_ <? _)%nat; [apply ne_ok|]. apply ne_bind; [apply ne_skip|]. intro. apply ne_loop. Qed.

(** ** Reading *)
Lemma find_range h p : forall ds i s, M.range_from ds i (fun _ d =>
    read (fun _ => O.field c_label h (Some d)) (fun l => if_ (fun _ => bytes_eqb l p) (set_ (fun _ => Some d) ;; goto_) pass)) s =
  match q_find h p ds with Ok (Some d) => Gto (Some d) | Ok None => Nrm s | _ => Pan end :> flow (option nat) (option nat * option err).
Proof.
  induction ds as [|d r IH]; intros i s; [reflexivity|]. cbn [M.range_from q_find]. unfold read at 1. rewrite field_of.
  destruct (deref h (Some d)) as [[x c]|e|]; cbn [bind]; try reflexivity. unfold if_ at 1. destruct (bytes_eqb (c_label c) p); [reflexivity|]. unfold pass. apply IH.
Qed.

Theorem walk_go_spec h path : forall n, O.walk_go h n path = found (q_walk h n path).
Proof.
  unfold O.walk_go, func, M.range_.
  assert (H : forall path i n, returns ((M.range_from path i (fun _ p =>
      label (read (O.field c_down h) (fun down => M.range_ down (fun _ d =>
           read (fun _ => O.field c_label h (Some d)) (fun l => if_ (fun _ => bytes_eqb l p) (set_ (fun _ => Some d) ;; goto_) pass))) ;;
         return_ (fun _ => (None, Some (EKeyNotFound p)))) ;; continue_) ;; return_ (fun n => (n, None))) (Some n)) = found (q_walk h n path)).
  { clear. induction path as [|p r IH]; intros i n; [reflexivity|]. unfold then_ at 1. cbn [M.range_from q_walk]. unfold then_ at 1, label at 1. unfold then_ at 1, read at 1. rewrite field_of.
    destruct (deref h (Some n)) as [[x c]|e|] eqn:Ed; cbn [bind]; [|destruct (ne_deref _ _ _ Ed)|reflexivity]. unfold M.range_. rewrite find_range.
    destruct (q_find h p (c_down c)) as [[d|]|e|] eqn:Ef; cbn [bind]; try reflexivity; [apply IH|].
    destruct (ne_find _ _ _ _ Ef). }
  intro n. apply H.
Qed.

Theorem Get_p_spec p path : O.Get_p M0 p path = gave (Q_Get p path).
Proof.
  unfold O.Get_p, func, Q_Get. destruct path as [|x r]; [reflexivity|]. set (path := x :: r) in *. unfold then_ at 1, if_ at 1. change (zlen path =? 0) with false. cbv iota. unfold pass at 1.
  unfold call. rewrite walk_go_spec. destruct (q_walk (q_heap p) (q_root p) path) as [a|e|]; cbn [found bind]; try reflexivity. cbv beta iota. unfold then_, pass, read. rewrite field_of.
  destruct (deref (q_heap p) (Some a)) as [[y c]|e|] eqn:Ed; cbn [bind]; [|destruct (ne_deref _ _ _ Ed)|reflexivity]. lib.
  destruct (cleanValue (c_value c)) as [v|e|] eqn:Ec; [reflexivity|destruct (cleanValue_no_err _ _ Ec)|reflexivity].
Qed.

Theorem Parse_go_spec json : O.Parse_go M0 json = match Q_Parse json with Ok p => Ret (Some p, None) | Err e => Ret (None, Some e) | Panic => Pan end.
Proof.
  unfold O.Parse_go, Q_Parse, func, createNode. lib. unfold then_, set_, read, call. cbn [fst snd alloc app length].
  pose proof (core_sim json [Cell [] [] None []] 0 eq_refl) as H. unfold loops in H. destruct (pCore json) as [ns|e|] eqn:Ec; [|destruct (ne_pCore _ _ Ec)|rewrite H; reflexivity].
  destruct H as (h & A & -> & Ht & _). cbn [bind fst snd O.of_res]. destruct (tree_label _ _ _ _ _ Ht) as (c & Hc & _). rewrite (field_ok _ _ _ _ Hc), (deref_ok _ _ _ Hc). cbn [bind].
  destruct (c_down c) eqn:E; [reflexivity|]. unfold if_, pass. change (zlen (n :: l) =? 0) with false. cbv iota. cbn [fst snd]. rewrite (field_ok _ _ _ _ Hc), E. reflexivity.
Qed.

(** ** dive and createTree: a tree uses at most as many levels as there are nodes *)
Lemma nodup_bound A n : NoDup A -> Forall (fun x => (x < n)%nat) A -> (length A <= n)%nat.
Proof.
  intros Hn Hb. rewrite <- (seq_length n 0). apply NoDup_incl_length; [exact Hn|]. intros x Hx. rewrite Forall_forall in Hb. apply in_seq. specialize (Hb x Hx). lia.
Qed.
Lemma stands_bound h a n up A : tree h up a n A -> NoDup A -> (length A <= length h)%nat.
Proof. intros Ht Hn. apply nodup_bound; [exact Hn|eapply tree_bound; exact Ht]. Qed.

(** What the loop of dive adds to [temp] *)
Fixpoint items (c : N) (ds : list node) : res bytes :=
  match ds with
  | [] => Ok []
  | (Node l v dd as d) :: r =>
      do val <- (match dd with [] => Ok v | _ => dive d end);
      do rest <- items c r;
      Ok ((if c =? 123 then packKeyValue l val else []) ++ (if c =? 91 then val else []) ++ 44 :: rest)%N
  end.
Lemma dive_items l v down : dive (Node l v down) = do c <- at_ v 0; do t <- items c down; Ok (removelast (c :: t) ++ [(c + 2) mod 256])%N.
Proof.
  cbn [dive]. destruct (at_ v 0) as [c|e|]; cbn [bind]; try reflexivity. f_equal. induction down as [|[l' v' dd] r IH]; [reflexivity|].
  cbn [items]. rewrite <- IH. reflexivity.
Qed.
Lemma zat0 v : zat v 0 = at_ v 0. Proof. destruct v; reflexivity. Qed.
Lemma trees_nil h a ds ns A : trees h a ds ns A -> (zlen ds =? 0) = match ns with [] => true | _ => false end.
Proof. destruct 1; [reflexivity|]. unfold zlen. cbn [length]. destruct (Z.eqb_spec (Z.of_nat (S (length ds))) 0); [lia|reflexivity]. Qed.
Lemma ne_dive n : ne (dive n).
Proof.
  induction n as [l v down IH] using node_ind'. rewrite dive_items. apply ne_bind; [apply ne_at|]. intro c. apply ne_bind; [|intro; apply ne_ok].
  induction down as [|[l' v' dd] r IHr]; [apply ne_ok|]. inversion IH as [|? ? H1 H2]; subst. cbn [items]. apply ne_bind; [destruct dd; [apply ne_ok|exact H1]|]. intro. apply ne_bind; [exact (IHr H2)|]. intro. apply ne_ok.
Qed.

(** The loop of dive over the children of [a]; [go d] is what dive returns for a child *)
Section Dive.
  Variables (h : heap) (fuel : nat).
  Definition child (d : nat) : cmd bytes bytes :=
    read (fun _ => O.field c_value h (Some d)) (fun v =>
    read (fun _ => O.field c_down h (Some d)) (fun dd =>
    call (fun _ => if negb (zlen dd =? 0) then O.dive_go fuel h d [] else Ret v) (fun val =>
    let upValue := fun _ : bytes => do u <- O.field c_up h (Some d); do v <- O.field c_value h u; zat v 0 in
    read upValue (fun c => if_ (fun _ => (c =? 123)%N)
      (read (fun _ => O.field c_label h (Some d)) (fun l => call (fun _ => O.packKeyValue_go l val) M.appended)) pass) ;;
    read upValue (fun c => if_ (fun _ => (c =? 91)%N) (call (fun _ => O.packValue_go val) M.appended) pass) ;;
    M.appended [44%N]))).
  Lemma dive_range c v : at_ v 0 = Ok c -> forall a ds ns A, trees h a ds ns A -> (exists l up ds0, nth_error h a = Some (Cell l v up ds0)) ->
    (forall up d n A', tree h up d n A' -> (length A' <= length A)%nat -> O.dive_go fuel h d [] = match dive n with Ok t => Ret t | _ => Pan end) ->
    forall i temp, M.range_from ds i (fun _ => child) temp = match items c ns with Ok t => Nrm (temp ++ t) | _ => Pan end.
  Proof.
    intros Hv a ds ns A H. induction H as [a|a d ds n ns A B H1 H2 IH]; intros Ha Hd i temp; [cbn; rewrite app_nil_r; reflexivity|].
    specialize (IH Ha ltac:(intros up d' n' A' Ht Hl; apply (Hd up d' n' A' Ht); rewrite app_length; lia)).
    cbn [M.range_from]. pose proof (Hd (Some a) d n A H1 ltac:(rewrite app_length; lia)) as Hgo. inversion H1 as [up' d' l w dd nn A' Hc Hts]; subst.
    destruct Ha as (la & upa & dsa & Ha). cbn [items]. unfold child at 1. unfold read at 1. rewrite (field_ok _ _ _ _ Hc). cbn [c_value]. unfold read at 1. rewrite (field_ok _ _ _ _ Hc). cbn [c_down].
    rewrite (trees_nil _ _ _ _ _ Hts). unfold call at 1.
    set (r := match nn with [] => Ok w | _ => dive (Node l w nn) end).
    replace (if negb match nn with [] => true | _ => false end then O.dive_go fuel h d [] else Ret w) with (match r with Ok t => @Ret unit _ t | _ => Pan end).
    2:{ unfold r. rewrite Hgo. destruct nn; reflexivity. }
    destruct r as [val|e|]; cbn [bind]; [|destruct (items c ns); reflexivity..]. cbv zeta.
    assert (Hup : (do u <- O.field c_up h (Some d); do v0 <- O.field c_value h u; zat v0 0) = Ok c).
    { rewrite (field_ok _ _ _ _ Hc). cbn [bind c_up]. rewrite (field_ok _ _ _ _ Ha). cbn [bind c_value]. rewrite zat0. exact Hv. }
    unfold then_ at 1. unfold read at 1. rewrite Hup. unfold if_ at 1. unfold read at 1. rewrite (field_ok _ _ _ _ Hc). cbn [c_label].
    assert (E1 : (if (c =? 123)%N then call (fun _ => O.packKeyValue_go l val) M.appended temp else pass temp) = @Nrm bytes bytes (temp ++ if (c =? 123)%N then packKeyValue l val else [])).
    { destruct (c =? 123)%N; [|unfold pass; rewrite app_nil_r; reflexivity]. unfold O.packKeyValue_go, packKeyValue, func, call, M.appended, then_, set_, return_, returns. cbn [app]. rewrite <- !app_assoc. reflexivity. }
    rewrite E1. unfold then_ at 1. unfold read at 1. unfold if_ at 1.
    assert (E2 : forall t, (if (c =? 91)%N then call (fun _ => O.packValue_go val) M.appended t else pass t) = @Nrm bytes bytes (t ++ if (c =? 91)%N then val else [])).
    { intro t. destruct (c =? 91)%N; [|unfold pass; rewrite app_nil_r; reflexivity]. reflexivity. }
    rewrite E2. unfold M.appended at 1, set_ at 1. rewrite IH. destruct (items c ns) as [t|e|]; cbn [bind]; try reflexivity. rewrite <- !app_assoc. reflexivity.
  Qed.
End Dive.

Theorem dive_go_spec h : forall fuel up a n A, tree h up a n A -> (length A <= fuel)%nat -> O.dive_go fuel h a [] = match dive n with Ok t => Ret t | _ => Pan end.
Proof.
  induction fuel as [|fuel IH]; intros up a n A Ht Hl; destruct Ht as [up a l v ds ns A Hc Hts]; [cbn in Hl; lia|].
  cbn [O.dive_go]. unfold func. unfold then_ at 1. unfold read at 1. rewrite (field_ok _ _ _ _ Hc). cbn [bind c_value]. rewrite zat0, dive_items.
  destruct (at_ v 0) as [c|e|] eqn:Ev; cbn [bind]; try reflexivity. unfold M.appended at 1, set_ at 1. cbn [app]. unfold then_ at 1. unfold read at 1. rewrite (field_ok _ _ _ _ Hc). cbn [c_down].
  unfold M.range_. change (fun (_ : Z) (d : nat) => read _ _) with (fun _ : Z => child h fuel).
  rewrite (dive_range h fuel c v Ev a ds ns A Hts ltac:(do 3 eexists; exact Hc)).
  2:{ intros up' d n' A' Ht' Hl'. apply (IH up' d n' A' Ht'). cbn in Hl. lia. }
  destruct (items c ns) as [t|e|]; cbn [bind]; try reflexivity. unfold then_ at 1, if_ at 1. change (zlen ([c] ++ t) =? 0) with false. cbv iota. unfold pass at 1.
  unfold then_ at 1. unfold read at 1. rewrite slice_removelast by discriminate. reflexivity.
Qed.

Theorem GetNew_p_spec fuel p n path : stands (q_heap p) (q_root p) n -> (length (q_heap p) <= fuel)%nat ->
  O.GetNew_p M0 fuel p path = match P_GetNew (Par n (q_json p)) path with Ok v => Ret v | _ => Pan end.
Proof.
  destruct p as [h root j]. cbn [q_heap q_root q_json]. intros (up & A & Ht & Hn) Hf. unfold O.GetNew_p, P_GetNew, func. cbn [q_heap q_root q_json p_core].
  assert (H : forall a m u B, tree h u a m B -> (length B <= length h)%nat ->
    returns ((read (O.field c_down h) (fun down => if_ (fun _ => zlen down =? 0) (read (O.field c_value h) (fun v => call (fun _ => O.l_clean M0 v) (fun v => return_ (fun _ => v)))) pass) ;;
      call (fun curr => match curr with Some n => O.dive_go fuel h n [] | None => Pan end) (fun temp => call (fun _ => O.l_clean M0 temp) (fun v => return_ (fun _ => v)))) (Some a)) =
    match (match n_down m with [] => cleanValue (n_value m) | _ => do t <- dive m; cleanValue t end) with Ok v => Ret v | _ => Pan end).
  { intros a m u B Hm Hb. pose proof (dive_go_spec h fuel u a m B Hm ltac:(lia)) as Hd. destruct Hm as [u a l v ds ns B Hc Hts]. unfold then_ at 1. unfold read at 1. rewrite (field_ok _ _ _ _ Hc). cbn [c_down].
    unfold if_ at 1. rewrite (trees_nil _ _ _ _ _ Hts). cbn [n_down n_value]. destruct ns as [|n1 ns].
    - unfold read at 1. rewrite (field_ok _ _ _ _ Hc). cbn [bind c_value]. unfold call. lib. destruct (cleanValue v); reflexivity.
    - unfold pass. unfold call. rewrite Hd. destruct (dive _) as [t|e|]; cbn [bind]; try reflexivity. lib. destruct (cleanValue t); reflexivity. }
  destruct path as [|x r].
  - cbn [n_walk]. exact (H root n up A Ht (stands_bound _ _ _ _ _ Ht Hn)).
  - set (path := x :: r) in *. unfold then_ at 1, if_ at 1. change (negb (zlen path =? 0)) with true. cbv iota. unfold call at 1. rewrite walk_go_spec.
    destruct (n_walk n path) as [m|e|] eqn:Ew; [| |destruct (walk_no_panic _ _ Ew)].
    + destruct (plug path h up root n A m Ht Ew) as (c & u & Ak & C & Eq & Tk & HA). rewrite Eq. cbn [found fst snd]. unfold then_ at 1, set_ at 1. unfold pass at 1. apply (H c m u Ak Tk).
      destruct HA as (HP & _). apply Permutation.Permutation_length in HP. rewrite app_length in HP. pose proof (stands_bound _ _ _ _ _ Ht Hn). lia.
    + rewrite (walk_err _ _ _ _ _ _ _ Ht Ew). reflexivity.
Qed.


(** ** createTree *)
Fixpoint lines (depth : nat) (withValues : bool) (ds : list node) : bytes :=
  match ds with
  | [] => []
  | (Node l v dd as d) :: r => tree_line depth withValues l v ++ (match dd with [] => [] | _ => createTree d (S depth) withValues end) ++ lines depth withValues r
  end.
Lemma tree_lines l v ds depth w : createTree (Node l v ds) depth w = lines depth w ds.
Proof. cbn [createTree]. induction ds as [|[l' v' dd] r IH]; [reflexivity|]. cbn [lines]. rewrite <- IH. reflexivity. Qed.

Lemma tab_go_spec depth : O.tab_go depth = Ret (repeat 9%N (pred depth)).
Proof.
  unfold O.tab_go, func, var. unfold then_ at 1.
  assert (H : forall k i fu t, (i + k = pred depth)%nat -> (k < fu)%nat ->
    for_ fu (fun s : bytes * Z => Ok (snd s <? Z.of_nat depth - 1)) (fun s => (fst s, snd s + 1)) (set_ (fun s => (fst s ++ [9%N], snd s))) (t, Z.of_nat i) = Nrm (t ++ repeat 9%N k, Z.of_nat (pred depth)) :> flow _ bytes \/ depth = 0%nat).
  { induction k as [|k IH]; intros i fu t Hi Hf; (destruct depth as [|d]; [right; reflexivity|left]); (destruct fu as [|fu]; [lia|]); cbn [for_ snd fst pred] in *.
    - replace (Z.of_nat i <? Z.of_nat (S d) - 1) with false by (symmetry; apply Z.ltb_ge; lia). rewrite app_nil_r. repeat f_equal. lia.
    - replace (Z.of_nat i <? Z.of_nat (S d) - 1) with true by (symmetry; apply Z.ltb_lt; lia). unfold set_ at 1. cbn [fst snd]. rewrite zsucc.
      destruct (IH (S i) fu (t ++ [9%N]) ltac:(lia) ltac:(lia)) as [->|E]; [|discriminate E]. rewrite <- app_assoc. reflexivity. }
  destruct (H (pred depth) 0%nat (S depth) [] eq_refl ltac:(lia)) as [E| ->]; [|reflexivity]. cbn [Z.of_nat] in E. rewrite E. reflexivity.
Qed.

Theorem createTree_go_spec h w : forall fuel up a n A, tree h up a n A -> (length A <= fuel)%nat -> forall depth str,
  O.createTree_go fuel h a depth w str = Ret (str ++ createTree n depth w).
Proof.
  induction fuel as [|fuel IH]; intros up a n A Ht Hl depth str; destruct Ht as [up a l v ds ns A Hc Hts]; [cbn in Hl; lia|].
  cbn [O.createTree_go]. unfold func. rewrite tree_lines. unfold then_ at 1. unfold read at 1. rewrite (field_ok _ _ _ _ Hc). cbn [c_down]. unfold M.range_.
  match goal with |- context [M.range_from ds 0 ?f str] => set (body := f) end.
  assert (H : forall i str, M.range_from ds i body str = Nrm (str ++ lines depth w ns)); [|rewrite H; reflexivity].
  cbn in Hl. clear Hc up l v str. induction Hts as [a|a d ds n ns A B H1 H2 IHs]; intros i str; [cbn; rewrite app_nil_r; reflexivity|].
  rewrite app_length in Hl. specialize (IHs ltac:(lia)). pose proof (IH _ _ _ _ H1 ltac:(lia)) as Hgo. inversion H1 as [up' d' l w' dd nn A' Hc Hts']; subst. cbn [M.range_from].
  assert (E : body i d str = Nrm (str ++ tree_line depth w l w' ++ match nn with [] => [] | _ => createTree (Node l w' nn) (S depth) w end)).
  { unfold body, call at 1. rewrite tab_go_spec. unfold read at 1. rewrite (field_ok _ _ _ _ Hc). unfold read at 1. rewrite (field_ok _ _ _ _ Hc). cbn [c_label c_value].
    unfold then_ at 1. match goal with |- match ?x with _ => _ end = _ => replace x with (@Nrm bytes bytes (str ++ tree_line depth w l w')) end.
    2:{ unfold tree_line, if_, M.appended, set_. destruct w, depth; reflexivity. }
    unfold read at 1. rewrite (field_ok _ _ _ _ Hc). cbn [c_down]. unfold if_.
    replace (zlen dd >? 0) with (match nn with [] => false | _ => true end).
    2:{ rewrite Z.gtb_ltb. destruct Hts'; [reflexivity|]. unfold zlen. cbn [length]. symmetry. apply Z.ltb_lt. lia. }
    destruct nn as [|n1 nn]; [unfold pass; rewrite app_nil_r; reflexivity|]. unfold call. rewrite Hgo. unfold set_. rewrite <- app_assoc. reflexivity. }
  rewrite E, IHs. cbn [lines]. rewrite <- !app_assoc. reflexivity.
Qed.
Theorem Tree_p_spec fuel p n : stands (q_heap p) (q_root p) n -> (length (q_heap p) <= fuel)%nat ->
  O.Tree_p fuel p = Ret (P_Tree (Par n (q_json p))) /\ O.TreeFull_p fuel p = Ret (P_TreeFull (Par n (q_json p))).
Proof.
  intros (up & A & Ht & Hn) Hf. pose proof (stands_bound _ _ _ _ _ Ht Hn). unfold O.Tree_p, O.TreeFull_p. split; rewrite (createTree_go_spec _ _ fuel up _ n A Ht) by lia; reflexivity.
Qed.

(** ** Updates *)
Definition said (r : qres) : flow unit O.told := match r with QRet p e => Ret (p, e) | QPanic => Pan end.

Lemma walk_bound h path : forall n a, path <> [] -> q_walk h n path = Ok a -> (a < length h)%nat.
Proof.
  assert (F : forall x ds d, q_find h x ds = Ok (Some d) -> (d < length h)%nat).
  { intros x ds d. induction ds as [|y r IH]; cbn [q_find]; [discriminate|]. destruct (deref h (Some y)) as [[z c]|e|] eqn:E; cbn [bind]; try discriminate.
    destruct (bytes_eqb _ _); [|exact IH]. intro H. injection H as ->. destruct (deref_some _ _ _ _ E) as [_ Hn]. apply nth_error_Some. cbn in E. destruct (nth_error h d); congruence. }
  induction path as [|x r IH]; intros n a Hne; [congruence|]. cbn [q_walk]. destruct (deref h (Some n)) as [[z c]|e|]; cbn [bind]; try discriminate.
  destruct (q_find h x (c_down c)) as [[d|]|e|] eqn:Ef; cbn [bind]; try discriminate. destruct r as [|y r]; [cbn; intro H; injection H as <-; apply (F _ _ _ Ef)|]. apply IH. discriminate.
Qed.

Lemma index_range h n nl : O.field c_label h n = Ok nl -> forall ds k,
  returns ((M.range_from ds (Z.of_nat k) (fun i v => read (fun _ => O.field c_label h (Some v)) (fun vl => read (fun _ => O.field c_label h n) (fun nl =>
      if_ (fun _ => bytes_eqb vl nl) (return_ (fun _ => i)) pass))) ;; return_ (fun _ => -1)) tt) =
  match q_index h nl ds with Ok (Some i) => Ret (Z.of_nat (k + i)) | Ok None => Ret (-1) | _ => Pan end.
Proof.
  intro Hn. rewrite Hn. induction ds as [|d r IH]; intro k; [reflexivity|]. unfold then_ at 1. cbn [M.range_from q_index]. unfold read at 1. rewrite field_of. destruct (deref h (Some d)) as [[x c]|e|]; cbn [bind]; try reflexivity.
  unfold read at 1. unfold if_ at 1. destruct (bytes_eqb (c_label c) nl); [rewrite Nat.add_0_r; reflexivity|]. unfold pass at 1. rewrite zsucc. refine (eq_trans (IH (S k)) _).
  destruct (q_index h nl r) as [[i|]|e|]; cbn [bind option_map]; try reflexivity. rewrite Nat.add_succ_comm. reflexivity.
Qed.
Lemma getIndex_go_spec h a c u cu : deref h (Some a) = Ok (a, c) -> deref h (c_up c) = Ok (u, cu) ->
  O.getIndex_go h (Some a) = match q_index h (c_label c) (c_down cu) with Ok (Some i) => Ret (Z.of_nat i) | Ok None => Ret (-1) | _ => Pan end.
Proof.
  intros H1 H2. unfold O.getIndex_go, func. unfold then_ at 1. unfold read at 1. rewrite !field_of, H1. cbn [bind]. rewrite field_of, H2. unfold M.range_.
  pose proof (index_range h (Some a) (c_label c) ltac:(rewrite field_of, H1; reflexivity) (c_down cu) 0) as H. rewrite field_of, H1 in H. exact H.
Qed.
Lemma getIndex_bad h a c : deref h (Some a) = Ok (a, c) -> (forall z, deref h (c_up c) <> Ok z) -> O.getIndex_go h (Some a) = Pan.
Proof.
  intros H1 H2. unfold O.getIndex_go, func. unfold then_ at 1. unfold read at 1. rewrite !field_of, H1. cbn [bind]. rewrite field_of. destruct (deref h (c_up c)) as [[u cu]|e|] eqn:E; [destruct (H2 _ eq_refl)|reflexivity..].
Qed.
Lemma write_other h n f h' a : write h (Some n) f = Ok h' -> a <> n -> deref h' (Some a) = deref h (Some a).
Proof.
  unfold write. destruct (deref h (Some n)) as [[x c]|e|] eqn:E; cbn [bind]; try discriminate. destruct (deref_some _ _ _ _ E) as [Hx _]. injection Hx as <-. intro H. injection H as <-. intro Hn.
  cbn [deref]. rewrite set_nth_other by congruence. reflexivity.
Qed.
Lemma index_bound h x : forall ds i, q_index h x ds = Ok (Some i) -> (i < length ds)%nat.
Proof.
  induction ds as [|d r IH]; intros i; cbn [q_index]; [discriminate|]. destruct (deref h (Some d)) as [[z c]|e|]; cbn [bind]; try discriminate. destruct (bytes_eqb _ _); [intro H; injection H as <-; cbn; lia|].
  destruct (q_index h x r) as [[k|]|e|]; cbn [bind option_map]; try discriminate. intro H. injection H as <-. specialize (IH k eq_refl). cbn. lia.
Qed.

Lemma others_range h n nl : O.field c_label h n = Ok nl -> forall ds i new,
  M.range_from ds i (fun _ d => read (fun _ => O.field c_label h (Some d)) (fun dl => read (fun _ => O.field c_label h n) (fun nl =>
      if_ (fun _ => negb (bytes_eqb dl nl)) (set_ (fun newDown => newDown ++ [d])) pass))) new =
  match q_others h nl ds with Ok l => Nrm (new ++ l) | _ => Pan end :> flow _ heap.
Proof.
  intro Hn. rewrite Hn. induction ds as [|d r IH]; intros i new; [cbn; rewrite app_nil_r; reflexivity|]. cbn [M.range_from q_others]. unfold read at 1. rewrite field_of. destruct (deref h (Some d)) as [[x c]|e|]; cbn [bind]; try reflexivity.
  unfold read at 1. unfold if_ at 1. destruct (bytes_eqb (c_label c) nl); cbn [negb].
  - unfold pass at 1. rewrite IH. destruct (q_others h nl r); reflexivity.
  - unfold set_ at 1. rewrite IH. destruct (q_others h nl r); cbn [bind]; try reflexivity. rewrite <- app_assoc. reflexivity.
Qed.
Theorem deAttach_go_spec h n : O.deAttach_go h (Some n) = match q_deAttach h n with Ok h' => Ret h' | _ => Pan end.
Proof.
  unfold O.deAttach_go, q_deAttach, func. unfold then_ at 1. unfold read at 1. rewrite field_of. destruct (deref h (Some n)) as [[x c]|e|] eqn:Ed; cbn [bind]; try reflexivity.
  rewrite field_of. destruct (deref h (c_up c)) as [[y cu]|e|] eqn:Eu; cbn [bind]; try reflexivity. destruct (c_down cu) as [|d r] eqn:Ec; [reflexivity|].
  replace (zlen (d :: r) - 1 <? 0) with false by (symmetry; apply Z.ltb_ge; unfold zlen; cbn [length]; lia). unfold set_ at 1. unfold then_ at 1. unfold read at 1.
  unfold M.range_. rewrite (others_range h (Some n) (c_label c)) by (rewrite field_of, Ed; reflexivity).
  destruct (q_others h (c_label c) (d :: r)); cbn [bind app]; try reflexivity. unfold read.
  destruct (write _ _ _); reflexivity.
Qed.

Lemma label_down h d l h' p : write h d (set_label l) = Ok h' -> O.field c_down h' p = O.field c_down h p.
Proof.
  unfold write. destruct (deref h d) as [[a c]|e|] eqn:E; cbn [bind]; try discriminate. intro H. injection H as <-. destruct (deref_some _ _ _ _ E) as [-> Ha]. destruct p as [q|]; [|reflexivity].
  rewrite !field_of. cbn [deref]. destruct (Nat.eq_dec a q) as [->|Hne]; [|rewrite set_nth_other by exact Hne; reflexivity].
  rewrite set_nth_same by (apply nth_error_Some; congruence). rewrite Ha. reflexivity.
Qed.
Lemma relabel_loop up ds : forall rest i fu h, O.field c_down h up = Ok ds -> skipn i ds = rest -> (length rest < fu)%nat ->
  leave (for_ fu (fun s => Ok (snd s <? zlen ds)) (fun s => (fst s, snd s + 1)) (
         read (fun s => do ds <- O.field c_down (fst s) up; do d <- zat ds (snd s); write (fst s) (Some d) (set_label (itoa (snd s + 1)))) (fun h =>
         set_ (fun s => (h, snd s)))) (h, Z.of_nat i)) =
  match q_relabel h rest i with Ok h' => Nrm h' | _ => Pan end :> flow heap (heap * option err).
Proof.
  induction rest as [|d r IH]; intros i fu h Hd Hi Hf; (destruct fu as [|fu]; [cbn in Hf; lia|]); cbn [for_ snd fst q_relabel].
  - replace (Z.of_nat i <? zlen ds) with false; [reflexivity|]. symmetry. apply Z.ltb_ge. unfold zlen. apply (f_equal (@length _)) in Hi. rewrite skipn_length in Hi. cbn in Hi. lia.
  - destruct (elem_at ds i d r Hi) as (Hn & Hs & Hlt). replace (Z.of_nat i <? zlen ds) with true by (symmetry; apply Z.ltb_lt; unfold zlen; lia).
    unfold read at 1. cbn [fst snd]. rewrite Hd. cbn [bind]. rewrite (zat_elem _ _ _ Hn). cbn [bind]. destruct (write h (Some d) (set_label (itoa (Z.of_nat i + 1)))) as [h'|e|] eqn:Ew; cbn [bind]; try reflexivity.
    unfold set_ at 1. cbn [fst snd]. rewrite zsucc. apply IH; [rewrite (label_down _ _ _ _ _ Ew); exact Hd|exact Hs|cbn in Hf; lia].
Qed.
Lemma ne_relabel ds : forall h i, ne (q_relabel h ds i).
Proof. induction ds as [|d r IH]; intros h i; [apply ne_ok|]. cbn [q_relabel]. apply ne_bind; [apply ne_write|]. intro. apply IH. Qed.
Theorem insert_go_spec h n up index : O.insert_go h (Some n) (Some up) index =
  match q_insert h n up index with Ok h' => Ret (h', None) | Err e => Ret (h, Some e) | Panic => Pan end.
Proof.
  unfold O.insert_go, q_insert, func. unfold then_ at 1. unfold read at 1. pose proof (field_of c_down h (Some up)) as Hf. rewrite Hf. destruct (deref h (Some up)) as [[x cu]|e|] eqn:Ed; cbn [bind]; [|destruct (ne_deref _ _ _ Ed)|reflexivity].
  cbv zeta. unfold if_ at 1. destruct (c_down cu) as [|d r] eqn:Ec; [reflexivity|]. rewrite <- Ec in Hf. rewrite <- Ec. replace (negb (zlen (c_down cu) =? 0)) with true by (rewrite Ec; reflexivity).
  unfold then_ at 1, if_ at 1. change (zlen (c_down cu)) with (Z.of_nat (length (c_down cu))) at 1. destruct (Z.of_nat (length (c_down cu)) - 1 <? index); [reflexivity|]. unfold pass at 1.
  unfold then_ at 1. unfold var at 1. destruct (Z.ltb_spec index 0) as [L|L].
  - cbn [for_ snd fst]. replace (index <? zlen (c_down cu)) with true by (symmetry; apply Z.ltb_lt; unfold zlen; lia). unfold read at 1. cbn [fst snd]. rewrite Hf. cbn [bind]. unfold zat.
    destruct (Z.ltb_spec index 0); [reflexivity|lia].
  - rewrite <- (Z2Nat.id index L) at 1. rewrite (relabel_loop (Some up) (c_down cu) _ (Z.to_nat index) (S (length (c_down cu))) h Hf eq_refl) by (rewrite skipn_length; lia).
    rewrite Ec. destruct (q_relabel h (skipn (Z.to_nat index) (d :: r)) (Z.to_nat index)) as [h1|e|] eqn:Er; cbn [bind]; [|destruct (ne_relabel _ _ _ _ Er)|reflexivity].
    unfold then_ at 1. unfold read at 1. destruct (write h1 (Some n) _) as [h2|e|] eqn:E2; cbn [bind]; [|destruct (ne_write _ _ _ _ E2)|reflexivity]. unfold set_ at 1. unfold then_ at 1. unfold read at 1.
    destruct (write h2 (Some n) _) as [h3|e|] eqn:E3; cbn [bind]; [reflexivity|destruct (ne_write _ _ _ _ E3)|reflexivity].
Qed.

(** *** One statement, then the rest *)
Section Steps.
  Context {S R : Type}.
  Implicit Types (a c d : cmd S R) (s : S).
  Lemma assoc a c d s : ((a ;; c) ;; d) s = (a ;; c ;; d) s.
  Proof. unfold then_. destruct (a s); reflexivity. Qed.
  Lemma if_then e a c d s : (if_ e a c ;; d) s = if e s then (a ;; d) s else (c ;; d) s.
  Proof. unfold then_, if_. destruct (e s); reflexivity. Qed.
  Lemma pass_then c s : (pass ;; c) s = c s.
  Proof. reflexivity. Qed.
  Lemma read_then {A : Type} (e : S -> res A) f c s : (read e f ;; c) s = match e s with Ok x => (f x ;; c) s | _ => Pan end.
  Proof. unfold then_, read. destruct (e s); reflexivity. Qed.
  Lemma call_then {A : Type} (e : S -> flow unit A) f c s : (call e f ;; c) s = match e s with Ret x => (f x ;; c) s | Out => Out | _ => Pan end.
  Proof. unfold then_, call. destruct (e s); reflexivity. Qed.
  Lemma set_then f c s : (set_ f ;; c) s = c (f s).
  Proof. reflexivity. Qed.
End Steps.

Section Updates.
  Variable p : qparser.
  Notation root := (q_root p).
  Notation stm := (cmd O.pg O.told).
  Implicit Types (c : stm) (s : O.pg).
  Definition at_state s : qparser := QPar (O.g_heap s) root (O.g_json s).

  Lemma return_then e c s : (O.return_err p e ;; c) s = Ret (at_state s, e). Proof. reflexivity. Qed.
  Lemma return_end e s : O.return_err p e s = Ret (at_state s, e). Proof. reflexivity. Qed.
  Lemma assign_then e c s : (O.assign e ;; c) s = match e s with Ok h => c (O.g_to_heap h s) | _ => Pan end.
  Proof. unfold O.assign, then_, read, set_. destruct (e s); reflexivity. Qed.
  Lemma walked_then path c s : (O.walked p path ;; c) s =
    match q_walk (O.g_heap s) root path with Ok a => c (O.g_to_curr (Some a) s) | Err e => Ret (at_state s, Some e) | Panic => Pan end.
  Proof. unfold O.walked. rewrite call_then, walk_go_spec. unfold O.root. destruct (q_walk _ _ _); reflexivity. Qed.
  Lemma texted_then f c s : (O.texted p (fun j => O.two_upd (f j)) ;; c) s =
    match f (O.g_json s) with Done v => c (O.g_to_json v s) | Fail v e => Ret (QPar (O.g_heap s) root (odef v), Some e) | UPanic => Pan end.
  Proof. unfold O.texted. rewrite call_then. destruct (f _); reflexivity. Qed.
  Lemma texted__then f c s : (O.texted_ (fun j => O.two_upd (f j)) ;; c) s =
    match f (O.g_json s) with Done v => c (O.g_to_json v s) | Fail v e => c (O.g_to_json (odef v) s) | UPanic => Pan end.
  Proof. unfold O.texted_. rewrite call_then. destruct (f _); reflexivity. Qed.
  Lemma parsed_then v c s : (O.parsed M0 v ;; c) s =
    match O.g_new s with Some n => match q_core v (O.g_heap s) n with Ok h => c (O.g_to_heap h s) | _ => Pan end | None => Pan end.
  Proof. unfold O.parsed. rewrite call_then. lib. destruct (O.g_new s) as [n|]; [|reflexivity]. destruct (q_core _ _ _); reflexivity. Qed.
  Lemma created_then c s : (O.created ;; c) s = c (O.g_to_new (Some (length (O.g_heap s))) (O.g_to_heap (O.g_heap s ++ [Cell [] [] None []]) s)).
  Proof. reflexivity. Qed.
  Lemma refuse_range key : forall down i s, M.range_from down i (fun _ d =>
      read (fun s => O.field c_label (O.g_heap s) (Some d)) (fun l => if_ (fun _ => bytes_eqb l key) (O.return_err p (Some (EKeyAlreadyExist key))) pass)) s =
    match q_find (O.g_heap s) key down with Ok None => Nrm s | Ok (Some _) => Ret (at_state s, Some (EKeyAlreadyExist key)) | _ => Pan end.
  Proof.
    induction down as [|d r IH]; intros i s; [reflexivity|]. cbn [M.range_from q_find]. unfold read at 1. rewrite field_of. destruct (deref _ (Some d)) as [[x c]|e|]; cbn [bind]; try reflexivity.
    unfold if_ at 1. destruct (bytes_eqb (c_label c) key); [reflexivity|]. unfold pass. apply IH.
  Qed.
  Lemma refuse_then ds key c s : (O.refuse p ds key ;; c) s =
    match ds s with
    | Ok down => match q_find (O.g_heap s) key down with Ok None => c s | Ok (Some _) => Ret (at_state s, Some (EKeyAlreadyExist key)) | _ => Pan end
    | _ => Pan
    end.
  Proof. unfold O.refuse. rewrite read_then. destruct (ds s); try reflexivity. unfold then_, M.range_. rewrite refuse_range. destruct (q_find _ _ _) as [[x|]|e|]; reflexivity. Qed.
  Lemma gotten_spec path (c : bytes -> stm) s : O.gotten_p M0 p path c s =
    match Q_Get (at_state s) path with Ok j => c j s | Err e => Ret (at_state s, Some e) | Panic => Pan end.
  Proof. unfold O.gotten_p, call. unfold O.root. fold (at_state s). rewrite Get_p_spec. destruct (Q_Get (at_state s) path); reflexivity. Qed.
  Lemma inserted_then index c s n u : O.g_new s = Some n -> O.g_curr s = Some u -> (O.inserted p index ;; c) s =
    match q_insert (O.g_heap s) n u index with Ok h => c (O.g_to_heap h s) | Err e => Ret (at_state s, Some e) | Panic => Pan end.
  Proof. intros H1 H2. unfold O.inserted. rewrite call_then, H1, H2, insert_go_spec. destruct (q_insert _ _ _ _); reflexivity. Qed.
  Lemma before_end_then t c s : (1 <= length (O.g_json s))%nat -> (O.before_end M0 t ;; c) s =
    match replace (O.g_json s) t (pred (length (O.g_json s))) (pred (length (O.g_json s))) with Ok j => c (O.g_to_json j s) | _ => Pan end.
  Proof.
    intro Hl. unfold O.before_end. rewrite call_then. lib. replace (zlen (O.g_json s) - 1 <? 0) with false by (symmetry; apply Z.ltb_ge; unfold zlen; lia).
    replace (Z.to_nat (zlen (O.g_json s) - 1)) with (pred (length (O.g_json s))) by (unfold zlen; lia). cbn [orb]. destruct (replace _ _ _ _); reflexivity.
  Qed.

  Lemma path_slice (path : list bytes) m : (m <= length path)%nat -> zslice path 0 (Z.of_nat m) = Ok (firstn m path).
  Proof.
    intro H. unfold zslice, zlen. destruct (Z.ltb_spec (Z.of_nat m) 0); [lia|]. destruct (Z.ltb_spec (Z.of_nat (length path)) (Z.of_nat m)); [lia|]. cbn [Z.ltb Z.compare orb Z.to_nat skipn].
    rewrite Z.sub_0_r, Nat2Z.id. reflexivity.
  Qed.
  (** The loop that asks again for the texts of the nodes above *)
  Section Refresh.
    Variables (seen : bool) (x : O.pg -> option nat) (to_x : option nat -> O.pg -> O.pg).
    Hypothesis Hx : forall u s, x (to_x u s) = u.
    Hypothesis Hh : forall u s, O.g_heap (to_x u s) = O.g_heap s /\ O.g_json (to_x u s) = O.g_json s.
    Hypothesis Hxh : forall h s, x (O.g_to_heap h s) = x s.
    Variable path : list bytes.
    Lemma refreshed_loop (n m : nat) : (n <= m)%nat -> (m <= length path)%nat -> forall k i fu s curr, (i + k = n)%nat -> (k < fu)%nat -> x s = Some curr ->
      returns (match leave (for_ fu (fun z => Ok (snd z <? Z.of_nat n)) (fun z => (fst z, snd z + 1)) (
        read (fun z => O.field c_up (O.g_heap (fst z)) (x (fst z))) (fun u => set_ (fun z => (to_x u (fst z), snd z))) ;;
        read (fun z => zslice path 0 (Z.of_nat m - snd z)) (fun q => call (fun z => O.l_get M0 (O.g_json (fst z)) q) (fun r =>
        read (fun z => write (O.g_heap (fst z)) (x (fst z)) (set_value (fst r))) (fun h => set_ (fun z => (O.g_to_heap h (fst z), snd z))) ;;
        if seen then match snd r with Some e => return_ (fun z => (QPar (O.g_heap (fst z)) (O.root p) (O.g_json (fst z)), Some e)) | None => pass end else pass))) (s, Z.of_nat i))
        with Nrm s' => O.return_err p None s' | r => r end) =
      said (q_refresh (negb seen) k (m - i) path curr (at_state s)).
    Proof.
      intros Hnm Hml. induction k as [|k IH]; intros i fu s curr Hi Hf Hs; (destruct fu as [|fu]; [lia|]); cbn [for_ snd fst q_refresh].
      - replace (Z.of_nat i <? Z.of_nat n) with false by (symmetry; apply Z.ltb_ge; lia). reflexivity.
      - replace (Z.of_nat i <? Z.of_nat n) with true by (symmetry; apply Z.ltb_lt; lia). specialize (IH (S i) fu). hide fu. cbn [at_state q_heap q_json].
        rewrite read_then. cbn [fst]. rewrite Hs, field_of. destruct (deref (O.g_heap s) (Some curr)) as [[a c]|e|]; cbn [q_pure]; try reflexivity.
        rewrite set_then. cbn [fst snd]. unfold read at 1. cbn [fst snd]. replace (Z.of_nat m - Z.of_nat i) with (Z.of_nat (m - i)) by lia. rewrite path_slice by lia. unfold call at 1. lib. cbn [fst].
        rewrite (proj2 (Hh _ _)).
        assert (IH' : forall u t, x t = Some u -> O.g_json t = O.g_json s -> returns match leave (loop (t, Z.of_nat i + 1)) with Nrm s' => O.return_err p None s' | r => r end =
            said (q_refresh (negb seen) k (Nat.pred (m - i)) path u (with_heap (at_state s) (O.g_heap t)))).
        { intros u t Ht Hj. rewrite zsucc, (IH t u ltac:(lia) ltac:(lia) Ht). replace (m - S i)%nat with (Nat.pred (m - i)) by lia. unfold at_state, with_heap. cbn. rewrite Hj. reflexivity. }
        destruct (c_up c) as [up|] eqn:Eu.
        2:{ cbn [deref q_pure]. destruct (Get _ _) as [v|e|]; cbn [O.two]; try reflexivity; rewrite read_then; cbn [fst snd]; rewrite Hx; reflexivity. }
        unfold deref. destruct (nth_error (O.g_heap s) up) as [cu|] eqn:En; cbn [q_pure].
        2:{ destruct (Get _ _) as [v|e|]; cbn [O.two]; try reflexivity; rewrite read_then; cbn [fst snd]; rewrite Hx, (proj1 (Hh _ _)); unfold write, deref; rewrite En; reflexivity. }
        destruct (Get _ _) as [v|e|]; cbn [O.two]; [| |reflexivity]; rewrite read_then; cbn [fst snd]; rewrite Hx, (proj1 (Hh _ _)), (write_ok _ _ _ _ En); cbn [q_pure]; rewrite set_then; cbn [fst snd].
        + destruct seen; unfold pass; cbv beta iota; (refine (eq_trans (IH' up _ _ _) _); [cbn [fst]; rewrite Hxh; apply Hx|apply (Hh (Some up) s)|reflexivity]).
        + destruct seen; cbn [negb].
          * cbn. rewrite (proj2 (Hh _ _)). reflexivity.
          * unfold pass; cbv beta iota; (refine (eq_trans (IH' up _ _ _) _); [cbn [fst]; rewrite Hxh; apply Hx|apply (Hh (Some up) s)|reflexivity]).
    Qed.
    Lemma refreshed_end zn zm n m s curr : zn = Z.of_nat n -> zm = Z.of_nat m -> (n <= m)%nat -> (m <= length path)%nat -> x s = Some curr ->
      returns ((O.refreshed M0 p seen x to_x zn zm path ;; O.return_err p None) s) = said (q_refresh (negb seen) n m path curr (at_state s)).
    Proof.
      intros -> -> Hnm Hml Hs. unfold O.refreshed, var, then_ at 1.
      pose proof (refreshed_loop n m Hnm Hml n 0 (S (length path)) s curr eq_refl ltac:(lia) Hs) as H. rewrite Nat.sub_0_r in H. exact H.
    Qed.
  End Refresh.

  Lemma nested_spec v : O.is_nested v = match at_ v 0 with Ok c => Ok (is_open c) | _ => Panic end.
  Proof. destruct v; reflexivity. Qed.
  Lemma nested_opens v : (2 <= length v)%nat -> O.is_nested v = Ok (opens v).
  Proof. destruct v as [|c v]; [cbn; lia|reflexivity]. Qed.
  Lemma encloses_spec o cl json : (2 <= length json)%nat -> O.encloses o cl json = Ok ((hd 0%N json =? o) && (last json 0%N =? cl))%N.
  Proof.
    destruct json as [|x json]; cbn [length]; [lia|]. intros _. unfold O.encloses. change (zat (x :: json) 0) with (Ok x : res N). cbn [bind hd].
    destruct (x =? o)%N; [|reflexivity]. rewrite (zat_last _ _ _ 0%N eq_refl). reflexivity.
  Qed.
  Lemma geb2 {A : Type} (l : list A) : (zlen l >=? 2) = (2 <=? length l)%nat.
  Proof. unfold zlen. destruct (Nat.leb_spec 2 (length l)); rewrite Z.geb_leb; [apply Z.leb_le|apply Z.leb_gt]; lia. Qed.
  Lemma eqb0 {A : Type} (l : list A) : (zlen l =? 0) = match l with [] => true | _ => false end.
  Proof. destruct l; [reflexivity|]. unfold zlen. apply Z.eqb_neq. cbn [length]. lia. Qed.
  Lemma eqb2 {A : Type} (l : list A) : (zlen l =? 2) = (length l =? 2)%nat.
  Proof. unfold zlen. destruct (Nat.eqb_spec (length l) 2) as [->|]; [reflexivity|]. apply Z.eqb_neq. lia. Qed.

  Lemma refreshed_curr seen path zn zm n m s curr : zn = Z.of_nat n -> zm = Z.of_nat m -> (n <= m)%nat -> (m <= length path)%nat -> O.g_curr s = Some curr ->
    returns ((O.refreshed M0 p seen O.g_curr O.g_to_curr zn zm path ;; O.return_err p None) s) = said (q_refresh (negb seen) n m path curr (at_state s)).
  Proof. apply refreshed_end; [reflexivity|split; reflexivity|reflexivity]. Qed.
  Lemma refreshed_new seen path zn zm n m s curr : zn = Z.of_nat n -> zm = Z.of_nat m -> (n <= m)%nat -> (m <= length path)%nat -> O.g_new s = Some curr ->
    returns ((O.refreshed M0 p seen O.g_new O.g_to_new zn zm path ;; O.return_err p None) s) = said (q_refresh (negb seen) n m path curr (at_state s)).
  Proof. apply refreshed_end; [reflexivity|split; reflexivity|reflexivity]. Qed.

  Lemma last_then (a : stm) e c s : (a ;; O.return_err p e ;; c) s = (a ;; O.return_err p e) s.
  Proof. unfold then_. destruct (a s); reflexivity. Qed.
  Lemma at_start cu n : at_state (O.Pg (q_heap p) (q_json p) cu n) = p.
  Proof. unfold at_state. destruct p. reflexivity. Qed.

  Lemma at_curr a s : at_state (O.g_to_curr a s) = at_state s. Proof. reflexivity. Qed.
  Ltac proj := cbn [O.g_heap O.g_json O.g_curr O.g_new O.g_to_heap O.g_to_json O.g_to_curr O.g_to_new at_state q_heap q_root q_json with_heap] in *.
  Ltac over := cbn [q_pure q_bind said bind]; rewrite ?return_then, ?return_end, ?at_curr, ?at_start; reflexivity.

  Lemma Set_plain newVal x path curr : returns ((O.assign (fun s => write (O.g_heap s) (O.g_curr s) (set_value newVal)) ;;
      O.texted_ (fun json => O.l_set M0 json newVal (x :: path)) ;;
      O.refreshed M0 p true O.g_curr O.g_to_curr (zlen (x :: path) - 1) (zlen (x :: path) - 1) (x :: path) ;;
      O.return_err p None) (O.Pg (q_heap p) (q_json p) (Some curr) None)) =
    said (q_pure (write (q_heap p) (Some curr) (set_value newVal)) (fun h =>
        q_take (with_heap p h) (Set_ (q_json p) newVal (x :: path)) (q_refresh false (length (x :: path) - 1) (length (x :: path) - 1) (x :: path) curr))).
  Proof.
    rewrite assign_then. proj. destruct (write _ _ _) as [h|e|]; [|reflexivity..]. cbn [q_pure]. lib. rewrite texted__then. proj.
    assert (El : zlen (x :: path) - 1 = Z.of_nat (length (x :: path) - 1)) by (unfold zlen; cbn [length]; lia).
    destruct (Set_ _ _ _) as [v|v e|]; cbn [q_take]; [| |reflexivity]; (rewrite (refreshed_curr true _ _ _ _ _ _ curr El El); [|lia|lia|reflexivity]); reflexivity.
  Qed.
  Lemma Set_p_spec newVal path : O.Set_p M0 p newVal path = said (Q_Set p newVal path).
  Proof.
    unfold O.Set_p, O.method, func. rewrite if_then, eqb0. unfold Q_Set. destruct path as [|x path]; [over|]. rewrite pass_then, walked_then. proj.
    destruct (q_walk _ _ _) as [curr|e|] eqn:Ew; [|over..]. cbn [q_bind]. rewrite if_then, geb2. proj.
    destruct (2 <=? length newVal)%nat eqn:E2; cbn [andb]; [|rewrite pass_then; apply Set_plain].
    rewrite read_then, nested_opens by (apply Nat.leb_le; exact E2). rewrite if_then. destruct (opens newVal); [|rewrite pass_then; apply Set_plain].
    rewrite assoc, created_then. proj. unfold createNode, alloc. rewrite assoc. rewrite parsed_then. proj.
    set (n := length (q_heap p)) in *. assert (Hn : curr <> n) by (pose proof (walk_bound _ (x :: path) _ _ ltac:(discriminate) Ew); subst n; lia).
    destruct (q_core _ _ _) as [h|e|]; [|reflexivity..]. cbn [q_pure]. rewrite assoc, assign_then. proj. rewrite field_of.
    destruct (deref h (Some curr)) as [[a cc]|e|] eqn:Hc; [|reflexivity..]. destruct (deref_some _ _ _ _ Hc) as [Ha Hcc]. injection Ha as <-. cbn [bind q_pure].
    destruct (write h _ _) as [h1|e|] eqn:H1; [|reflexivity..]. cbn [q_pure]. rewrite assoc, assign_then. proj. rewrite field_of, (write_other _ _ _ _ _ H1 Hn), Hc. cbn [bind].
    destruct (write h1 _ _) as [h2|e|] eqn:H2; [|reflexivity..]. cbn [q_pure]. rewrite assoc, call_then. proj.
    assert (Hd : deref h2 (Some curr) = Ok (curr, cc)) by (rewrite (write_other _ _ _ _ _ H2 Hn), (write_other _ _ _ _ _ H1 Hn); exact Hc).
    destruct (deref h2 (c_up cc)) as [[u cu]|e|] eqn:Hu; [|rewrite getIndex_bad with (c := cc) by (exact Hd || (rewrite Hu; discriminate)); reflexivity..].
    rewrite (getIndex_go_spec _ _ _ _ _ Hd Hu). cbn [q_pure]. destruct (q_index _ _ _) as [[ix|]|e|] eqn:Hi; [| |reflexivity..]; cbn [q_pure]; rewrite assign_then; proj; rewrite field_of, Hd; cbn [bind]; rewrite field_of, Hu; cbn [bind]; [|reflexivity].
    rewrite zat_nth. destruct (nth_error (c_down cu) ix) eqn:En; [|apply nth_error_None in En; pose proof (index_bound _ _ _ _ Hi); lia]. cbn [bind]. rewrite Nat2Z.id.
    destruct (write h2 _ _) as [h3|e|]; [|reflexivity..]. cbn [q_pure]. rewrite assoc, assign_then. proj. destruct (write h3 _ _) as [h4|e|]; [|reflexivity..]. cbn [q_pure].
    rewrite assoc. lib. rewrite texted__then. proj.
    assert (El : zlen (x :: path) - 1 = Z.of_nat (length (x :: path) - 1)) by (unfold zlen; cbn [length]; lia).
    destruct (Set_ _ _ _) as [v|v e|]; cbn [q_take]; [| |reflexivity]; (rewrite assoc, last_then, (refreshed_new true _ _ _ _ _ _ n El El); [|lia|lia|reflexivity]); reflexivity.
  Qed.

  Lemma up_down_spec s curr : O.g_curr s = Some curr -> O.up_down s =
    match deref (O.g_heap s) (Some curr) with
    | Ok (_, cc) => match deref (O.g_heap s) (c_up cc) with Ok (_, cu) => Ok (c_down cu) | Err e => Err e | Panic => Panic end
    | Err e => Err e
    | Panic => Panic
    end.
  Proof. intro H. unfold O.up_down. rewrite H, field_of. destruct (deref _ _) as [[a cc]|e|]; [|reflexivity..]. cbn [bind]. apply field_of. Qed.

  Lemma SetKey_p_spec newKey path : O.SetKey_p M0 p newKey path = said (Q_SetKey p newKey path).
  Proof.
    unfold O.SetKey_p, O.method, func. rewrite if_then, eqb0. unfold Q_SetKey. destruct path as [|x path]; [over|]. rewrite pass_then, if_then, eqb0. destruct newKey as [|k newKey]; [over|]. rewrite pass_then, walked_then. proj.
    destruct (q_walk _ _ _) as [curr|e|]; [|over..]. cbn [q_bind]. rewrite refuse_then. proj. rewrite (up_down_spec _ curr) by reflexivity. proj.
    destruct (deref _ (Some curr)) as [[a cc]|e|]; [|over..]. cbn [q_pure]. destruct (deref _ _) as [[u cu]|e|]; [|over..]. cbn [q_pure].
    destruct (q_find _ _ _) as [[y|]|e|]; [over| |over..]. cbn [q_pure]. rewrite assign_then. proj. destruct (write _ _ _) as [h|e|]; [|over..]. cbn [q_pure]. lib. rewrite texted__then. proj.
    assert (El : zlen (x :: path) - 1 = Z.of_nat (length (x :: path) - 1)) by (unfold zlen; cbn [length]; lia).
    destruct (SetKey _ _ _) as [v|v e|]; cbn [q_take]; [| |reflexivity]; (rewrite (refreshed_curr false _ _ _ _ _ _ curr El El); [|lia|lia|reflexivity]); reflexivity.
  Qed.

  Lemma Delete_p_spec path : O.Delete_p M0 p path = said (Q_Delete p path).
  Proof.
    unfold O.Delete_p, O.method, func. rewrite if_then, eqb0. unfold Q_Delete. destruct path as [|x path]; [over|]. rewrite pass_then, walked_then. proj.
    destruct (q_walk _ _ _) as [curr|e|]; [|over..]. cbn [q_bind]. rewrite call_then. proj. rewrite deAttach_go_spec.
    destruct (q_deAttach _ _) as [h|e|]; [|over..]. cbn [q_pure]. rewrite set_then. lib. rewrite texted_then. proj.
    assert (El : zlen (x :: path) - 1 = Z.of_nat (length (x :: path) - 1)) by (unfold zlen; cbn [length]; lia).
    destruct (Delete _ _) as [v|v e|]; cbn [q_take_or_fail]; [|over..]. rewrite (refreshed_curr true _ _ _ _ _ _ curr El El); [|lia|lia|reflexivity]. reflexivity.
  Qed.

  (** [newNode] with its label and text, put below [curr] *)
  Lemma attach_then l v c s n curr : O.g_new s = Some n -> O.g_curr s = Some curr ->
    (O.to_label l ;; O.to_value v ;; O.to_down ;; O.to_up ;; c) s =
    match attach (O.g_heap s) curr n l v with Ok h => c (O.g_to_heap h s) | _ => Pan end.
  Proof.
    intros Hn Hc. unfold O.to_label, O.to_value, O.to_down, O.to_up, attach. rewrite assign_then, Hn. destruct (write _ _ _) as [h1|e|]; [|reflexivity..]. cbn [bind]. rewrite assign_then. proj. rewrite Hn.
    destruct (write _ _ _) as [h2|e|]; [|reflexivity..]. cbn [bind]. rewrite assign_then. proj. rewrite Hn, Hc. destruct (push_down _ _ _) as [h3|e|]; [|reflexivity..]. cbn [bind]. rewrite assign_then. proj. rewrite Hn, Hc.
    destruct (write _ _ _); reflexivity.
  Qed.
  Lemma created_nested v c s : (O.created ;; O.parsed M0 v ;; c) s =
    match new_node (O.g_heap s) true v with Ok (h, n) => c (O.g_to_new (Some n) (O.g_to_heap h s)) | _ => Pan end.
  Proof. unfold new_node, createNode, alloc. rewrite created_then. rewrite parsed_then. proj. destruct (q_core _ _ _); reflexivity. Qed.
  Lemma created_plain v c s : (O.created ;; c) s =
    match new_node (O.g_heap s) false v with Ok (h, n) => c (O.g_to_new (Some n) (O.g_to_heap h s)) | _ => Pan end.
  Proof. reflexivity. Qed.

  (** Blocks that end with a return *)
  Definition ends c : Prop := forall s s', c s <> Nrm s'.
  Lemma ends_return e : ends (O.return_err p e). Proof. discriminate. Qed.
  Lemma ends_then a c : ends c -> ends (a ;; c).
  Proof. intros H s s'. unfold then_. destruct (a s); try discriminate. apply H. Qed.
  Lemma block_then a c s : ends a -> (a ;; c) s = a s.
  Proof. intro H. unfold then_. destruct (a s) eqn:E; try reflexivity. destruct (H _ _ E). Qed.
  Ltac block := rewrite block_then by (cbv zeta; repeat (apply ends_then || apply ends_return)).

  Lemma zlen_path (x : bytes) path : zlen (x :: path) = Z.of_nat (length (x :: path)). Proof. reflexivity. Qed.
  Lemma akv_below key newVal x path s curr n : O.g_new s = Some n -> O.g_curr s = Some curr -> O.g_json s = q_json p ->
    returns ((O.to_label key ;; O.to_value newVal ;; O.to_down ;; O.to_up ;;
      O.texted p (fun json => O.l_addKeyValue M0 json key newVal (x :: path)) ;;
      O.refreshed M0 p true O.g_new O.g_to_new (zlen (x :: path)) (zlen (x :: path)) (x :: path) ;; O.return_err p None) s) =
    said (q_pure (attach (O.g_heap s) curr n key newVal) (fun h =>
      q_take_or_fail (with_heap p h) (AddKeyValue (q_json p) key (Some newVal) (x :: path)) (q_refresh false (length (x :: path)) (length (x :: path)) (x :: path) n))).
  Proof.
    intros Hn Hc Hj. rewrite (attach_then _ _ _ _ _ _ Hn Hc). destruct (attach _ _ _ _ _) as [h|e|]; [|over..]. cbn [q_pure]. lib. rewrite texted_then. proj. rewrite Hj.
    destruct (AddKeyValue _ _ _ _) as [v|v e|]; cbn [q_take_or_fail]; [|over..]. rewrite (refreshed_new true _ _ _ _ _ _ n (zlen_path x path) (zlen_path x path)); [|lia|lia|exact Hn]. reflexivity.
  Qed.
  Lemma root_nested l v t1 t2 s n curr : (1 <= length (O.g_json s))%nat -> O.g_new s = Some n -> O.g_curr s = Some curr ->
    returns ((O.to_label l ;; O.to_value v ;; if_ (fun s => zlen (O.g_json s) =? 2) (O.before_end M0 t1) (O.before_end M0 t2) ;; O.to_down ;; O.to_up ;; O.return_err p None) s) =
    said (q_before_end (at_state s) (if (length (O.g_json s) =? 2)%nat then t1 else t2) (fun p => q_pure (attach (q_heap p) curr n l v) (fun h => QRet (with_heap p h) None))).
  Proof.
    intros Hl Hn Hc. unfold q_before_end. proj. unfold O.to_label, O.to_value, O.to_down, O.to_up, attach. rewrite assign_then, Hn.
    destruct (replace (O.g_json s) _ _ _) as [j|e|] eqn:Ej; cbn [q_pure]; (destruct (write _ _ _) as [h1|e1|]; [|reflexivity..]); cbn [bind]; rewrite assign_then; proj; rewrite Hn; (destruct (write _ _ _) as [h2|e2|]; [|reflexivity..]);
      cbn [bind]; rewrite if_then; proj; rewrite eqb2; (destruct (length (O.g_json s) =? 2)%nat; (rewrite before_end_then by exact Hl); proj; rewrite Ej); try reflexivity.
    all: rewrite assign_then; proj; rewrite Hn, Hc; (destruct (push_down _ _ _) as [h3|e3|]; [|reflexivity..]); cbn [bind]; rewrite assign_then; proj; rewrite Hn, Hc; destruct (write _ _ _); reflexivity.
  Qed.
  Lemma akv_plain key newVal t s curr : (1 <= length (O.g_json s))%nat -> O.g_curr s = Some curr ->
    returns ((O.before_end M0 t ;; O.created ;; O.to_label key ;; O.to_value newVal ;; O.to_down ;; O.to_up ;; O.return_err p None) s) =
    said (q_pure (new_node (O.g_heap s) false newVal) (fun '(h, n) => q_before_end (with_heap (at_state s) h) t (fun p => q_pure (attach (q_heap p) curr n key newVal) (fun h => QRet (with_heap p h) None)))).
  Proof.
    intros Hl Hc. rewrite before_end_then by exact Hl. unfold new_node, createNode, alloc. cbn [q_pure]. unfold q_before_end. proj. destruct (replace _ _ _ _) as [j|e|]; [|reflexivity..]. cbn [q_pure]. rewrite created_then.
    rewrite (attach_then _ _ _ _ (length (O.g_heap s)) curr) by (reflexivity || exact Hc). proj. destruct (attach _ _ _ _ _); reflexivity.
  Qed.

  Lemma AddKeyValue_p_spec key newVal path : O.AddKeyValue_p M0 p key newVal path = said (Q_AddKeyValue p key newVal path).
  Proof.
    unfold O.AddKeyValue_p, O.method, func. rewrite if_then, eqb0. unfold Q_AddKeyValue. destruct key as [|k key]; [over|]. rewrite pass_then, gotten_spec, at_start.
    set (key' := k :: key). destruct (Q_Get p path) as [json|e|] eqn:Eg; [|over..]. cbn [q_bind]. rewrite set_then, if_then, eqb0.
    destruct path as [|x path].
    - rewrite assoc, refuse_then. proj. rewrite field_of. destruct (deref _ (Some _)) as [[cu cc]|e|] eqn:Ed; [|over..]. destruct (deref_some _ _ _ _ Ed) as [Ha _]. injection Ha as <-. cbn [q_pure].
      destruct (q_find _ _ _) as [[y|]|e|]; [over| |over..]. cbn [q_pure]. rewrite assoc, if_then, geb2. destruct (Nat.leb_spec 2 (length json)) as [H2|H2]; [|rewrite pass_then; over].
      assert (Hj : q_json p = json) by (cbn in Eg; congruence).
      rewrite assoc, read_then, encloses_spec, if_then by exact H2. destruct (_ && _)%bool; [|rewrite pass_then; over]. cbv zeta. rewrite assoc, if_then, geb2.
      assert (H1 : (1 <= length (q_json p))%nat) by (rewrite Hj; lia). destruct (2 <=? length key')%nat.
      + rewrite read_then, nested_spec. destruct (at_ newVal 0) as [ch|e|]; [|over..]. cbn [q_pure]. rewrite if_then. destruct (is_open ch).
        * block. rewrite created_nested. proj. destruct (new_node _ _ _) as [[h n]|e|]; [|over..]. cbn [q_pure]. rewrite (root_nested _ _ _ _ _ n (q_root p)) by (exact H1 || reflexivity). proj. cbn [andb].
          destruct (length (q_json p) =? 2)%nat; reflexivity.
        * rewrite pass_then. block. rewrite (akv_plain _ _ _ _ (q_root p)) by (exact H1 || reflexivity). rewrite at_curr, at_start. reflexivity.
      + rewrite pass_then. block. rewrite (akv_plain _ _ _ _ (q_root p)) by (exact H1 || reflexivity). rewrite at_curr, at_start. reflexivity.
    - rewrite pass_then, walked_then. proj. destruct (q_walk _ _ _) as [curr|e|]; [|over..]. cbn [q_bind]. rewrite refuse_then, (up_down_spec _ curr) by reflexivity. proj.
      destruct (deref _ (Some curr)) as [[a cc]|e|]; [|over..]. cbn [q_pure]. destruct (deref _ _) as [[u cu]|e|]; [|over..]. cbn [q_pure].
      destruct (q_find _ _ _) as [[y|]|e|]; [over| |over..]. cbn [q_pure]. rewrite if_then, geb2. destruct (Nat.leb_spec 2 (length json)) as [H2|H2]; [|rewrite pass_then; over].
      rewrite assoc, read_then, encloses_spec, if_then by exact H2. destruct (_ && _)%bool; [|rewrite pass_then; over]. rewrite assoc, if_then, geb2. destruct (2 <=? length key')%nat.
      + rewrite read_then, nested_spec. destruct (at_ newVal 0) as [ch|e|]; [|over..]. cbn [q_pure]. rewrite if_then. destruct (is_open ch).
        * block. rewrite created_nested. proj. destruct (new_node _ _ _) as [[h n]|e|]; [|over..]. cbn [q_pure]. apply akv_below; reflexivity.
        * rewrite pass_then. block. rewrite (created_plain newVal). proj. destruct (new_node _ _ _) as [[h n]|e|]; [|over..]. cbn [q_pure]. apply akv_below; reflexivity.
      + rewrite pass_then. block. rewrite (created_plain newVal). proj. destruct (new_node _ _ _) as [[h n]|e|]; [|over..]. cbn [q_pure]. apply akv_below; reflexivity.
  Qed.

  Definition label_of (h : heap) (curr : nat) : res bytes := do '(_, cc) <- deref h (Some curr); Ok (itoa (Z.of_nat (length (c_down cc)))).
  Lemma next_then c s curr : O.g_curr s = Some curr -> (O.to_next ;; c) s = match label_of (O.g_heap s) curr with Ok l => (O.to_label l ;; c) s | _ => Pan end.
  Proof. intro Hc. unfold O.to_next, label_of. rewrite read_then, Hc, field_of. destruct (deref _ _) as [[a cc]|e|]; reflexivity. Qed.

  Lemma add_below newVal x path s curr n zn m : zn = Z.of_nat m -> (m <= length (x :: path))%nat -> O.g_new s = Some n -> O.g_curr s = Some curr -> O.g_json s = q_json p ->
    returns ((O.to_next ;; O.to_value newVal ;; O.to_down ;; O.to_up ;;
      O.texted p (fun json => O.l_add M0 json newVal (x :: path)) ;;
      O.refreshed M0 p true O.g_new O.g_to_new zn (zlen (x :: path)) (x :: path) ;; O.return_err p None) s) =
    said (q_pure (label_of (O.g_heap s) curr) (fun l => q_pure (attach (O.g_heap s) curr n l newVal) (fun h =>
      q_take_or_fail (with_heap p h) (Add_ (q_json p) newVal (x :: path)) (q_refresh false m (length (x :: path)) (x :: path) n)))).
  Proof.
    intros Hz Hm Hn Hc Hj. rewrite (next_then _ _ _ Hc). destruct (label_of _ _) as [l|e|]; [|over..]. cbn [q_pure]. rewrite (attach_then _ _ _ _ _ _ Hn Hc). destruct (attach _ _ _ _ _) as [h|e|]; [|over..]. cbn [q_pure].
    lib. rewrite texted_then. proj. rewrite Hj. destruct (Add_ _ _ _) as [v|v e|]; cbn [q_take_or_fail]; [|over..]. rewrite (refreshed_new true _ _ _ _ _ _ n Hz (zlen_path x path)); [|exact Hm|lia|exact Hn]. reflexivity.
  Qed.
  Lemma add_plain newVal t s curr : (1 <= length (O.g_json s))%nat -> O.g_curr s = Some curr ->
    returns ((O.before_end M0 t ;; O.created ;; O.to_next ;; O.to_value newVal ;; O.to_down ;; O.to_up ;; O.return_err p None) s) =
    said (q_pure (new_node (O.g_heap s) false newVal) (fun '(h, n) => q_before_end (with_heap (at_state s) h) t (fun p =>
      q_pure (label_of (q_heap p) curr) (fun l => q_pure (attach (q_heap p) curr n l newVal) (fun h => QRet (with_heap p h) None))))).
  Proof.
    intros Hl Hc. rewrite before_end_then by exact Hl. unfold new_node, createNode, alloc. cbn [q_pure]. unfold q_before_end. proj. destruct (replace _ _ _ _) as [j|e|]; [|reflexivity..]. cbn [q_pure]. rewrite created_then.
    rewrite (next_then _ _ curr) by exact Hc. proj. destruct (label_of _ _) as [l|e|]; [|reflexivity..]. cbn [q_pure].
    rewrite (attach_then _ _ _ _ (length (O.g_heap s)) curr) by (reflexivity || exact Hc). proj. destruct (attach _ _ _ _ _); reflexivity.
  Qed.

  Lemma Add_p_spec newVal path : O.Add_p M0 p newVal path = said (Q_Add p newVal path).
  Proof.
    unfold O.Add_p, O.method, func. rewrite if_then, eqb0. unfold Q_Add. destruct newVal as [|k newVal]; [over|]. rewrite pass_then, gotten_spec, at_start.
    set (val := k :: newVal). destruct (Q_Get p path) as [json|e|] eqn:Eg; [|over..]. cbn [q_bind]. rewrite if_then, eqb0.
    destruct path as [|x path].
    - rewrite assoc, set_then, assoc, if_then, geb2. cbv zeta. destruct (Nat.leb_spec 2 (length json)) as [H2|H2]; [|rewrite pass_then; over].
      assert (Hj : q_json p = json) by (cbn in Eg; congruence). assert (H1 : (1 <= length (q_json p))%nat) by (rewrite Hj; lia).
      rewrite assoc, read_then, encloses_spec, if_then by exact H2. destruct (_ && _)%bool; [|rewrite pass_then; over]. rewrite assoc, if_then, geb2.
      destruct (Nat.leb_spec 2 (length val)) as [H3|H3]; cbn [andb].
      + rewrite read_then, nested_opens, if_then by exact H3. destruct (opens val).
        * block. rewrite created_nested. proj. destruct (new_node _ _ _) as [[h n]|e|]; [|over..]. cbn [q_pure]. rewrite (next_then _ _ (q_root p)) by reflexivity. proj. cbn [andb].
          unfold q_before_end. proj.
          destruct (label_of _ _) as [l|e|] eqn:El; unfold label_of in El; [|destruct (replace _ _ _ _); cbn [q_pure]; proj; try rewrite El; reflexivity..].
          rewrite (root_nested _ _ _ _ _ n (q_root p)) by (exact H1 || reflexivity). unfold q_before_end. proj.
          destruct (length (q_json p) =? 2)%nat; cbn [tl app b]; destruct (replace _ _ _ _); cbn [q_pure]; proj; try rewrite El; reflexivity.
        * rewrite pass_then. block. rewrite (add_plain _ _ _ (q_root p)) by (exact H1 || reflexivity). rewrite at_curr, at_start. reflexivity.
      + rewrite pass_then. block. rewrite (add_plain _ _ _ (q_root p)) by (exact H1 || reflexivity). rewrite at_curr, at_start. reflexivity.
    - rewrite pass_then, walked_then. proj. destruct (q_walk _ _ _) as [curr|e|]; [|over..]. cbn [q_bind].
      rewrite if_then, geb2. destruct (Nat.leb_spec 2 (length json)) as [H2|H2]; [|rewrite pass_then; over].
      rewrite assoc, read_then, encloses_spec, if_then by exact H2. destruct (_ && _)%bool; [|rewrite pass_then; over]. rewrite assoc, if_then, geb2.
      destruct (Nat.leb_spec 2 (length val)) as [H3|H3]; cbn [andb].
      + rewrite read_then, nested_opens, if_then by exact H3. destruct (opens val).
        * block. rewrite created_nested. proj. destruct (new_node _ _ _) as [[h n]|e|]; [|over..]. cbn [q_pure]. apply add_below; try reflexivity; unfold zlen; cbn [length]; lia.
        * rewrite pass_then. block. rewrite (created_plain val). proj. destruct (new_node _ _ _) as [[h n]|e|]; [|over..]. cbn [q_pure]. apply add_below; reflexivity.
      + rewrite pass_then. block. rewrite (created_plain val). proj. destruct (new_node _ _ _) as [[h n]|e|]; [|over..]. cbn [q_pure]. apply add_below; reflexivity.
  Qed.

  Lemma insert_below newIndex newVal x path s curr n : O.g_new s = Some n -> O.g_curr s = Some curr -> O.g_json s = q_json p ->
    returns ((O.inserted p newIndex ;; O.to_value newVal ;; O.to_down ;; O.to_up ;;
      O.texted p (fun json => O.l_insert M0 json newIndex newVal (x :: path)) ;;
      O.refreshed M0 p true O.g_new O.g_to_new (zlen (x :: path)) (zlen (x :: path)) (x :: path) ;; O.return_err p None) s) =
    said (q_bind (with_heap p (O.g_heap s)) (q_insert (O.g_heap s) n curr newIndex) (fun h =>
      q_pure (write h (Some n) (set_value newVal)) (fun h =>
      q_pure (push_down h (Some curr) n) (fun h =>
      q_pure (write h (Some n) (set_up (Some curr))) (fun h =>
      q_take_or_fail (with_heap p h) (Insert (q_json p) newIndex newVal (x :: path)) (q_refresh false (length (x :: path)) (length (x :: path)) (x :: path) n)))))).
  Proof.
    intros Hn Hc Hj. rewrite (inserted_then _ _ _ _ _ Hn Hc). destruct (q_insert _ _ _ _) as [h|e|]; cbn [q_bind]; [|unfold at_state; rewrite Hj; reflexivity|reflexivity].
    unfold O.to_value, O.to_down, O.to_up. rewrite assign_then. proj. rewrite Hn. destruct (write _ _ _) as [h1|e|]; [|over..]. cbn [q_pure]. rewrite assign_then. proj. rewrite Hn, Hc. destruct (push_down _ _ _) as [h2|e|]; [|over..]. cbn [q_pure].
    rewrite assign_then. proj. rewrite Hn, Hc. destruct (write _ _ _) as [h3|e|]; [|over..]. cbn [q_pure]. lib. rewrite texted_then. proj. rewrite Hj.
    destruct (Insert _ _ _ _) as [v|v e|]; cbn [q_take_or_fail]; [|over..]. rewrite (refreshed_new true _ _ _ _ _ _ n (zlen_path x path) (zlen_path x path)); [|lia|lia|exact Hn]. reflexivity.
  Qed.
  Lemma insert_plain newIndex newVal s curr n : O.g_new s = Some n -> O.g_curr s = Some curr -> O.g_json s = q_json p ->
    returns ((O.inserted p newIndex ;; O.to_value newVal ;; O.to_down ;;
      O.texted p (fun json => O.l_insert M0 json newIndex newVal []) ;; O.inserted p newIndex ;; O.to_up ;; O.return_err p None) s) =
    said (q_bind (with_heap p (O.g_heap s)) (q_insert (O.g_heap s) n curr newIndex) (fun h =>
      q_pure (write h (Some n) (set_value newVal)) (fun h =>
      q_pure (push_down h (Some curr) n) (fun h =>
      q_take_or_fail (with_heap p h) (Insert (q_json p) newIndex newVal []) (fun p =>
      q_bind p (q_insert (q_heap p) n curr newIndex) (fun h =>
      q_pure (write h (Some n) (set_up (Some curr))) (fun h => QRet (with_heap p h) None))))))).
  Proof.
    intros Hn Hc Hj. rewrite (inserted_then _ _ _ _ _ Hn Hc). destruct (q_insert _ _ _ _) as [h|e|]; cbn [q_bind]; [|unfold at_state; rewrite Hj; reflexivity|reflexivity].
    unfold O.to_value, O.to_down, O.to_up. rewrite assign_then. proj. rewrite Hn. destruct (write _ _ _) as [h1|e|]; [|over..]. cbn [q_pure]. rewrite assign_then. proj. rewrite Hn, Hc. destruct (push_down _ _ _) as [h2|e|]; [|over..]. cbn [q_pure].
    lib. rewrite texted_then. proj. rewrite Hj. destruct (Insert _ _ _ _) as [v|v e|]; cbn [q_take_or_fail]; [|over..]. rewrite (inserted_then _ _ _ n curr) by (exact Hn || exact Hc). proj. destruct (q_insert _ _ _ _) as [h3|e|]; cbn [q_bind]; [|over..].
    rewrite assign_then. proj. rewrite Hn, Hc. destruct (write _ _ _); reflexivity.
  Qed.
  Lemma Insert_p_spec newIndex newVal path : O.Insert_p M0 p newIndex newVal path = said (Q_Insert p newIndex newVal path).
  Proof.
    unfold O.Insert_p, O.method, func. rewrite if_then, eqb0. unfold Q_Insert. destruct newVal as [|k newVal]; [over|]. rewrite pass_then, gotten_spec, at_start.
    set (val := k :: newVal). destruct (Q_Get p path) as [json|e|] eqn:Eg; [|over..]. cbn [q_bind]. rewrite set_then, if_then, eqb0.
    destruct path as [|x path].
    - rewrite assoc, if_then, geb2. cbv zeta. destruct (Nat.leb_spec 2 (length json)) as [H2|H2]; [|rewrite pass_then; over].
      rewrite assoc, read_then, encloses_spec, if_then by exact H2. destruct (_ && _)%bool; [|rewrite pass_then; over]. rewrite assoc, if_then, geb2.
      destruct (Nat.leb_spec 2 (length val)) as [H3|H3]; cbn [andb].
      + rewrite read_then, nested_opens, if_then by exact H3. destruct (opens val).
        * block. rewrite created_nested. proj. destruct (new_node _ _ _) as [[h n]|e|]; [|over..]. cbn [q_pure]. rewrite (inserted_then _ _ _ n (q_root p)) by reflexivity. proj.
          destruct (q_insert _ _ _ _) as [h1|e|]; cbn [q_bind]; [|over..]. lib. rewrite texted_then. proj. destruct (Insert _ _ _ _) as [v|v e|]; cbn [q_take_or_fail]; [|over..].
          rewrite (inserted_then _ _ _ n (q_root p)) by reflexivity. proj. destruct (q_insert _ _ _ _) as [h2|e|]; cbn [q_bind]; [|over..]. unfold O.to_down, O.to_up. rewrite assign_then. proj.
          destruct (push_down _ _ _) as [h3|e|]; [|over..]. cbn [q_pure]. rewrite assign_then. proj. destruct (write _ _ _); reflexivity.
        * rewrite pass_then. block. rewrite (created_plain val). proj. destruct (new_node _ _ _) as [[h n]|e|]; [|over..]. cbn [q_pure]. apply insert_plain; reflexivity.
      + rewrite pass_then. block. rewrite (created_plain val). proj. destruct (new_node _ _ _) as [[h n]|e|]; [|over..]. cbn [q_pure]. apply insert_plain; reflexivity.
    - rewrite pass_then, walked_then. proj. destruct (q_walk _ _ _) as [curr|e|]; [|over..]. cbn [q_bind].
      rewrite if_then, geb2. destruct (Nat.leb_spec 2 (length json)) as [H2|H2]; [|rewrite pass_then; over].
      rewrite assoc, read_then, encloses_spec, if_then by exact H2. destruct (_ && _)%bool; [|rewrite pass_then; over]. rewrite assoc, if_then, geb2.
      destruct (Nat.leb_spec 2 (length val)) as [H3|H3]; cbn [andb].
      + rewrite read_then, nested_opens, if_then by exact H3. destruct (opens val).
        * block. rewrite created_nested. proj. destruct (new_node _ _ _) as [[h n]|e|]; [|over..]. cbn [q_pure]. apply insert_below; reflexivity.
        * rewrite pass_then. block. rewrite (created_plain val). proj. destruct (new_node _ _ _) as [[h n]|e|]; [|over..]. cbn [q_pure]. apply insert_below; reflexivity.
      + rewrite pass_then. block. rewrite (created_plain val). proj. destruct (new_node _ _ _) as [[h n]|e|]; [|over..]. cbn [q_pure]. apply insert_below; reflexivity.
  Qed.
End Updates.

(** *** A history of calls *)
Theorem do_go_spec c p : O.do_p M0 c p = said (q_do c p).
Proof. destruct c; [apply Set_p_spec|apply SetKey_p_spec|apply Delete_p_spec|apply AddKeyValue_p_spec|apply Add_p_spec|apply Insert_p_spec]. Qed.
Theorem calls_go_spec cs : forall p, O.calls_p M0 cs p = match q_calls cs p with Some r => Ret r | None => Pan end.
Proof.
  induction cs as [|c r IH]; intro p; cbn [O.calls_p q_calls]; [reflexivity|]. rewrite do_go_spec. destruct (q_do c p) as [p' e|]; cbn [said]; [|reflexivity]. rewrite IH. destruct (q_calls r p') as [[p'' es]|]; reflexivity.
Qed.

Theorem history_spec json cs :
  match Parse json with
  | Ok p => exists q, O.Parse_go M0 json = Ret (Some q, None) /\
      match p_calls cs p with
      | Some (p', es) => exists q', O.calls_p M0 cs q = Ret (q', es) /\ q_json q' = p_json p' /\
          (forall path, O.Get_p M0 q' path = match P_Get p' path with Ok v => Ret (v, None) | Err e => Ret ([], Some e) | Panic => Pan end) /\
          forall fuel, (length (q_heap q') <= fuel)%nat ->
            (forall path, O.GetNew_p M0 fuel q' path = match P_GetNew p' path with Ok v => Ret v | _ => Pan end) /\
            O.Tree_p fuel q' = Ret (P_Tree p') /\ O.TreeFull_p fuel q' = Ret (P_TreeFull p')
      | None => O.calls_p M0 cs q = Pan
      end
  | Err e => O.Parse_go M0 json = Ret (None, Some e)
  | Panic => O.Parse_go M0 json = Pan
  end.
Proof.
  pose proof (parser_calls_sim json cs) as H. rewrite Parse_go_spec. destruct (Parse json) as [p|e|], (Q_Parse json) as [q|e'|]; try contradiction; [|subst; reflexivity|reflexivity].
  exists q. split; [reflexivity|]. rewrite calls_go_spec. destruct (p_calls cs p) as [[p' es]|], (q_calls cs q) as [[q' es']|]; try contradiction; [|reflexivity].
  destruct H as (-> & Hj & Hg & Hs). exists q'. split; [reflexivity|]. split; [exact Hj|]. split; [intro path; rewrite Get_p_spec, Hg; reflexivity|]. intros fuel Hf.
  destruct p' as [n j]. cbn [p_core p_json] in *. subst j. split; [intro path; exact (GetNew_p_spec fuel q' n path Hs Hf)|exact (Tree_p_spec fuel q' n Hs Hf)].
Qed.
