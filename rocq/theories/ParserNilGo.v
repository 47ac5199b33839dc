(** Parser.AddKeyValue with a nil value, statement by statement: the program of ParserGo.v with no bytes for the value, calling
    AddKeyValue with nil.  It computes what the model in ParserNil.v computes. *)
From Coq Require Import String Lia.
From Verif Require Import GoStd GoLang Core Errors Api Iter Parser Tree SpecPtr Pointers PointerProofs.
From Verif Require MakeGo ParserGo UpdateGo UpdateGoProofs ParserNil.
From Verif Require Import CoreGoProofs MakeGoProofs NoPanicC ParseAny ParserGoProofs AsWritten Octets.
From Verif Require ParserGoWritten.

Local Open Scope Z_scope.

(** inter_add.go:8-76 with [value] nil; everything else as it is *)
Definition with_nil (L : O.lib) (f : bytes -> bytes -> list bytes -> flow unit (bytes * option err)) : O.lib :=
  O.Lib (O.l_get L) (O.l_set L) (O.l_setKey L) (O.l_delete L) (fun json key _ => f json key) (O.l_add L) (O.l_insert L) (O.l_core L) (O.l_clean L) (O.l_replace L).
Definition nil_written (fuel : nat) : O.lib := with_nil (O.as_written fuel) (fun json key => UpdateGo.AddKeyValue_go fuel json key None).
Definition nil_models : O.lib := with_nil O.models (fun json key path => O.two_upd (AddKeyValue json key None path)).
(** parse_add.go:10-114 *)
Definition AddKeyValue_nil_p (fuel : nat) (p : qparser) (key : bytes) (path : list bytes) : flow unit O.told := O.AddKeyValue_p (nil_written fuel) p key [] path.

(** The same on nodes linked by pointers, as in Pointers.v *)
Definition Q_AddKeyValue_nil (p : qparser) (key : bytes) (path : list bytes) : qres :=
  let lenp := length path in
  match key with
  | [] => QRet p (Some ENullKey)
  | _ =>
      q_bind p (Q_Get p path) (fun json =>
      let indexed (k : qres) := if (2 <=? length key)%nat then QPanic else k in
      match path with
      | [] =>
          q_pure (deref (q_heap p) (Some (q_root p))) (fun '(curr, cc) =>
          q_pure (q_find (q_heap p) key (c_down cc)) (fun o =>
          match o with
          | Some _ => QRet p (Some (EKeyAlreadyExist key))
          | None =>
              if (2 <=? length json)%nat then
                if ((hd 0 json =? 123) && (last json 0 =? 125))%N then
                  indexed (q_pure (new_node (q_heap p) false []) (fun '(h, n) =>
                  q_before_end (with_heap p h) (44%N :: pair_text key []) (fun p =>
                  q_pure (attach (q_heap p) curr n key []) (fun h => QRet (with_heap p h) None))))
                else QRet p (Some EObjectExpected)
              else QRet p (Some (EBadJSON 0))
          end))
      | _ =>
          q_bind p (q_walk (q_heap p) (q_root p) path) (fun curr =>
          q_pure (deref (q_heap p) (Some curr)) (fun '(_, cc) =>
          q_pure (deref (q_heap p) (c_up cc)) (fun '(_, cu) =>
          q_pure (q_find (q_heap p) key (c_down cu)) (fun o =>
          match o with
          | Some _ => QRet p (Some (EKeyAlreadyExist key))
          | None =>
              if (2 <=? length json)%nat then
                if ((hd 0 json =? 123) && (last json 0 =? 125))%N then
                  indexed (q_pure (new_node (q_heap p) false []) (fun '(h, n) =>
                  q_pure (attach h curr n key []) (fun h =>
                  q_take_or_fail (with_heap p h) (AddKeyValue (q_json p) key None path) (q_refresh false lenp lenp path n))))
                else QRet p (Some EObjectExpected)
              else QRet p (Some (EBadJSON 0))
          end))))
      end)
  end.

(** ** The program and the model on pointers *)
Section Program.
  Variable p : qparser.
  Ltac proj := cbn [O.g_heap O.g_json O.g_curr O.g_new O.g_to_heap O.g_to_json O.g_to_curr O.g_to_new at_state q_heap q_root q_json with_heap] in *.
  Ltac over := cbn [q_pure q_bind said bind]; rewrite ?return_then, ?return_end, ?at_curr, ?at_start; reflexivity.
  Ltac block := rewrite block_then by (cbv zeta; repeat (apply ends_then || apply ends_return)).

  Lemma nil_below key x path s curr n : O.g_new s = Some n -> O.g_curr s = Some curr -> O.g_json s = q_json p ->
    returns ((O.to_label key ;; O.to_value [] ;; O.to_down ;; O.to_up ;;
      O.texted p (fun json => O.l_addKeyValue nil_models json key [] (x :: path)) ;;
      O.refreshed M0 p true O.g_new O.g_to_new (zlen (x :: path)) (zlen (x :: path)) (x :: path) ;; O.return_err p None) s) =
    said (q_pure (attach (O.g_heap s) curr n key []) (fun h =>
      q_take_or_fail (with_heap p h) (AddKeyValue (q_json p) key None (x :: path)) (q_refresh false (length (x :: path)) (length (x :: path)) (x :: path) n))).
  Proof.
    intros Hn Hc Hj. rewrite (attach_then _ _ _ _ _ _ Hn Hc). destruct (attach _ _ _ _ _) as [h|e|]; [|over..]. cbn [q_pure].
    cbn [O.l_addKeyValue nil_models with_nil]. rewrite texted_then. proj. rewrite Hj.
    destruct (AddKeyValue _ _ _ _) as [v|v e|]; cbn [q_take_or_fail]; [|over..]. rewrite (refreshed_new p true _ _ _ _ _ _ n (zlen_path x path) (zlen_path x path)); [|lia|lia|exact Hn]. reflexivity.
  Qed.

  Lemma nil_p_spec key path : O.AddKeyValue_p nil_models p key [] path = said (Q_AddKeyValue_nil p key path).
  Proof.
    unfold O.AddKeyValue_p, O.method, func. change (O.gotten_p nil_models) with (O.gotten_p M0). change (@O.refreshed nil_models) with (@O.refreshed M0).
    change (O.before_end nil_models) with (O.before_end M0). change (O.parsed nil_models) with (O.parsed M0).
    rewrite if_then, eqb0. unfold Q_AddKeyValue_nil. destruct key as [|k key]; [over|]. rewrite pass_then, gotten_spec, at_start.
    set (key' := k :: key). destruct (Q_Get p path) as [json|e|] eqn:Eg; [|over..]. cbn [q_bind]. rewrite set_then, if_then, eqb0.
    destruct path as [|x path].
    - rewrite assoc, refuse_then. proj. rewrite field_of. destruct (deref _ (Some _)) as [[cu cc]|e|] eqn:Ed; [|over..]. destruct (deref_some _ _ _ _ Ed) as [Ha _]. injection Ha as <-. cbn [q_pure].
      destruct (q_find _ _ _) as [[y|]|e|]; [over| |over..]. cbn [q_pure]. rewrite assoc, if_then, geb2. destruct (Nat.leb_spec 2 (length json)) as [H2|H2]; [|rewrite pass_then; over].
      assert (Hj : q_json p = json) by (cbn in Eg; congruence).
      rewrite assoc, read_then, encloses_spec, if_then by exact H2. destruct (_ && _)%bool; [|rewrite pass_then; over]. cbv zeta. rewrite assoc, if_then, geb2.
      assert (H1 : (1 <= length (q_json p))%nat) by (rewrite Hj; lia). destruct (2 <=? length key')%nat.
      + rewrite read_then, nested_spec. over.
      + rewrite pass_then. block. rewrite (akv_plain _ _ _ _ _ (q_root p)) by (exact H1 || reflexivity). rewrite at_curr, at_start. reflexivity.
    - rewrite pass_then, walked_then. proj. destruct (q_walk _ _ _) as [curr|e|]; [|over..]. cbn [q_bind]. rewrite refuse_then, (up_down_spec _ curr) by reflexivity. proj.
      destruct (deref _ (Some curr)) as [[a cc]|e|]; [|over..]. cbn [q_pure]. destruct (deref _ _) as [[u cu]|e|]; [|over..]. cbn [q_pure].
      destruct (q_find _ _ _) as [[y|]|e|]; [over| |over..]. cbn [q_pure]. rewrite if_then, geb2. destruct (Nat.leb_spec 2 (length json)) as [H2|H2]; [|rewrite pass_then; over].
      rewrite assoc, read_then, encloses_spec, if_then by exact H2. destruct (_ && _)%bool; [|rewrite pass_then; over]. rewrite assoc, if_then, geb2. destruct (2 <=? length key')%nat.
      + rewrite read_then, nested_spec. over.
      + rewrite pass_then. block. rewrite (created_plain []). proj. destruct (new_node _ _ _) as [[h n]|e|]; [|over..]. cbn [q_pure]. apply nil_below; reflexivity.
  Qed.
End Program.

(** ** The two models *)
Theorem nil_sim q p key path : sim q p -> same_result (Q_AddKeyValue_nil q key path) (ParserNil.P_AddKeyValue_nil p key path).
Proof.
  intro Hsim. unfold Q_AddKeyValue_nil, ParserNil.P_AddKeyValue_nil. rewrite (get_sim q p path Hsim).
  destruct key as [|k0 key0]; [split; [reflexivity|exact Hsim]|]. set (key := k0 :: key0) in *. clearbody key.
  destruct (P_Get p path) as [json|e|]; cbn [q_bind p_bind]; [|split; [reflexivity|exact Hsim]|exact I].
  destruct q as [h a j], p as [core j']. destruct Hsim as [Ej Hs]. cbn [q_heap q_root q_json p_core p_json] in *. subst j'.
  pose proof (new_node_sim h false []) as Hnew. cbv iota in Hnew. destruct Hnew as (h1 & B & E1 & Tn & HnB & Hg).
  destruct (list_eq_dec (list_eq_dec N.eq_dec) path []) as [->|Hne].
  - pose proof Hs as (up & A & Ht & Hn). inversion Ht as [u0 a0 l v ds ns A0 Hc Hts]; subst. rewrite (deref_ok _ _ _ Hc). cbn [q_pure c_down n_down].
    destruct (find_sim key h a ds ns A0 Hts) as (o & -> & ->). cbn [q_pure]. destruct o; [same_state|].
    destruct (2 <=? length json)%nat; [|same_state]. destruct ((hd 0 json =? 123) && (last json 0 =? 125))%N; [|same_state]. cbv zeta.
    destruct (2 <=? length key)%nat; [exact I|]. rewrite E1. cbn [q_pure].
    destruct (below_sim h a (Node l v ns) [] (Node l v ns) h1 _ B Hs eq_refl Tn HnB Hg) as (c & _ & Hca & _ & _ & Hatt). specialize (Hca eq_refl). subst c.
    destruct (Hatt key []) as (h' & Ea & Hs' & _). cbn [with_heap q_heap q_root q_json]. apply before_end_sim. intro out. cbn [q_heap]. rewrite Ea. cbn [q_pure with_heap q_heap q_root q_json].
    split; [reflexivity|]. split; [reflexivity|]. exact Hs'.
  - rewrite !(ne_match path _ _ Hne). destruct (n_walk core path) as [m|e|] eqn:Ew; [| |destruct (walk_no_panic _ _ Ew)].
    2:{ pose proof Hs as (up & A & Ht & Hn). rewrite (walk_err _ _ _ _ _ _ _ Ht Ew). same_state. }
    destruct (siblings_sim h a core path m Hs Hne Ew) as (c & cc & c' & cu & k & E & Hcc & Hup & Hcu & Hk & Hsib).
    rewrite E. cbn [q_bind p_bind]. rewrite (deref_ok _ _ _ Hcc). cbn [q_pure]. rewrite Hup, (deref_ok _ _ _ Hcu). cbn [q_pure]. rewrite Hk. cbn [p_pure].
    destruct (Hsib key) as (o & -> & ->). cbn [q_pure]. destruct o; [same_state|].
    destruct (2 <=? length json)%nat; [|same_state]. destruct ((hd 0 json =? 123) && (last json 0 =? 125))%N; [|same_state]. cbv zeta.
    destruct (2 <=? length key)%nat; [exact I|]. rewrite E1. cbn [q_pure].
    destruct (below_sim h a core path m h1 _ B Hs Ew Tn HnB Hg) as (c1 & E2 & _ & _ & _ & Hatt). rewrite E in E2. injection E2 as <-.
    destruct (Hatt key []) as (h' & Ea & Hs' & Hcn & Hw'). rewrite Ea. cbn [q_pure with_heap q_heap q_root q_json].
    apply take_or_fail_sim; [split; [reflexivity|exact Hs']|]. intro out. rewrite ancestors_prefixes. eapply refresh_at; [exact Hs'|lia|exact Hcn|exact Hw'].
Qed.

(** ** The functions it calls as written *)
Import ParserGo ParserGoWritten.
Section Written.
  Variable p : qparser.
  Notation ok := (settles Is Js).
  Lemma gives_nil json k path : octets json -> octets k -> gives text_octets (fun fuel => l_addKeyValue (nil_written fuel) json k [] path) (l_addKeyValue nil_models json k [] path).
  Proof. intros Hj Hk. apply (gives_upd _ _ json path); [|apply keeps_add_kv; first [assumption | repeat constructor]]. intros. apply UpdateGoProofs.AddKeyValue_go_spec; assumption || lia. Qed.
  Lemma refreshed_nil seen x to_x n m path : (forall u s, g_json (to_x u s) = g_json s) ->
    ok (fun fuel => refreshed (nil_written fuel) p seen x to_x n m path) (refreshed nil_models p seen x to_x n m path).
  Proof. exact (refreshed_settles p seen x to_x n m path). Qed.
  Lemma gotten_nil path c c0 : (forall j, ok (fun fuel => c fuel j) (c0 j)) -> ok (fun fuel => gotten_p (nil_written fuel) p path (c fuel)) (gotten_p nil_models p path c0).
  Proof. exact (gotten_settles p path c c0). Qed.
  Lemma before_end_nil t : octets t -> ok (fun fuel => before_end (nil_written fuel) t) (before_end nil_models t).
  Proof. exact (before_end_settles t). Qed.
  Lemma parsed_nil v : octets v -> ok (fun fuel => parsed (nil_written fuel) v) (parsed nil_models v).
  Proof. exact (parsed_settles v). Qed.

  Ltac meth := repeat first [
      apply return_settles | apply check_settles | apply assign_settles | apply walked_settles | apply created_settles | apply refuse_settles
    | apply parsed_nil; assumption | apply refreshed_nil; reflexivity
    | apply before_end_nil; oct
    | apply texted_settles; intros; apply gives_nil; assumption
    | apply gotten_nil; intro
    | apply settles_pass | apply settles_set; kept | apply settles_if | apply settles_then | apply settles_read; intro
    | progress unfold to_label, to_value, to_down, to_up, to_next ].

  Hypothesis Hp : octets (q_json p).
  Lemma nil_settles k path : octets k -> gives Js (fun fuel => AddKeyValue_nil_p fuel p k path) (AddKeyValue_p nil_models p k [] path).
  Proof. intro Hk. assert (Hv : octets []) by constructor. unfold AddKeyValue_nil_p, AddKeyValue_p. cbv zeta. apply method_settles; [exact Hp|]. meth. Qed.
End Written.

Theorem nil_written_q p k path : octets (q_json p) -> octets k ->
  eventually (fun fuel => AddKeyValue_nil_p fuel p k path = ParserGoProofs.said (Q_AddKeyValue_nil p k path)).
Proof. intros Hp Hk. exact (then_is _ _ _ _ (nil_settles p Hp k path Hk) (nil_p_spec p k path)). Qed.
(** On the nodes that stand for a parser's, the program does what the model does. *)
Theorem nil_go q p k path : octets (q_json q) -> octets k -> q_json q = p_json p -> stands (q_heap q) (q_root q) (p_core p) ->
  match ParserNil.P_AddKeyValue_nil p k path with
  | PRet p' e => exists q', eventually (fun fuel => AddKeyValue_nil_p fuel q k path = Ret (q', e)) /\ q_json q' = p_json p' /\
      stands (q_heap q') (q_root q') (p_core p') /\
      forall r, eventually (fun fuel => Get_p (as_written fuel) q' r = match P_Get p' r with Ok v => Ret (v, None) | Err e => Ret ([], Some e) | Panic => Pan end)
  | PPanic => eventually (fun fuel => AddKeyValue_nil_p fuel q k path = Pan)
  end.
Proof.
  intros Hq Hk Hj Hs. pose proof (nil_written_q q k path Hq Hk) as W. pose proof (nil_sim q p k path (conj Hj Hs)) as S.
  destruct (Q_AddKeyValue_nil q k path) as [q' e|], (ParserNil.P_AddKeyValue_nil p k path) as [p' e'|]; try contradiction; [|exact W].
  destruct S as [<- S]. exists q'. split; [exact W|]. split; [apply S|]. split; [apply S|]. intro r. pose proof (Get_written q' r) as G. rewrite (get_sim q' p' r S) in G. exact G.
Qed.
