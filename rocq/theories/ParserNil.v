(** Parser.AddKeyValue with a nil value: on a text the function AddKeyValue puts null for it, on a tree nothing is put. *)
From Coq Require Import String.
From Verif Require Import GoStd Core Skip Focus CoreProofs Json Spec Errors Api Iter Typed Parser SpecParser SpecNest ParserProofs ParserGet ParserUpd ParserOps ParserInsert ParserText ParserNest.
From Verif Require TypedProofs Updates ApiProofs.

Local Open Scope N_scope.

(** parse_add.go:10-114 [Parser.AddKeyValue] with [newVal] nil: [string(newVal)] is empty, [newVal[0]] panics, the node's value
    is nil and AddKeyValue is called with nil (inter_add.go:9-11) *)
Definition P_AddKeyValue_nil (p : parser) (key : bytes) (path : list bytes) : pres :=
  match key with
  | [] => PRet p (Some ENullKey)
  | _ =>
      p_bind p (P_Get p path) (fun json =>
      (* if lenv >= 2 { if newVal[0] == 91 || ... *)
      let indexed (k : pres) := if (2 <=? length key)%nat then PPanic else k in
      match path with
      | [] =>
          if has_label key (n_down (p_core p)) then PRet p (Some (EKeyAlreadyExist key))
          else if (2 <=? length json)%nat then
            if (hd 0 json =? 123) && (last json 0 =? 125) then
              indexed (put_before_end (Par (append_node (Node key [] []) (p_core p)) (p_json p)) (44 :: pair_text key []) (fun p => PRet p None))
            else PRet p (Some EObjectExpected)
          else PRet p (Some (EBadJSON 0))
      | _ =>
          p_bind p (n_walk (p_core p) path) (fun _ =>
          p_pure (n_walk (p_core p) (removelast path)) (fun up =>
          if has_label key (n_down up) then PRet p (Some (EKeyAlreadyExist key))
          else if (2 <=? length json)%nat then
            if (hd 0 json =? 123) && (last json 0 =? 125) then
              indexed (take_or_fail (Par (upd_node path (append_node (Node key [] [])) (p_core p)) (p_json p))
                (AddKeyValue (p_json p) key None path) (refresh (ancestors path)))
            else PRet p (Some EObjectExpected)
          else PRet p (Some (EBadJSON 0))))
      end)
  end.

(** At the root, and for keys of two bytes or more, nil is the empty value. *)
Theorem nil_empty p k q : q = [] \/ (2 <= length k)%nat -> P_AddKeyValue_nil p k q = P_AddKeyValue p k [] q.
Proof.
  unfold P_AddKeyValue_nil, P_AddKeyValue. destruct k as [|c k]; [reflexivity|]. intro H. destruct (P_Get p q) as [json| |]; try reflexivity. cbn [p_bind]. cbv zeta.
  assert (E : q <> [] -> (2 <=? length (c :: k))%nat = true) by (intro Hq; destruct H as [H|H]; [contradiction|apply Nat.leb_le; exact H]).
  destruct q as [|x q].
  - destruct (has_label _ _); [reflexivity|]. destruct (2 <=? length json)%nat; [|reflexivity]. destruct (_ && _)%bool; [|reflexivity]. destruct (2 <=? _)%nat; reflexivity.
  - rewrite E by discriminate. reflexivity.
Qed.

(** A key of two bytes or more: refused, or a panic. *)
Theorem nil_long p k q : (2 <= length k)%nat -> P_AddKeyValue_nil p k q = PPanic \/ exists e, P_AddKeyValue_nil p k q = PRet p (Some e).
Proof.
  intro H. unfold P_AddKeyValue_nil. destruct k as [|c k]; [right; eexists; reflexivity|]. rewrite (proj2 (Nat.leb_le _ _) H).
  destruct (P_Get p q) as [json| |]; cbn [p_bind]; [|right; eexists; reflexivity|left; reflexivity]. cbv zeta.
  destruct q as [|x q].
  - destruct (has_label _ _); [right; eexists; reflexivity|]. destruct (2 <=? length json)%nat; [|right; eexists; reflexivity]. destruct (_ && _)%bool; [left; reflexivity|right; eexists; reflexivity].
  - destruct (n_walk (p_core p) (x :: q)); cbn [p_bind]; [|right; eexists; reflexivity|left; reflexivity].
    destruct (n_walk (p_core p) (removelast _)); cbn [p_pure]; [|left; reflexivity..].
    destruct (has_label _ _); [right; eexists; reflexivity|]. destruct (2 <=? length json)%nat; [|right; eexists; reflexivity]. destruct (_ && _)%bool; [left; reflexivity|right; eexists; reflexivity].
Qed.

(** Where a value can be added under such a key, nil panics. *)
Theorem nil_panics p k v q p' : (2 <= length k)%nat -> P_AddKeyValue p k v q = PRet p' None -> P_AddKeyValue_nil p k q = PPanic.
Proof.
  intros H Hv. unfold P_AddKeyValue_nil, P_AddKeyValue in *. destruct k as [|c k]; [discriminate Hv|]. rewrite (proj2 (Nat.leb_le _ _) H) in *.
  destruct (P_Get p q) as [json| |]; cbn [p_bind] in *; [|discriminate Hv|reflexivity]. cbv zeta in *.
  destruct q as [|x q].
  - destruct (has_label _ _); [discriminate Hv|]. destruct (2 <=? length json)%nat; [|discriminate Hv]. destruct ((hd 0 json =? 123) && (last json 0 =? 125))%bool; [reflexivity|discriminate Hv].
  - destruct (n_walk (p_core p) (x :: q)); cbn [p_bind] in *; [|discriminate Hv|reflexivity].
    destruct (n_walk (p_core p) (removelast _)); cbn [p_pure] in *; [|reflexivity..].
    destruct (has_label _ _); [discriminate Hv|]. destruct (2 <=? length json)%nat; [|discriminate Hv]. destruct ((hd 0 json =? 123) && (last json 0 =? 125))%bool; [reflexivity|discriminate Hv].
Qed.

(** Below the root the text is the one AddKeyValue makes of nil. *)
Theorem nil_text p k q p' e : q <> [] -> P_AddKeyValue_nil p k q = PRet p' e -> mirrors' p (AddKeyValue (p_json p) k None q) p' e.
Proof.
  intros Hq. unfold P_AddKeyValue_nil. destruct k as [|c k]; [intro H; injection H as <- <-; apply refused'; [reflexivity|discriminate]|]. intro H.
  apply p_bind_text in H. destruct H as [[-> H]|(json & _ & H)]; [apply refused'; [reflexivity|exact H]|]. cbv zeta in H.
  destruct q as [|x q]; [contradiction|]. apply p_bind_text in H. destruct H as [[-> H]|(n & _ & H)]; [apply refused'; [reflexivity|exact H]|].
  apply p_pure_text in H. destruct H as (up & _ & H).
  destruct (has_label _ _); [injection H as <- <-; apply refused'; [reflexivity|discriminate]|].
  destruct (2 <=? length json)%nat; [|injection H as <- <-; apply refused'; [reflexivity|discriminate]].
  destruct (_ && (last json 0 =? 125))%bool; [|injection H as <- <-; apply refused'; [reflexivity|discriminate]].
  destruct (2 <=? length (c :: k))%nat; [discriminate H|]. apply kept'. eapply take_or_fail_text in H; [exact H| |].
  - intros o er E. eapply Updates.addkv_fail. exact E.
  - apply refresh_text.
Qed.

(** The node holds nothing. *)
Theorem nil_answer p k q p' : P_Get p (q ++ [k]) = Err (EKeyNotFound k) -> P_AddKeyValue_nil p k q = PRet p' None ->
  P_Get p' (q ++ [k]) = Ok [] /\ barren p' (q ++ [k]).
Proof.
  intros Habs H. unfold P_AddKeyValue_nil in H. destruct k as [|k0 k1]; [discriminate H|]. set (k := k0 :: k1) in *.
  enough (E : n_walk (p_core p') (q ++ [k]) = Ok (Node k [] [])) by (change (Ok []) with (cleanValue []); apply (walk_plain _ _ _ _ (not_nil q k) E); reflexivity).
  destruct (P_Get p q) as [json|e|] eqn:Eg; cbn [p_bind] in H; try discriminate H. cbv zeta in H.
  destruct (2 <=? length k)%nat eqn:E2.
  { exfalso. destruct q as [|x q].
    - destruct (has_label _ _); [discriminate H|]. destruct (2 <=? length json)%nat; [|discriminate H]. destruct (_ && _)%bool; discriminate H.
    - destruct (n_walk (p_core p) (x :: q)); cbn [p_bind] in H; try discriminate H. destruct (n_walk (p_core p) (removelast _)); cbn [p_pure] in H; try discriminate H.
      destruct (has_label _ _); [discriminate H|]. destruct (2 <=? length json)%nat; [|discriminate H]. destruct (_ && _)%bool; discriminate H. }
  destruct q as [|x q].
  - pose proof (not_found p [] k (p_core p) Habs eq_refl) as Hf. unfold has_label in H. rewrite Hf in H.
    destruct (2 <=? length json)%nat; [|discriminate H]. destruct ((hd 0 json =? 123) && (last json 0 =? 125))%bool; [|discriminate H].
    unfold put_before_end in H. cbn [p_core p_json] in H.
    (match type of H with p_pure ?r _ = _ => destruct r as [j|e|]; try discriminate H end). cbn [p_pure] in H. injection H as <-. cbn [p_core app].
    rewrite append_found by exact Hf. reflexivity.
  - set (path := x :: q) in *. destruct (n_walk (p_core p) path) as [n|e|] eqn:En; cbn [p_bind] in H; try discriminate H.
    destruct (n_walk (p_core p) (removelast path)) as [up|e|]; cbn [p_pure] in H; try discriminate H. destruct (has_label k (n_down up)); [discriminate H|].
    destruct (2 <=? length json)%nat; [|discriminate H]. destruct ((hd 0 json =? 123) && (last json 0 =? 125))%bool; [|discriminate H].
    unfold take_or_fail in H. destruct (AddKeyValue (p_json p) k None path) as [out|out e|]; cbn [p_core] in H; try discriminate H.
    apply (put_node p path k [] [] n out _ p' En (not_found _ _ _ _ Habs En) H). apply beneath_ancestors.
Qed.

(** On documents text and tree then differ. *)
Theorem nil_drifts d p q k w ms p' : wf_doc d = true -> p_json p = text d -> q <> [] -> str_ok k = true -> lookup (d_val d) q = Some (JObj w ms) ->
  P_Get p (q ++ [k]) = Err (EKeyNotFound k) -> P_AddKeyValue_nil p k q = PRet p' None ->
  P_Get p' (q ++ [k]) = Ok [] /\ Get (p_json p') (q ++ [k]) = Ok (b "null").
Proof.
  intros Hw Hj Hq Hk Hl Habs H. split; [exact (proj1 (nil_answer p k q p' Habs H))|].
  pose proof (proj2 (nil_text p k q p' None Hq H) eq_refl) as E. rewrite Hj in E.
  apply (TypedProofs.add_kv_read d q k (JScalar (b "null")) (b "null") w ms _ Hw); [|exact Hk|exact Hl|].
  - split; [left; eexists; repeat split|]; vm_compute; reflexivity.
  - exact E.
Qed.
