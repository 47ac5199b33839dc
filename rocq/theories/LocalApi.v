(** The functions that read at a path, and Set, on a text that agrees with a document up to the end of the
    addressed value: what follows the value is not looked at. *)
From Coq Require Import String.
From Verif Require Import GoStd Json SpecIter SpecList SpecLocal Core Skip Focus CoreProofs Local Errors Api ApiProofs
  Iter IterProofs IterObj IterMisc ListExact.

Local Open Scope N_scope.

Lemma opens_wf d p v before : wf_doc d = true -> opens d p v before -> wf v = true.
Proof. intros Hw (pre & post & Hf & _). eapply focus_wf; [exact Hf|apply wf_doc_inv in Hw; tauto]. Qed.

(** Some text stands before the value: at least the bracket of the container it is in. *)
Lemma opens_before d p v before : opens d p v before -> p <> [] -> (1 <= length before)%nat.
Proof.
  intros (pre & post & Hf & ->) Hp. destruct (focus_pre_open _ _ _ _ _ Hf Hp) as [_ E]. rewrite E.
  rewrite app_length. cbn [length]. lia.
Qed.

Lemma core_over d p v before : wf_doc d = true -> p <> [] -> opens d p v before ->
  exists ks,
  (forall rest, core (before ++ hd 0 (render v) :: rest) true p = Ok (ks, length before, O)) /\
  (forall rest, core (before ++ hd 0 (render v) :: rest) false p =
     value_end (before ++ hd 0 (render v) :: rest) ks (length before)) /\
  (forall rest, over v rest -> core (before ++ render v ++ rest) false p =
     Ok (ks, (length before + qoff v)%nat, (length before + qoff v + length (bare v))%nat)).
Proof.
  intros Hw Hp Ho. pose proof (opens_wf _ _ _ _ Hw Ho) as Hv. destruct Ho as (pre & post & Hf & ->).
  destruct (core_cut d p pre v post Hw Hp Hf) as (ks & H1 & H2). exists ks. split; [|split].
  - intro rest. rewrite <- app_assoc. apply H1.
  - intro rest. rewrite <- app_assoc. apply H2.
  - intros rest Hr. rewrite <- app_assoc.
    replace (d_pre d ++ pre ++ render v ++ rest) with (d_pre d ++ pre ++ hd 0 (render v) :: tl (render v) ++ rest).
    + rewrite H2. apply value_end_over with (post := rest); [exact Hv| |exact Hr].
      destruct (render_cons v Hv) as (c & r & E & _). rewrite E. same_text.
    + destruct (render_cons v Hv) as (c & r & E & _). rewrite E. reflexivity.
Qed.

(** ** Get and Set *)
Theorem get_over d p v before rest : wf_doc d = true -> p <> [] -> opens d p v before -> over v rest ->
  Get (before ++ render v ++ rest) p = Ok (bare v).
Proof.
  intros Hw Hp Ho Hr. destruct (core_over d p v before Hw Hp Ho) as (ks & _ & _ & H).
  unfold Get. destruct p as [|x p]; [congruence|]. rewrite (H rest Hr). cbn [bind].
  eapply slice_app_eq with (p := before ++ match v with JString _ => [34] | _ => [] end)
    (r := (match v with JString _ => [34] | _ => [] end) ++ rest).
  - rewrite span_render. same_text.
  - destruct v; cbn [qoff]; len.
  - destruct v; cbn [qoff]; len.
Qed.

Lemma opens_noq d p v before : wf_doc d = true -> p <> [] -> opens d p v before -> noq before.
Proof.
  intros Hw Hp (pre & post & Hf & ->). destruct (focus_ends _ _ _ _ _ Hf (wf_doc_val _ Hw) Hp) as [H1 _]. apply H1.
Qed.

Theorem set_over d p v before rest new : wf_doc d = true -> p <> [] -> opens d p v before -> over v rest ->
  Set_ (before ++ render v ++ rest) new p = Done (before ++ new ++ rest).
Proof.
  intros Hw Hp Ho Hr. pose proof (opens_noq _ _ _ _ Hw Hp Ho) as Hq.
  destruct (core_over d p v before Hw Hp Ho) as (ks & _ & _ & H).
  unfold Set_. destruct p as [|x p]; [congruence|]. rewrite (H rest Hr). cbn [ubind].
  apply set_span_spec; [exact Hq|reflexivity].
Qed.

(** Breaking off inside the value is noticed. *)
Lemma core_broken d p v before q : wf_doc d = true -> p <> [] -> opens d p v before -> broken v q ->
  core (before ++ q) false p = Err (EBadJSON (length before)).
Proof.
  intros Hw Hp Ho (Hq & q' & Er & Hq'). pose proof (opens_wf _ _ _ _ Hw Ho) as Hv.
  destruct (core_over d p v before Hw Hp Ho) as (ks & _ & H & _).
  specialize (H (tl q)). replace (hd 0 (render v) :: tl q) with q in H by (rewrite Er; destruct q; [congruence|reflexivity]).
  rewrite H. apply value_end_broken with (v := v) (q' := q'); try assumption.
  intros ->. destruct v; try congruence. eauto.
Qed.

Theorem get_broken d p v before q : wf_doc d = true -> p <> [] -> opens d p v before -> broken v q ->
  Get (before ++ q) p = Err (EBadJSON (length before)).
Proof.
  intros Hw Hp Ho Hb. pose proof (core_broken d p v before q Hw Hp Ho Hb) as H.
  unfold Get. destruct p as [|x p]; [congruence|]. rewrite H. reflexivity.
Qed.

Theorem set_broken d p v before q new : wf_doc d = true -> p <> [] -> opens d p v before -> broken v q ->
  Set_ (before ++ q) new p = Fail (Some (before ++ q)) (EBadJSON (length before)).
Proof.
  intros Hw Hp Ho Hb. pose proof (core_broken d p v before q Hw Hp Ho Hb) as H.
  unfold Set_. destruct p as [|x p]; [congruence|]. rewrite H. reflexivity.
Qed.

(** ** Type tests: the first byte is enough *)
Lemma start_over d p v before rest : wf_doc d = true -> p <> [] -> opens d p v before ->
  start_of (before ++ hd 0 (render v) :: rest) p = Ok (length before).
Proof.
  intros Hw Hp Ho. destruct (core_over d p v before Hw Hp Ho) as (ks & H & _ & _).
  unfold start_of. destruct p as [|x p]; [congruence|]. rewrite H. reflexivity.
Qed.

Lemma type_over d p v before rest control eq : wf_doc d = true -> p <> [] -> opens d p v before ->
  typeControlCore (before ++ hd 0 (render v) :: rest) control eq p =
  Ok (if match control with [] => false | _ => existsb (N.eqb (hd 0 (render v))) control end then eq else negb eq, length before).
Proof.
  intros Hw Hp Ho. pose proof (opens_before _ _ _ _ Ho Hp) as Hl. unfold typeControlCore.
  destruct (before ++ hd 0 (render v) :: rest) as [|c0 r0] eqn:E; [destruct before; discriminate|]. rewrite <- E. clear E.
  rewrite (start_over d p v before rest Hw Hp Ho). cbn [bind]. rewrite at_app.
  destruct control; cbn [bind existsb]; [reflexivity|].
  destruct ((hd 0 (render v) =? n) || existsb (N.eqb (hd 0 (render v))) control); reflexivity.
Qed.

Theorem is_array_over d p v before rest : wf_doc d = true -> p <> [] -> opens d p v before ->
  IsArray (before ++ hd 0 (render v) :: rest) p = Ok (is_arr v) /\
  IsObject (before ++ hd 0 (render v) :: rest) p = Ok (container v) /\
  IsValue (before ++ hd 0 (render v) :: rest) p = Ok (negb (container v)).
Proof.
  intros Hw Hp Ho. pose proof (opens_wf _ _ _ _ Hw Ho) as Hv.
  destruct (render_cons v Hv) as (c & r & E & _). destruct (render_first v c r Hv E) as (E1 & E2 & E3).
  pose proof (container_first v c r Hv E) as E4.
  unfold IsArray, IsObject, IsValue. rewrite !(type_over d p v before rest) by assumption. rewrite E. cbn [hd bind existsb].
  rewrite orb_false_r, E1, E2. split; [destruct (is_arr v); reflexivity|].
  destruct v; split; reflexivity.
Qed.

Theorem get_type_over pf d p v before rest : wf_doc d = true -> p <> [] -> opens d p v before -> over v rest ->
  GetType pf (before ++ render v ++ rest) p =
  Ok (match v with
      | JArr _ _ => TArray | JObj _ _ => TObject | JString _ => TString
      | JScalar s => token_type pf s
      end).
Proof.
  intros Hw Hp Ho Hr. pose proof (opens_wf _ _ _ _ Hw Ho) as Hv.
  pose proof (get_over d p v before rest Hw Hp Ho Hr) as Hg.
  destruct (render_cons v Hv) as (c & r & E & _). destruct (render_first v c r Hv E) as (E1 & E2 & E3).
  unfold GetType. pose proof (type_over d p v before (r ++ rest) [] false Hw Hp Ho) as Ht.
  rewrite E in Ht, Hg |- *. cbn [hd app] in *. rewrite Ht. cbn [bind]. rewrite at_app. cbn [bind]. rewrite E1, E2, E3.
  destruct v as [s|s|w els|w ms]; cbn [is_arr is_obj is_str]; try reflexivity.
  unfold GetString. rewrite Hg. cbn [bind bare render]. cbn [render] in E.
  unfold token_type, atoi. destruct (bytes_eqb s (b "true") || bytes_eqb s (b "false")); [reflexivity|].
  destruct (bytes_eqb s (b "null")); [reflexivity|]. destruct (parse_int 64 s); [reflexivity|]. destruct (pf s); reflexivity.
Qed.

(** ** Length *)
Lemma longer d p v before rest : wf_doc d = true -> p <> [] -> opens d p v before -> container v = true ->
  (2 < length (before ++ render v ++ rest))%nat.
Proof.
  intros Hw Hp Ho Hc. pose proof (opens_before _ _ _ _ Ho Hp) as Hl.
  rewrite (render_parts v Hc). rewrite app_length. cbn [app length]. rewrite !app_length. cbn [length]. lia.
Qed.

Lemma not_lit (j : bytes) x y : (2 < length j)%nat -> bytes_eqb j [x; y] = false.
Proof. destruct j as [|a [|c [|]]]; cbn; try lia; intros _; rewrite ?andb_false_r; reflexivity. Qed.

Theorem length_over d p v before rest : wf_doc d = true -> p <> [] -> opens d p v before -> container v = true ->
  Length (before ++ render v ++ rest) p = Ok (size v).
Proof.
  intros Hw Hp Ho Hc. pose proof (opens_wf _ _ _ _ Hw Ho) as Hv.
  pose proof (longer d p v before rest Hw Hp Ho Hc) as Hl.
  destruct (core_over d p v before Hw Hp Ho) as (ks & _ & _ & H).
  assert (Hr : over v rest) by (destruct v; try discriminate Hc; exact I).
  unfold Length. change (b "[]") with [91; 93]. change (b "{}") with [123; 125]. rewrite !not_lit by exact Hl. cbn [orb].
  unfold getStartEnd. rewrite (proj2 (Nat.ltb_ge _ _)) by lia.
  destruct p as [|x p]; [congruence|]. rewrite (H rest Hr). cbn [bind].
  replace (length before + qoff v)%nat with (length before) by (destruct v; try discriminate Hc; cbn [qoff]; lia).
  replace (bare v) with (render v) by (destruct v; try discriminate Hc; reflexivity).
  replace (length before + length (render v) - length before)%nat with (length (render v)) by lia.
  rewrite skipn_length_app. rewrite firstn_app_eq by reflexivity. rewrite (render_parts v Hc) at 2.
  rewrite (count_value (before ++ render v ++ rest) before v [closing v] rest Hv Hc eq_refl) by (right; reflexivity).
  assert (Hlr : length (render v) = S (S (length (inner_ws v ++ join (parts v))))).
  { rewrite (render_parts v Hc). cbn [length]. rewrite !app_length. cbn [length]. lia. }
  rewrite (interior (before ++ render v ++ rest) before v rest) by (try assumption; try reflexivity; lia).
  replace (pred (length before + length (render v)) - S (length before))%nat with (length (inner_ws v ++ join (parts v))) by lia.
  rewrite firstn_all, forallb_space, blank_inner by assumption.
  destruct (size v) as [|[|n]] eqn:Es; reflexivity.
Qed.

(** ** Listing and iteration: the loops stop at the closing bracket *)
Lemma at_first before v rest c r : render v = c :: r -> at_ (before ++ render v ++ rest) (length before) = Ok c.
Proof. intros ->. apply at_app. Qed.

Lemma start_full d p v before rest : wf_doc d = true -> p <> [] -> opens d p v before ->
  start_of (before ++ render v ++ rest) p = Ok (length before).
Proof.
  intros Hw Hp Ho. pose proof (opens_wf _ _ _ _ Hw Ho) as Hv. destruct (render_cons v Hv) as (c & r & E & _).
  pose proof (start_over d p v before (r ++ rest) Hw Hp Ho) as H. rewrite E in *. exact H.
Qed.

Theorem get_keys_over d p w ms before rest : wf_doc d = true -> p <> [] -> opens d p (JObj w ms) before ->
  GetKeys (before ++ render (JObj w ms) ++ rest) p = Ok (keys ms).
Proof.
  intros Hw Hp Ho. pose proof (opens_wf _ _ _ _ Hw Ho) as Hwa.
  pose proof (longer d p (JObj w ms) before rest Hw Hp Ho eq_refl) as Hl.
  unfold GetKeys. change (b "{}") with [123; 125]. rewrite not_lit by exact Hl.
  rewrite (start_full d p _ before rest Hw Hp Ho). cbn [bind].
  rewrite (at_first before (JObj w ms) rest 123 (w ++ join (map mem_text ms) ++ [125]) eq_refl).
  cbn [bind]. change (123 =? 123) with true. cbv beta iota. rewrite skipn_length_app.
  set (J := before ++ render (JObj w ms) ++ rest).
  assert (Ht : J = before ++ (123 :: w ++ join (map mem_text ms) ++ [125]) ++ rest) by (unfold J; rewrite render_obj; reflexivity).
  rewrite render_obj. cbn [app keys_loop]. change (123 =? 34) with false. change (is_open 123) with true. cbv beta iota.
  rewrite <- length_snoc with (c := 123). rewrite wf_obj in Hwa. nbool.
  replace ((w ++ join (map mem_text ms) ++ [125]) ++ rest) with (w ++ join (map mem_text ms) ++ 125 :: rest) by same_text.
  rewrite (ws_exact J _ (fun r i q l e => keys_loop J r i l (fst e) (snd e) q)) with (e := (O, O)) (w := w).
  - cbn [fst snd]. apply keys_run; [assumption| |].
    + apply nobs_ws; [apply nobs_snoc; discriminate|assumption].
    + rewrite Ht. same_text.
  - intros pre0 c r0 l0 e HH Hpl. cbn [keys_loop]. pose proof Hpl as H'. apply plain_neq in H'.
    rewrite (plain_not_open _ Hpl), (plain_not_close _ Hpl), !eqb_false by tauto. reflexivity.
  - assumption.
  - rewrite Ht. same_text.
Qed.

Lemma get_values_listed_over d p w ms before rest : wf_doc d = true -> p <> [] -> opens d p (JObj w ms) before -> ms <> [] ->
  GetValues (before ++ render (JObj w ms) ++ rest) p = Ok (listed_values ms) /\
  GetKeysValues (before ++ render (JObj w ms) ++ rest) p = Ok (keys ms, listed_values ms).
Proof.
  intros Hw Hp Ho Hne. pose proof (opens_wf _ _ _ _ Hw Ho) as Hwa.
  pose proof (longer d p (JObj w ms) before rest Hw Hp Ho eq_refl) as Hl.
  assert (Hm : absorb_m w ms <> []) by (destruct ms; [contradiction|discriminate]).
  pose proof (absorb_m_ok w ms Hwa) as Hok.
  assert (Ht : before ++ render (JObj w ms) ++ rest = (before ++ [123]) ++ join (map mem_text (absorb_m w ms)) ++ 125 :: rest).
  { rewrite render_obj, <- join_absorb_m by assumption. same_text. }
  unfold GetValues, GetKeysValues. change (b "{}") with [123; 125]. rewrite not_lit by exact Hl.
  rewrite (start_full d p _ before rest Hw Hp Ho). cbn [bind].
  rewrite (at_first before (JObj w ms) rest 123 (w ++ join (map mem_text ms) ++ [125]) eq_refl).
  cbn [bind]. change (123 =? 123) with true. cbv beta iota. rewrite skipn_length_app.
  set (J := before ++ render (JObj w ms) ++ rest) in *.
  rewrite render_obj. cbn [app].
  replace ((w ++ join (map mem_text ms) ++ [125]) ++ rest) with (join (map mem_text (absorb_m w ms)) ++ 125 :: rest)
    by (rewrite <- join_absorb_m by assumption; same_text).
  cbn [values_loop kvs_loop]. change (123 =? 34) with false. change (is_open 123) with true. cbv beta iota.
  rewrite <- (listed_values_absorb w ms), <- (keys_absorb w ms).
  rewrite <- (length_snoc before 123). split.
  - apply values_run; try assumption. apply nobs_snoc. discriminate.
  - apply kvs_run; try assumption. apply nobs_snoc. discriminate.
Qed.

Lemma iterate_kv_listed_over {St} (cb : St -> bytes -> bytes -> St * (bool * option err)) d p w ms before rest s :
  wf_doc d = true -> p <> [] -> opens d p (JObj w ms) before -> ms <> [] ->
  IterateKeyValue (before ++ render (JObj w ms) ++ rest) cb p s =
  IDone (fst (visit (uncurry2 cb) (shown_pairs ms) s)) (snd (visit (uncurry2 cb) (removelast (shown_pairs ms)) s)).
Proof.
  intros Hw Hp Ho Hne. pose proof (opens_wf _ _ _ _ Hw Ho) as Hwa.
  pose proof (longer d p (JObj w ms) before rest Hw Hp Ho eq_refl) as Hl.
  assert (Hm : absorb_m w ms <> []) by (destruct ms; [contradiction|discriminate]).
  pose proof (absorb_m_ok w ms Hwa) as Hok.
  assert (Ht : before ++ render (JObj w ms) ++ rest = (before ++ [123]) ++ join (map mem_text (absorb_m w ms)) ++ 125 :: rest).
  { rewrite render_obj, <- join_absorb_m by assumption. same_text. }
  unfold IterateKeyValue. change (b "{}") with [123; 125]. rewrite not_lit by exact Hl.
  rewrite (start_full d p _ before rest Hw Hp Ho). cbn [ibind].
  rewrite (at_first before (JObj w ms) rest 123 (w ++ join (map mem_text ms) ++ [125]) eq_refl).
  cbn [ibind]. change (123 =? 123) with true. cbv beta iota. rewrite skipn_length_app.
  set (J := before ++ render (JObj w ms) ++ rest) in *.
  rewrite render_obj. cbn [app].
  replace ((w ++ join (map mem_text ms) ++ [125]) ++ rest) with (join (map mem_text (absorb_m w ms)) ++ 125 :: rest)
    by (rewrite <- join_absorb_m by assumption; same_text).
  cbn [iter_kv]. change (123 =? 34) with false. change (is_open 123) with true. cbv beta iota.
  replace (shown_pairs ms) with (shown_pairs (absorb_m w ms)) by (destruct ms as [|? [|]]; reflexivity).
  rewrite <- (length_snoc before 123).
  apply iter_kv_run; try assumption. apply nobs_snoc. discriminate.
Qed.

Lemma iterate_array_enter_over {St} (cb : St -> bytes -> St * (bool * option err)) d p w els before rest s :
  wf_doc d = true -> p <> [] -> opens d p (JArr w els) before ->
  let J := before ++ render (JArr w els) ++ rest in
  IterateArray J cb p s =
  iter_arr J (closes J) cb (w ++ join (map elem_text els) ++ 93 :: rest) (S (length before)) (S (length before)) 1 false s.
Proof.
  intros Hw Hp Ho J. pose proof (opens_wf _ _ _ _ Hw Ho) as Hwa.
  pose proof (longer d p (JArr w els) before rest Hw Hp Ho eq_refl) as Hl. fold J in Hl.
  unfold IterateArray. rewrite (proj2 (Nat.ltb_ge _ _)) by lia. rewrite (proj2 (Nat.eqb_neq _ _)) by lia.
  pose proof (start_full d p _ before rest Hw Hp Ho) as Hs. fold J in Hs.
  destruct p as [|x p]; [congruence|]. cbn [start_of] in Hs. rewrite Hs. cbn [ibind].
  unfold J at 1. rewrite (at_first before (JArr w els) rest 91 (w ++ join (map elem_text els) ++ [93]) eq_refl).
  cbn [ibind]. change (91 =? 91) with true. cbv beta iota.
  replace (skipn (S (length before)) J) with (w ++ join (map elem_text els) ++ 93 :: rest).
  2:{ symmetry. unfold J. rewrite render_arr.
      replace (before ++ (91 :: w ++ join (map elem_text els) ++ [93]) ++ rest)
        with ((before ++ [91]) ++ w ++ join (map elem_text els) ++ 93 :: rest) by same_text.
      apply skipn_app_eq. rewrite length_snoc. reflexivity. }
  apply iter_arr_ext; [|right; split; [lia|reflexivity]].
  intros j Hj. destruct Ho as (pre & post & Hf & Hb).
  pose proof (text_focus _ _ _ _ _ Hf) as Htd.
  assert (Hx : exists c0 c1 r r', text d = c0 :: c1 :: r /\ J = c0 :: c1 :: r').
  { unfold J. rewrite Htd, Hb. rewrite render_arr. destruct (d_pre d ++ pre) as [|c0 [|c1 q]] eqn:Eq.
    - exfalso. destruct (focus_pre_open _ _ _ _ _ Hf Hp) as [_ E]. rewrite E in Eq. destruct (d_pre d); discriminate.
    - do 4 eexists. split; reflexivity.
    - do 4 eexists. split; reflexivity. }
  destruct Hx as (c0 & c1 & r & r' & E1 & E2). rewrite E2. apply closes1_closes; [|exact Hj].
  apply (text_second d c0 c1 r Hw); [|exact E1]. eapply focus_container; [exact Hf|reflexivity].
Qed.

Lemma iterate_array_items_over {St} (cb : St -> bytes -> St * (bool * option err)) d p w els before rest s :
  wf_doc d = true -> p <> [] -> opens d p (JArr w els) before -> els <> [] ->
  IterateArray (before ++ render (JArr w els) ++ rest) cb p s =
  IDone (fst (visit cb (items els) s)) (snd (visit cb (items els) s)).
Proof.
  intros Hw Hp Ho Hne. pose proof (opens_wf _ _ _ _ Hw Ho) as Hwa.
  assert (Ht : before ++ render (JArr w els) ++ rest = (before ++ [91]) ++ join (map elem_text (absorb_e w els)) ++ 93 :: rest).
  { rewrite render_arr, <- join_absorb_e by assumption. same_text. }
  rewrite (iterate_array_enter_over cb d p w els before rest s Hw Hp Ho).
  replace (w ++ join (map elem_text els) ++ 93 :: rest) with (join (map elem_text (absorb_e w els)) ++ 93 :: rest)
    by (rewrite <- join_absorb_e by assumption; same_text).
  rewrite <- (items_absorb w els), <- length_snoc with (c := 91).
  rewrite iter_arr_run with (post := rest).
  - unfold idone. destruct (visit cb (items (absorb_e w els)) s). reflexivity.
  - destruct els; [contradiction|discriminate].
  - apply absorb_e_ok. exact Hwa.
  - apply nobs_snoc. discriminate.
  - exact Ht.
Qed.

(** ** IsEmpty *)
Theorem is_empty_over d p v before rest : wf_doc d = true -> p <> [] -> opens d p v before -> container v = true ->
  IsEmpty (before ++ render v ++ rest) p = Ok ((size v =? 0)%nat || lone v).
Proof.
  intros Hw Hp Ho Hc. pose proof (opens_wf _ _ _ _ Hw Ho) as Hv.
  pose proof (longer d p v before rest Hw Hp Ho Hc) as Hl.
  destruct (core_over d p v before Hw Hp Ho) as (ks & _ & _ & H).
  assert (Hr : over v rest) by (destruct v; try discriminate Hc; exact I). specialize (H rest Hr).
  replace (length before + qoff v)%nat with (length before) in H by (destruct v; try discriminate Hc; cbn [qoff]; lia).
  replace (bare v) with (render v) in H by (destruct v; try discriminate Hc; reflexivity).
  remember (before ++ render v ++ rest) as J eqn:HJ.
  unfold IsEmpty. destruct J as [|c0 r0] eqn:Et; [cbn in Hl; lia|]. rewrite <- Et in *. clear Et c0 r0.
  destruct p as [|x p]; [congruence|]. rewrite H. cbn [bind].
  assert (Ht : J = before ++ opening v :: (inner_ws v ++ join (parts v)) ++ closing v :: rest).
  { rewrite HJ, (render_parts v Hc). same_text. }
  assert (Ha : at_ J (length before) = Ok (opening v)) by (rewrite Ht; apply at_app).
  rewrite Ha. cbn [bind].
  assert (Hlr : length (render v) = S (S (length (inner_ws v ++ join (parts v))))).
  { rewrite (render_parts v Hc). cbn [length]. rewrite !app_length. cbn [length]. lia. }
  rewrite (at_app_eq _ (before ++ opening v :: inner_ws v ++ join (parts v)) (closing v) rest).
  - cbn [bind].
    assert (Hoc : is_open (opening v) = true /\ (opening v + 2 =? closing v) = true) by (destruct v; split; reflexivity).
    destruct Hoc as [-> ->].
    rewrite (interior J before v rest) by (try assumption; lia).
    replace (pred (pred (length before + length (render v))) - S (length before))%nat
      with (pred (length (inner_ws v ++ join (parts v)))) by lia.
    rewrite firstn_removelast, forallb_space, blank_inner_short by assumption. reflexivity.
  - rewrite Ht. same_text.
  - rewrite Hlr. len.
Qed.

(** ** The typed getters see nothing but what Get returns *)
Theorem typed_over d p v before rest : wf_doc d = true -> p <> [] -> opens d p v before -> over v rest ->
  let J := before ++ render v ++ rest in
  GetString J p = GetString (text d) p /\ GetInt J p = GetInt (text d) p /\ GetBool J p = GetBool (text d) p /\
  GetStringArray J p = GetStringArray (text d) p /\ GetIntArray J p = GetIntArray (text d) p /\
  GetBoolArray J p = GetBoolArray (text d) p /\
  forall (F : Type) (pf : bytes -> option F),
    GetFloat pf J p = GetFloat pf (text d) p /\ GetFloatArray pf J p = GetFloatArray pf (text d) p.
Proof.
  intros Hw Hp Ho Hr J.
  assert (Hg : GetString J p = GetString (text d) p).
  { unfold GetString, J. rewrite (get_over d p v before rest Hw Hp Ho Hr). destruct Ho as (pre & post & Hf & _).
    rewrite (get_present d p v Hw Hp (focus_lookup _ _ _ _ _ Hf)). destruct v; reflexivity. }
  unfold GetInt, GetBool, GetStringArray, GetIntArray, GetBoolArray, GetFloat, GetFloatArray. rewrite Hg. auto 10.
Qed.

Theorem both_broken d p v before q : wf_doc d = true -> p <> [] -> opens d p v before -> broken v q ->
  Get (before ++ q) p = Err (EBadJSON (length before)) /\
  forall new, Set_ (before ++ q) new p = Fail (Some (before ++ q)) (EBadJSON (length before)).
Proof.
  intros Hw Hp Ho Hb. split; [exact (get_broken d p v before q Hw Hp Ho Hb)|].
  intro new. exact (set_broken d p v before q new Hw Hp Ho Hb).
Qed.

(** ** Empty containers *)
Lemma get_values_empty_over d p w before rest : wf_doc d = true -> p <> [] -> opens d p (JObj w []) before ->
  GetValues (before ++ render (JObj w []) ++ rest) p = Ok [123 :: firstn 1 w] /\
  GetKeysValues (before ++ render (JObj w []) ++ rest) p = Ok ([], [123 :: firstn 1 w]).
Proof.
  intros Hw Hp Ho. pose proof (opens_wf _ _ _ _ Hw Ho) as Hwa.
  pose proof (longer d p (JObj w []) before rest Hw Hp Ho eq_refl) as Hl.
  rewrite wf_obj in Hwa. nbool.
  unfold GetValues, GetKeysValues. change (b "{}") with [123; 125]. rewrite not_lit by exact Hl.
  rewrite (start_full d p _ before rest Hw Hp Ho). cbn [bind].
  rewrite (at_first before (JObj w []) rest 123 (w ++ [125]) eq_refl).
  cbn [bind]. change (123 =? 123) with true. cbv beta iota. rewrite skipn_length_app.
  remember (before ++ render (JObj w []) ++ rest) as J eqn:Ht.
  rewrite render_obj in *. cbn [map join app] in *.
  replace ((w ++ [125]) ++ rest) with (w ++ 125 :: rest) in * by same_text.
  cbn [values_loop kvs_loop]. change (123 =? 34) with false. change (is_open 123) with true. cbv beta iota.
  rewrite <- length_snoc with (c := 123).
  assert (Hs : slice J (length before) (length ((before ++ [123]) ++ w)) = Ok (123 :: w)).
  { rewrite (slice_app_eq _ before (123 :: w) (125 :: rest)); [reflexivity|rewrite Ht; same_text|reflexivity|len]. }
  split.
  - rewrite (ws_exact J _ (fun r i q l (_ : nat * nat) => values_loop J r i (length before) l q)) with (w := w); [| |exact (O, O)| |].
    + cbn [values_loop]. change (125 =? 34) with false. change (is_open 125) with false. change (is_close 125) with true.
      cbn [Nat.eqb]. rewrite Hs. cbn [bind]. rewrite clean_open by (try assumption; try discriminate; reflexivity). reflexivity.
    + intros pre0 c r0 l0 e HH Hpl. cbn [values_loop]. pose proof Hpl as H'. apply plain_neq in H'.
      rewrite (plain_not_open _ Hpl), (plain_not_close _ Hpl), !eqb_false by tauto. reflexivity.
    + assumption.
    + rewrite Ht. same_text.
  - rewrite (ws_exact J _ (fun r i q l e => kvs_loop J r i (length before) l (fst e) (snd e) q)) with (e := (O, O)) (w := w).
    + cbn [kvs_loop fst snd]. change (125 =? 34) with false. change (is_open 125) with false. change (is_close 125) with true.
      cbn [Nat.eqb]. rewrite Hs. cbn [bind]. rewrite clean_open by (try assumption; try discriminate; reflexivity). reflexivity.
    + intros pre0 c r0 l0 e HH Hpl. cbn [kvs_loop]. pose proof Hpl as H'. apply plain_neq in H'.
      rewrite (plain_not_open _ Hpl), (plain_not_close _ Hpl), !eqb_false by tauto. reflexivity.
    + assumption.
    + rewrite Ht. same_text.
Qed.

Lemma iterate_kv_empty_over {St} (cb : St -> bytes -> bytes -> St * (bool * option err)) d p w before rest s :
  wf_doc d = true -> p <> [] -> opens d p (JObj w []) before ->
  IterateKeyValue (before ++ render (JObj w []) ++ rest) cb p s = IDone (fst (cb s [] [123])) None.
Proof.
  intros Hw Hp Ho. pose proof (opens_wf _ _ _ _ Hw Ho) as Hwa.
  pose proof (longer d p (JObj w []) before rest Hw Hp Ho eq_refl) as Hl.
  rewrite wf_obj in Hwa. nbool.
  unfold IterateKeyValue. change (b "{}") with [123; 125]. rewrite not_lit by exact Hl.
  rewrite (start_full d p _ before rest Hw Hp Ho). cbn [ibind].
  rewrite (at_first before (JObj w []) rest 123 (w ++ [125]) eq_refl).
  cbn [ibind]. change (123 =? 123) with true. cbv beta iota. rewrite skipn_length_app.
  remember (before ++ render (JObj w []) ++ rest) as J eqn:Hj.
  rewrite render_obj in *. cbn [map join app] in *.
  replace ((w ++ [125]) ++ rest) with (w ++ 125 :: rest) in * by same_text.
  cbn [iter_kv]. change (123 =? 34) with false. change (is_open 123) with true. cbv beta iota.
  rewrite <- length_snoc with (c := 123).
  rewrite (ws_exact J _ (fun r i inq l e => iter_kv J cb r i (length before) 0 l (fst e) (snd e) inq [] s)) with (e := (O, O)) (w := w).
  - cbn [iter_kv fst snd]. change (125 =? 34) with false. change (is_open 125) with false. change (is_close 125) with true.
    change (125 =? 125) with true. cbn [Nat.eqb andb].
    assert (N1 : nth (length before) J 0 = 123) by (rewrite Hj; apply nth_at).
    rewrite fwd_trim_at; [|len|rewrite N1; reflexivity].
    assert (Hb : back_trim J (length before) (length ((before ++ [123]) ++ w)) 0 = length before).
    { unfold back_trim. rewrite (find_last _ _ _ O); [apply Nat.add_0_r|len| |].
      - intros j Hjj. rewrite Hj. replace (before ++ 123 :: w ++ 125 :: rest) with ((before ++ [123]) ++ w ++ 125 :: rest) by same_text.
        replace (length before + j)%nat with (length (before ++ [123%N]) + (j - 1))%nat by len. apply nth_ws; [assumption|]. revert Hjj. len.
      - rewrite Nat.add_0_r, N1. reflexivity. }
    rewrite Hb. unfold kv_value. rewrite (at_app_eq _ before 123 (w ++ 125 :: rest) _ Hj eq_refl). cbn [bind].
    change (123 =? 34) with false. cbv beta iota.
    rewrite (slice_app_eq _ before [123] (w ++ 125 :: rest)); [reflexivity|exact Hj|reflexivity|len].
  - intros pre0 c r0 l0 e HH Hpl. cbn [iter_kv]. pose proof Hpl as H'. apply plain_neq in H'.
    rewrite (plain_not_open _ Hpl), (plain_not_close _ Hpl), !eqb_false by tauto. rewrite !andb_false_r. reflexivity.
  - assumption.
  - rewrite Hj. same_text.
Qed.

Lemma iterate_array_empty_over {St} (cb : St -> bytes -> St * (bool * option err)) d p w before rest s :
  wf_doc d = true -> p <> [] -> opens d p (JArr w []) before ->
  IterateArray (before ++ render (JArr w []) ++ rest) cb p s =
  IDone (fst (cb s (skipn (pred (length w)) w))) (snd (snd (cb s (skipn (pred (length w)) w)))).
Proof.
  intros Hw Hp Ho. pose proof (opens_wf _ _ _ _ Hw Ho) as Hwa.
  rewrite (iterate_array_enter_over cb d p w [] before rest s Hw Hp Ho).
  rewrite wf_arr in Hwa. nbool. rewrite render_arr. cbn [map join app].
  remember (before ++ 91 :: (w ++ [93]) ++ rest) as J eqn:Ht.
  destruct (Skips_ws J _ _ _ _ (iter_arr_scan cb J (S (length before)) s) 0 w H
              (before ++ [91]) (93 :: rest) 1%nat tt) as [_ [e' Es]].
  { rewrite Ht. same_text. }
  { apply nobs_snoc. discriminate. }
  { lia. }
  rewrite length_snoc in Es. rewrite Es. cbn -[Nat.eqb cleanValue slice]. cbn [Nat.eqb].
  rewrite (slice_app_eq _ (before ++ [91]) w (93 :: rest)); [|rewrite Ht; same_text|len|len].
  cbn [ibind]. rewrite (clean_value_ws w H). cbn [ibind]. destruct (cb s (skipn (pred (length w)) w)) as [s' [g e]]. reflexivity.
Qed.

(** ** All objects and arrays *)
Theorem get_values_over d p w ms before rest : wf_doc d = true -> p <> [] -> opens d p (JObj w ms) before ->
  GetValues (before ++ render (JObj w ms) ++ rest) p = Ok (match ms with [] => [123 :: firstn 1 w] | _ => listed_values ms end) /\
  GetKeysValues (before ++ render (JObj w ms) ++ rest) p =
    Ok (keys ms, match ms with [] => [123 :: firstn 1 w] | _ => listed_values ms end).
Proof.
  intros Hw Hp Ho. destruct ms as [|m l]; [apply (get_values_empty_over d); assumption|].
  apply (get_values_listed_over d); try assumption. discriminate.
Qed.

Theorem iterate_kv_over {St} (cb : St -> bytes -> bytes -> St * (bool * option err)) d p w ms before rest s :
  wf_doc d = true -> p <> [] -> opens d p (JObj w ms) before ->
  IterateKeyValue (before ++ render (JObj w ms) ++ rest) cb p s =
  IDone (fst (visit (uncurry2 cb) (object_pairs ms) s)) (snd (visit (uncurry2 cb) (removelast (object_pairs ms)) s)).
Proof.
  intros Hw Hp Ho. destruct ms as [|m l].
  - rewrite (iterate_kv_empty_over cb d p w before rest s Hw Hp Ho).
    cbn [object_pairs removelast visit uncurry2 fst snd]. unfold uncurry2. cbn [fst snd].
    destruct (cb s [] [123]) as [s' [go [er|]]]; [reflexivity|]. destruct go; reflexivity.
  - rewrite (iterate_kv_listed_over cb d p w (m :: l) before rest s Hw Hp Ho) by discriminate. reflexivity.
Qed.

Theorem iterate_array_over {St} (cb : St -> bytes -> St * (bool * option err)) d p w els before rest s :
  wf_doc d = true -> p <> [] -> opens d p (JArr w els) before ->
  IterateArray (before ++ render (JArr w els) ++ rest) cb p s =
  IDone (fst (visit cb (array_items w els) s)) (snd (visit cb (array_items w els) s)).
Proof.
  intros Hw Hp Ho. destruct els as [|x l].
  - rewrite (iterate_array_empty_over cb d p w before rest s Hw Hp Ho). cbn [array_items visit].
    destruct (cb s (skipn (pred (length w)) w)) as [s' [go [er|]]]; [reflexivity|]. destruct go; reflexivity.
  - rewrite (iterate_array_items_over cb d p w (x :: l) before rest s Hw Hp Ho) by discriminate. reflexivity.
Qed.
