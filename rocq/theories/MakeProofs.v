(** Facts about the Make functions and the Scheme methods. *)
From Coq Require Import String.
From Verif Require Import GoStd Json Spec Core Skip Focus CoreProofs CoreNeg Errors Api SpecProofs ApiProofs Parse Domains Updates
  History Rfc RfcProofs Iter SpecIter IterProofs IterObj IterMisc Split Typed TypedProofs Make.

Local Open Scope N_scope.

(** ** The common body *)
Lemma build_nil opn cls : build opn cls [] = [cls].
Proof. reflexivity. Qed.

Lemma removelast_commas opn items : items <> [] ->
  removelast (opn :: concat (map (fun i => i ++ [44]) items)) = opn :: join items.
Proof.
  intro H. assert (E : concat (map (fun i => i ++ [44]) items) = join items ++ [44]).
  { clear opn. induction items as [|i r IH]; [contradiction|]. cbn [map concat]. destruct r as [|j r].
    - cbn. rewrite app_nil_r. reflexivity.
    - rewrite IH by discriminate. change (join (i :: j :: r)) with (i ++ 44 :: join (j :: r)). same_text. }
  rewrite E. change (opn :: join items ++ [44]) with ((opn :: join items) ++ [44]). apply removelast_last.
Qed.

Lemma build_join opn cls items : items <> [] -> build opn cls items = opn :: join items ++ [cls].
Proof. intro H. unfold build. rewrite removelast_commas by exact H. reflexivity. Qed.

Definition bare_elem (v : jv) : elem jv := Elem [] v [].
Definition arr_of (vs : list jv) : jv := JArr [] (map bare_elem vs).
Definition obj_of (kvs : list (bytes * jv)) : jv := JObj [] (map (fun kv => new_mem (fst kv) (snd kv)) kvs).

Lemma build_arr vs : vs <> [] -> build 91 93 (map render vs) = render (arr_of vs).
Proof.
  intro H. rewrite build_join by (destruct vs; [contradiction|discriminate]). unfold arr_of. rewrite render_arr, map_map. cbn [app].
  f_equal. f_equal. f_equal. apply map_ext. intro v. unfold elem_text. cbn. rewrite app_nil_r. reflexivity.
Qed.

Lemma build_obj kvs : kvs <> [] ->
  build 123 125 (map (fun kv => 34 :: fst kv ++ 34 :: 58 :: render (snd kv)) kvs) = render (obj_of kvs).
Proof.
  intro H. rewrite build_join by (destruct kvs; [contradiction|discriminate]). unfold obj_of. rewrite render_obj, map_map. cbn [app].
  f_equal. f_equal. f_equal. apply map_ext. intros [k v]. unfold mem_text. cbn. rewrite app_nil_r. reflexivity.
Qed.

Lemma arr_of_wf vs : Forall (fun v => wf v = true) vs -> wf (arr_of vs) = true.
Proof.
  intro H. unfold arr_of. rewrite wf_arr. cbn [ws_ok forallb andb]. rewrite forallb_map, forallb_forall. rewrite Forall_forall in H.
  intros v Hv. unfold elem_ok. cbn. rewrite (H v Hv). reflexivity.
Qed.
Lemma obj_of_wf kvs : Forall (fun kv => str_ok (fst kv) = true /\ wf (snd kv) = true) kvs -> wf (obj_of kvs) = true.
Proof.
  intro H. unfold obj_of. rewrite wf_obj. cbn [ws_ok forallb andb]. rewrite forallb_map, forallb_forall. rewrite Forall_forall in H.
  intros v Hv. unfold mem_ok. cbn. destruct (H v Hv) as [-> ->]. reflexivity.
Qed.
Lemma arr_of_content vs : content (arr_of vs) = DArr (map content vs).
Proof. unfold arr_of. cbn [content]. rewrite map_map. reflexivity. Qed.
Lemma obj_of_content kvs : content (obj_of kvs) = DObj (map (fun kv => (fst kv, content (snd kv))) kvs).
Proof. unfold obj_of. cbn [content]. rewrite map_map. reflexivity. Qed.

Definition root (v : jv) : doc := Doc [] v [].
Lemma root_text v : text (root v) = render v.
Proof. unfold text, root. cbn. apply app_nil_r. Qed.
Lemma root_wf v : wf v = true -> wf_doc (root v) = true.
Proof. intro H. unfold wf_doc, root. cbn. rewrite H. reflexivity. Qed.

Lemma denotes_root v : wf v = true -> denotes (render v) (content v).
Proof. intro H. exists (root v). split; [apply root_wf; exact H|]. split; [apply root_text|reflexivity]. Qed.

Lemma build_arr_denotes vs : Forall (fun v => wf v = true) vs -> vs <> [] ->
  denotes (build 91 93 (map render vs)) (DArr (map content vs)).
Proof. intros H Hne. rewrite build_arr by exact Hne. rewrite <- arr_of_content. apply denotes_root, arr_of_wf, H. Qed.

(** ** Arrays of numbers, booleans and given texts *)
Lemma itoa_token z : scalar_ok (itoa z) = true.
Proof. apply (parse_signed_token _ z), parse_signed_itoa. Qed.

Lemma itoa_wf zs : Forall (fun v => wf v = true) (map (fun z => JScalar (itoa z)) zs).
Proof. apply Forall_map, Forall_forall. intros z _. apply itoa_token. Qed.
Lemma bool_wf vs : Forall (fun v => wf v = true) (map (fun v => JScalar (bool_text v)) vs).
Proof. apply Forall_map, Forall_forall. intros [|] _; reflexivity. Qed.

Theorem make_array_int zs : zs <> [] -> denotes (MakeArrayInt (Some zs)) (DArr (map (fun z => DScalar (itoa z)) zs)).
Proof.
  intro H. pose proof (build_arr_denotes _ (itoa_wf zs)) as D. rewrite !map_map in D. apply D. destruct zs; [contradiction|discriminate].
Qed.
Theorem make_array_bool vs : vs <> [] -> denotes (MakeArrayBool (Some vs)) (DArr (map (fun v => DScalar (bool_text v)) vs)).
Proof.
  intro H. pose proof (build_arr_denotes _ (bool_wf vs)) as D. rewrite !map_map in D. apply D. destruct vs; [contradiction|discriminate].
Qed.
Theorem make_array_bytes vs : Forall (fun v => wf v = true) vs -> vs <> [] ->
  denotes (MakeArrayBytes (Some (map render vs))) (DArr (map content vs)).
Proof. apply build_arr_denotes. Qed.

(** Reading the lists back. *)
Lemma arr_of_tight vs : tight_e [] (map bare_elem vs).
Proof.
  destruct vs as [|v vs]; [exact I|]. cbn [map tight_e]. split; [right; left; reflexivity|].
  apply Forall_map, Forall_forall. intros x _. right. left. reflexivity.
Qed.
Lemma arr_of_items vs : items (map bare_elem vs) = map bare vs.
Proof. unfold items. rewrite map_map. reflexivity. Qed.
Lemma bare_elem_ne vs : vs <> [] -> map bare_elem vs <> [].
Proof. destruct vs; [contradiction|discriminate]. Qed.

Theorem int_array_round_trip zs : zs <> [] -> Forall (fun z => in_int64 z = true) zs ->
  GetIntArray (MakeArrayInt (Some zs)) [] = Ok zs.
Proof.
  intros H Hz. set (vs := map (fun z => JScalar (itoa z)) zs). assert (Hne : vs <> []) by (unfold vs; destruct zs; [contradiction|discriminate]).
  replace (MakeArrayInt (Some zs)) with (text (root (arr_of vs))).
  - eapply get_int_array; [apply root_wf, arr_of_wf, itoa_wf|right; split; reflexivity|reflexivity|apply bare_elem_ne; exact Hne|apply arr_of_tight|].
    rewrite arr_of_items. unfold vs. rewrite !map_map. apply map_ext_in. intros z Hin. rewrite Forall_forall in Hz. apply atoi_itoa, Hz, Hin.
  - rewrite root_text, <- build_arr by exact Hne. unfold vs. rewrite map_map. reflexivity.
Qed.
Theorem bool_array_round_trip bs : bs <> [] -> GetBoolArray (MakeArrayBool (Some bs)) [] = Ok bs.
Proof.
  intro H. set (vs := map (fun z => JScalar (bool_text z)) bs). assert (Hne : vs <> []) by (unfold vs; destruct bs; [contradiction|discriminate]).
  replace (MakeArrayBool (Some bs)) with (text (root (arr_of vs))).
  - eapply get_bool_array; [apply root_wf, arr_of_wf, bool_wf|right; split; reflexivity|reflexivity|apply bare_elem_ne; exact Hne|apply arr_of_tight|].
    rewrite arr_of_items. unfold vs. rewrite !map_map. apply map_ext. intros [|]; reflexivity.
  - rewrite root_text, <- build_arr by exact Hne. unfold vs. rewrite map_map. reflexivity.
Qed.

(** ** Strings *)
Lemma fit_simple pf ss : Forall (fit pf) ss -> exists vs, Forall2 (fun s v => simple v s /\ formatType pf s = render v) ss vs.
Proof.
  induction 1 as [|s ss (H1 & H2 & H3) _ (vs & IH)]; [exists []; constructor|].
  destruct (formatType_simple pf s H1 H2 H3) as (v & Hv). exists (v :: vs). constructor; assumption.
Qed.

Lemma simple_lists pf ss vs : Forall2 (fun s v => simple v s /\ formatType pf s = render v) ss vs ->
  map (formatType pf) ss = map render vs /\ Forall (fun v => wf v = true) vs /\ map bare vs = ss /\
  Forall2 written ss (map content vs).
Proof.
  induction 1 as [|s v ss vs [[Hs Hw] Hf] _ (E1 & E2 & E3 & E4)]; [repeat constructor|].
  cbn [map]. rewrite Hf, E1, E3. repeat split; [constructor; assumption| |constructor; [|exact E4]].
  - destruct Hs as [-> | ->]; reflexivity.
  - destruct Hs as [-> | ->]; [left|right]; reflexivity.
Qed.

Theorem make_array_string pf ss : ss <> [] -> Forall (fit pf) ss ->
  exists cs, denotes (MakeArrayString pf (Some ss)) (DArr cs) /\ Forall2 written ss cs.
Proof.
  intros Hne H. destruct (fit_simple pf ss H) as (vs & HF). destruct (simple_lists _ _ _ HF) as (E1 & E2 & E3 & E4).
  exists (map content vs). split; [|exact E4]. unfold MakeArrayString. rewrite E1. apply build_arr_denotes; [exact E2|].
  intros ->. cbn in E3. subst ss. contradiction.
Qed.

Theorem string_array_round_trip pf ss : ss <> [] -> Forall (fit pf) ss -> GetStringArray (MakeArrayString pf (Some ss)) [] = Ok ss.
Proof.
  intros Hne H. destruct (fit_simple pf ss H) as (vs & HF). destruct (simple_lists _ _ _ HF) as (E1 & E2 & E3 & E4).
  assert (Hvs : vs <> []) by (intros ->; cbn in E3; subst ss; contradiction).
  unfold MakeArrayString. rewrite E1, build_arr, <- root_text by exact Hvs.
  rewrite (get_string_array (root (arr_of vs)) [] [] (map bare_elem vs)); [rewrite arr_of_items, E3; reflexivity|apply root_wf, arr_of_wf, E2|right; split; reflexivity|reflexivity|apply bare_elem_ne; exact Hvs|apply arr_of_tight].
Qed.

(** ** Objects *)
Lemma combine_fst {A B} (l : list A) (l' : list B) : length l = length l' -> map fst (combine l l') = l.
Proof. revert l'. induction l as [|a l IH]; intros [|c l'] H; cbn in *; try discriminate; [reflexivity|]. f_equal. apply IH. lia. Qed.
Lemma combine_snd {A B} (l : list A) (l' : list B) : length l = length l' -> map snd (combine l l') = l'.
Proof. revert l'. induction l as [|a l IH]; intros [|c l'] H; cbn in *; try discriminate; [reflexivity|]. f_equal. apply IH. lia. Qed.

Theorem pairs_denote pf ps : ps <> [] -> Forall (fun kv => str_ok (fst kv) = true /\ fit pf (snd kv)) ps ->
  exists cs, denotes (build 123 125 (map (pair_item pf) ps)) (DObj (combine (map fst ps) cs)) /\ Forall2 written (map snd ps) cs.
Proof.
  intros Hne H.
  assert (Hfit : Forall (fit pf) (map snd ps)) by (apply Forall_map; eapply Forall_impl; [|exact H]; cbn; tauto).
  destruct (fit_simple pf _ Hfit) as (vs & HF). destruct (simple_lists _ _ _ HF) as (E1 & E2 & E3 & E4).
  assert (Hlen : length ps = length vs) by (rewrite <- (map_length snd ps), <- E3, map_length; reflexivity).
  exists (map content vs). split; [|exact E4].
  set (kvs := combine (map fst ps) vs).
  assert (Hl2 : length (map fst ps) = length vs) by (rewrite map_length; exact Hlen).
  replace (map (pair_item pf) ps) with (map (fun kv => 34 :: fst kv ++ 34 :: 58 :: render (snd kv)) kvs).
  - rewrite build_obj.
    + replace (DObj (combine (map fst ps) (map content vs))) with (content (obj_of kvs)).
      * apply denotes_root, obj_of_wf. apply Forall_forall. intros [k v] Hin. cbn [fst snd]. split.
        -- apply in_combine_l in Hin. rewrite in_map_iff in Hin. destruct Hin as ([k' s'] & <- & Hin). rewrite Forall_forall in H. apply (H _ Hin).
        -- apply in_combine_r in Hin. rewrite Forall_forall in E2. apply E2. exact Hin.
      * rewrite obj_of_content. f_equal. unfold kvs. clear. generalize (map fst ps) as ks. intro ks. revert vs.
        induction ks as [|k ks IH]; intros [|v vs]; cbn; try reflexivity. rewrite IH. reflexivity.
    + unfold kvs. intro E. destruct ps as [|p ps]; [contradiction|]. destruct vs; [discriminate Hlen|discriminate E].
  - unfold kvs. clear - E1 Hlen. revert vs E1 Hlen. induction ps as [|[k s] ps IH]; intros [|v vs] E1 Hlen; try discriminate; [reflexivity|].
    cbn [map combine fst snd] in *. injection E1 as E E1. unfold pair_item at 1. cbn [fst snd]. rewrite E. f_equal. apply IH; [exact E1|].
    cbn in Hlen. lia.
Qed.

Theorem make_json_string pf ks vs : ks <> [] -> length ks = length vs -> Forall (fun k => str_ok k = true) ks -> Forall (fit pf) vs ->
  exists t cs, MakeJsonString pf (Some ks) (Some vs) = Some t /\ denotes t (DObj (combine ks cs)) /\ Forall2 written vs cs.
Proof.
  intros Hne Hlen Hk Hv. unfold MakeJsonString. cbn [olen olist]. rewrite Hlen, Nat.eqb_refl. cbn [negb].
  destruct (pairs_denote pf (combine ks vs)) as (cs & Hd & Hw).
  - intro E. destruct ks; [contradiction|]. destruct vs; [discriminate Hlen|discriminate E].
  - apply Forall_forall. intros [k v] Hin. cbn [fst snd]. rewrite Forall_forall in Hk, Hv. split; [apply Hk; eapply in_combine_l; exact Hin|apply Hv; eapply in_combine_r; exact Hin].
  - rewrite combine_fst, combine_snd in * by exact Hlen. eexists. exists cs. split; [reflexivity|]. split; assumption.
Qed.

Theorem make_json_with_map pf ps : ps <> [] -> Forall (fun kv => str_ok (fst kv) = true /\ fit pf (snd kv)) ps ->
  exists cs, denotes (MakeJsonWithMap pf (Some ps)) (DObj (combine (map fst ps) cs)) /\ Forall2 written (map snd ps) cs.
Proof. apply pairs_denote. Qed.

(** Reading an object back. *)
Lemma denotes_get t ks cs vs k s : denotes t (DObj (combine ks cs)) -> Forall2 written vs cs -> NoDup ks -> length ks = length vs ->
  In (k, s) (combine ks vs) -> Get t [k] = Ok s.
Proof.
  intros (d & Hw & <- & Hc) HF Hnd Hlen Hin.
  assert (Ha : exists c, Spec.assoc k (combine ks cs) = Some c /\ written s c).
  { clear - HF Hnd Hlen Hin. revert vs cs HF Hlen Hin. induction ks as [|k0 ks IH]; intros vs cs HF Hlen Hin; [contradiction Hin|].
    destruct HF as [|s0 c0 vs cs Hw0 HF]; [discriminate Hlen|]. cbn [combine Spec.assoc] in *. inversion Hnd as [|? ? Hn1 Hn2]; subst.
    destruct (bytes_eqb k0 k) eqn:E.
    - apply bytes_eqb_eq in E. subst k0. exists c0. split; [reflexivity|]. destruct Hin as [Hin|Hin]; [injection Hin as <-; exact Hw0|].
      exfalso. apply Hn1. eapply in_combine_l. exact Hin.
    - destruct Hin as [Hin|Hin]; [injection Hin as <- _; rewrite (proj2 (bytes_eqb_eq k0 k0) eq_refl) in E; discriminate|].
      apply (IH Hn2 vs cs HF); [cbn in Hlen; lia|exact Hin]. }
  destruct Ha as (c & Ha & Hwr). eapply get_content; [exact Hw|discriminate| |exact Hwr].
  rewrite Hc. cbn [d_lookup d_child]. rewrite Ha. reflexivity.
Qed.

Theorem make_json_get pf ks vs t k s : ks <> [] -> length ks = length vs -> NoDup ks ->
  Forall (fun k => str_ok k = true) ks -> Forall (fit pf) vs -> MakeJsonString pf (Some ks) (Some vs) = Some t ->
  In (k, s) (combine ks vs) -> Get t [k] = Ok s.
Proof.
  intros Hne Hlen Hnd Hk Hv Ht Hin. destruct (make_json_string pf ks vs Hne Hlen Hk Hv) as (t' & cs & E & Hd & Hw).
  rewrite Ht in E. injection E as <-. eapply denotes_get; eassumption.
Qed.

(** ** Valid JSON *)
Lemma elements_join ss : ss <> [] -> Forall value ss -> elements (join ss).
Proof.
  intros Hne H. induction H as [|s ss Hs _ IH]; [contradiction|]. destruct ss as [|s' ss].
  - change (join [s]) with s. pose proof (E_last [] s [] eq_refl Hs eq_refl) as E. cbn [app] in E. rewrite app_nil_r in E. exact E.
  - change (join (s :: s' :: ss)) with (s ++ 44 :: join (s' :: ss)).
    pose proof (E_more [] s [] (join (s' :: ss)) eq_refl Hs eq_refl (IH ltac:(discriminate))) as E. cbn [app] in E. rewrite app_nil_r in E. exact E.
Qed.

Theorem make_array_valid pf ss : ss <> [] -> Forall (fun s => value (formatType pf s)) ss -> json_text (MakeArrayString pf (Some ss)).
Proof.
  intros Hne H. apply value_text_ok. unfold MakeArrayString. rewrite build_join by (destruct ss; [contradiction|discriminate]).
  apply V_array. apply elements_join; [destruct ss; [contradiction|discriminate]|]. apply Forall_map. exact H.
Qed.

Lemma member_pair pf k s : chars k = true -> value (formatType pf s) -> member (pair_item pf (k, s)).
Proof.
  intros Hk Hs. unfold pair_item. cbn [fst snd].
  pose proof (M_pair [] k [] [] _ [] eq_refl Hk eq_refl eq_refl Hs eq_refl) as M. cbn [app] in M. rewrite app_nil_r in M. exact M.
Qed.

Lemma members_join ms : ms <> [] -> Forall member ms -> members (join ms).
Proof.
  intros Hne H. induction H as [|s ss Hs _ IH]; [contradiction|]. destruct ss as [|s' ss]; [apply M_last; exact Hs|].
  change (join (s :: s' :: ss)) with (s ++ 44 :: join (s' :: ss)). apply M_more; [exact Hs|apply IH; discriminate].
Qed.

Theorem make_map_valid pf ps : ps <> [] -> Forall (fun kv => chars (fst kv) = true /\ value (formatType pf (snd kv))) ps ->
  json_text (MakeJsonWithMap pf (Some ps)).
Proof.
  intros Hne H. apply value_text_ok. unfold MakeJsonWithMap. rewrite build_join by (destruct ps; [contradiction|discriminate]).
  apply V_object. apply members_join; [destruct ps; [contradiction|discriminate]|]. apply Forall_map. eapply Forall_impl; [|exact H].
  intros [k s] [Hk Hs]. apply member_pair; assumption.
Qed.

Theorem make_json_valid pf ks vs t : ks <> [] -> Forall (fun k => chars k = true) ks -> Forall (fun s => value (formatType pf s)) vs ->
  MakeJsonString pf (Some ks) (Some vs) = Some t -> json_text t.
Proof.
  intros Hne Hk Hv. unfold MakeJsonString. cbn [olen olist]. destruct (Nat.eqb_spec (length ks) (length vs)) as [Hlen|]; [|discriminate].
  cbn [negb]. intro E. injection E as <-. apply (make_map_valid pf (combine ks vs)).
  - intro E. destruct ks; [contradiction|]. destruct vs; [discriminate Hlen|discriminate E].
  - apply Forall_forall. intros [k v] Hin. cbn [fst snd]. rewrite Forall_forall in Hk, Hv. split; [apply Hk; eapply in_combine_l; exact Hin|apply Hv; eapply in_combine_r; exact Hin].
Qed.

(** ** Lengths that differ, nothing given *)
Theorem make_json_lengths pf ks vs : MakeJsonString pf ks vs = None <-> olen ks <> olen vs.
Proof.
  unfold MakeJsonString. destruct (Nat.eqb_spec (olen ks) (olen vs)) as [E|E]; cbn [negb].
  - destruct ks; split; intro H; try discriminate; contradiction.
  - tauto.
Qed.

Theorem printed_values pf ks vs : MakeJson pf ks vs = MakeJsonString pf ks vs /\ MakeArray pf vs = MakeArrayString pf vs /\
  Scheme_MakeJson pf ks vs = MakeJsonString pf ks vs /\ Scheme_MakeJsonString pf ks vs = MakeJsonString pf ks vs.
Proof. repeat split; reflexivity. Qed.

(** ** MakeArrayFloat *)
Lemma last_e_none num i s : forallb (fun c => negb (c =? 101)) num = true -> last_e num i s = s.
Proof.
  revert i s. induction num as [|c r IH]; intros i s H; [reflexivity|]. cbn [forallb last_e] in *. apply andb_prop in H. destruct H as [H1 H2].
  destruct (c =? 101); [discriminate|]. apply IH. exact H2.
Qed.

(** strconv.FormatFloat(v, 'f', -1, 64) never writes an 'e'. *)
Theorem float_item_exact num : forallb (fun c => negb (c =? 101)) num = true ->
  float_item num =
  if (length num <? 2)%nat then Panic
  else match parse_signed (skipn 2 num) with
       | Some z => if (z =? 0)%Z then Ok [] else Ok num
       | None => Ok []
       end.
Proof.
  intro H. unfold float_item. rewrite last_e_none by exact H. cbn [Nat.add firstn]. unfold slice.
  destruct (Nat.ltb_spec (length num) 2) as [Hl|Hl].
  - rewrite (proj2 (Nat.leb_gt 2 (length num))) by exact Hl. reflexivity.
  - rewrite (proj2 (Nat.leb_le _ _)) by exact Hl. rewrite Nat.leb_refl. cbn [andb bind].
    rewrite firstn_all2 by (rewrite skipn_length; lia). destruct (parse_signed (skipn 2 num)) as [z|]; [|reflexivity].
    destruct (z =? 0)%Z; reflexivity.
Qed.

(** ** Scheme: Check and CheckAbs *)
Theorem check_spec ks json : Check ks json = Ok true <-> Forall (fun k => exists v, Get json [k] = Ok v) ks.
Proof.
  induction ks as [|k ks IH]; cbn [Check].
  - split; [constructor|reflexivity].
  - split.
    + destruct (Get json [k]) as [v| |] eqn:E; try discriminate. intro H. constructor; [eauto|]. apply IH. exact H.
    + intro H. inversion H as [|? ? (v & Hv) Hr]; subst. rewrite Hv. apply IH. exact Hr.
Qed.

Theorem check_present d ks : wf_doc d = true -> Forall (fun k => lookup (d_val d) [k] <> None) ks -> Check ks (text d) = Ok true.
Proof.
  intros Hw H. apply check_spec. eapply Forall_impl; [|exact H]. intros k Hk. cbn beta in Hk. destruct (lookup (d_val d) [k]) as [v|] eqn:E; [|contradiction].
  exists (bare v). apply get_present; [exact Hw|discriminate|exact E].
Qed.

Theorem check_absent d ks1 k ks2 : wf_doc d = true -> Forall (fun k => lookup (d_val d) [k] <> None) ks1 -> seen_absent d [] k ->
  Check (ks1 ++ k :: ks2) (text d) = Ok false.
Proof.
  intros Hw H Ha. induction H as [|k1 ks1 Hk _ IH]; cbn [app Check].
  - pose proof (get_seen_absent d [] k [] Hw Ha) as E. cbn [app] in E. rewrite E. reflexivity.
  - destruct (lookup (d_val d) [k1]) as [v|] eqn:E; [|contradiction].
    rewrite (get_present d [k1] v Hw ltac:(discriminate) E). exact IH.
Qed.

Lemma in_scheme_spec k ks : in_scheme k ks = true <-> In k ks.
Proof.
  induction ks as [|x ks IH]; cbn [in_scheme In]; [split; [discriminate|contradiction]|]. destruct (bytes_eqb k x) eqn:E.
  - apply bytes_eqb_eq in E. split; auto.
  - rewrite IH. split; [auto|]. intros [H|H]; [|exact H]. subst x. rewrite (proj2 (bytes_eqb_eq k k) eq_refl) in E. discriminate.
Qed.
Lemma all_in_spec keys ks : all_in keys ks = true <-> incl keys ks.
Proof.
  induction keys as [|k keys IH]; cbn [all_in]; [split; [intros _ x []|reflexivity]|].
  destruct (in_scheme k ks) eqn:E.
  - apply in_scheme_spec in E. rewrite IH. split; intros H x Hx; [destruct Hx as [<- |Hx]; auto|apply H; right; exact Hx].
  - split; [discriminate|]. intro H. exfalso. assert (In k ks) by (apply H; left; reflexivity). apply in_scheme_spec in H0. congruence.
Qed.

Theorem check_abs_spec d w ms ks : wf_doc d = true -> d_val d = JObj w ms -> text d <> b "{}" ->
  exists r, CheckAbs ks (text d) = Ok r /\ (r = true <-> length ms = length ks /\ incl (keys ms) ks).
Proof.
  intros Hw Hd Ht. unfold CheckAbs. rewrite (get_keys d [] w ms Hw) by (cbn; rewrite Hd; reflexivity).
  destruct (bytes_eqb (text d) (b "{}")) eqn:E; [apply bytes_eqb_eq in E; contradiction|].
  unfold keys at 1. rewrite map_length. destruct (Nat.eqb_spec (length ms) (length ks)) as [El|El]; cbn [negb].
  - eexists. split; [reflexivity|]. rewrite all_in_spec. tauto.
  - eexists. split; [reflexivity|]. split; [discriminate|tauto].
Qed.

(** Without repetitions: the same set of keys. *)
Theorem check_abs_set d w ms ks : wf_doc d = true -> d_val d = JObj w ms -> text d <> b "{}" -> NoDup (keys ms) ->
  (CheckAbs ks (text d) = Ok true <-> NoDup ks /\ forall k, In k (keys ms) <-> In k ks).
Proof.
  intros Hw Hd Ht Hnd. destruct (check_abs_spec d w ms ks Hw Hd Ht) as (r & -> & Hr).
  assert (Hl : length (keys ms) = length ms) by apply map_length. split.
  - intro H. injection H as ->. destruct Hr as [Hr _]. destruct (Hr eq_refl) as [H1 H2]. split.
    + apply (NoDup_incl_NoDup Hnd); [lia|exact H2].
    + intro k. split; [apply H2|]. apply (NoDup_length_incl Hnd); [lia|exact H2].
  - intros [H1 H2]. f_equal. apply Hr. split; [|intros k Hk; apply H2; exact Hk].
    rewrite <- Hl. apply Nat.le_antisymm; [apply NoDup_incl_length; [exact Hnd|intros k Hk; apply H2; exact Hk]|].
    apply NoDup_incl_length; [exact H1|intros k Hk; apply H2; exact Hk].
Qed.

Theorem check_abs_not_object d v ks : wf_doc d = true -> d_val d = v -> is_obj v = false -> CheckAbs ks (text d) = Ok false.
Proof.
  intros Hw Hd Ho. unfold CheckAbs. destruct (get_kv_wrong d [] v Hw) as (-> & _); [cbn; rewrite Hd; reflexivity|exact Ho|reflexivity].
Qed.

(** ** Scheme: MutateJson and MutateJsonAbs *)
Theorem formatType_idem pf s : formatType pf (formatType pf s) = formatType pf s.
Proof.
  destruct (formatType_cases pf s) as [E|(E & _)]; [|congruence].
  rewrite E. apply formatType_kept. left. split; [reflexivity|]. unfold quote.
  change (34 :: s ++ [34]) with ((34 :: s) ++ [34]). apply last_app_one.
Qed.

(** Values that formatType writes so that they read the same. *)
Definition copyable (pf : bytes -> bool) (v : jv) : Prop :=
  match v with
  | JString s | JScalar s => (pf s = true -> scalar_ok s = true) /\ fenced s = false
  | _ => True
  end.

Lemma token_str_ok s : forallb is_token_char s = true -> str_ok s = true.
Proof.
  induction s as [|c s IH]; [reflexivity|]. cbn [forallb str_ok]. intro H. apply andb_prop in H. destruct H as [H1 H2].
  unfold is_token_char in H1. apply negb_true_iff in H1. rewrite !orb_false_iff in H1.
  destruct H1 as [[[[[[[[? ->] ?] ?] ?] ?] ?] ?] ->]. apply IH. exact H2.
Qed.

Lemma copy_value pf v : wf v = true -> copyable pf v -> tame v = true ->
  exists v', formatType pf (bare v) = render v' /\ wf v' = true /\ bare v' = bare v /\ tame v' = true.
Proof.
  intros Hw Hc Ht. destruct v as [s|s|w els|w ms]; cbn [bare copyable render] in *.
  - destruct Hc as [H1 H2]. assert (Hs : str_ok s = true) by (apply token_str_ok; destruct s; [reflexivity|exact Hw]).
    destruct (formatType_simple pf s Hs H1 H2) as (v & [Hv Hwv] & ->). exists v. destruct Hv as [-> | ->]; auto.
  - destruct Hc as [H1 H2]. destruct (formatType_simple pf s Hw H1 H2) as (v & [Hv Hwv] & ->). exists v. destruct Hv as [-> | ->]; auto.
  - exists (JArr w els). split; [|auto]. apply formatType_kept. right. unfold fenced. rewrite render_arr. rewrite app_assoc.
    rewrite !app_comm_cons, last_app_one. reflexivity.
  - exists (JObj w ms). split; [|auto]. apply formatType_kept. right. unfold fenced. rewrite render_obj. rewrite app_assoc.
    rewrite !app_comm_cons, last_app_one. reflexivity.
Qed.

Lemma add_step pf ms k v s : wf (JObj [] ms) = true -> Forall (fun m => tame (m_val m) = true) ms -> nokey k ms -> k <> [] ->
  formatType pf s = render v ->
  AddKeyValueString pf (text (root (JObj [] ms))) k (formatType pf s) [] = Done (text (root (JObj [] (ms ++ [new_mem k v])))).
Proof.
  intros Hw Ht Hn Hk Hf. unfold AddKeyValueString. destruct k as [|c k]; [contradiction|]. rewrite formatType_idem, Hf.
  change (Some (render v)) with (option_map render (Some v)).
  rewrite (add_kv_obj (root (JObj [] ms)) [] [] [] ms [] (c :: k) (Some v)); [|apply root_wf; exact Hw|constructor|].
  - cbn [d_pre d_post root app value_text]. rewrite app_nil_r, root_text. reflexivity.
  - intros _. apply core_seen_absent; [apply root_wf; exact Hw|]. exists [], ms. split; [reflexivity|]. split; [apply find_mem_none; exact Hn|].
    left. unfold stray_at. cbn [lookup d_val root rev]. unfold last_tame. apply Forall_rev in Ht. destruct Ht as [|m l Hm _]; [|rewrite Hm]; reflexivity.
Qed.

Section Mutate.
  Variables (pf : bytes -> bool) (d : doc).
  Hypothesis Hw : wf_doc d = true.

  (** What the scheme takes from the document for a key: the value found, or an empty string if the key is
      visibly absent. *)
  Inductive takes (k : bytes) : bytes -> Prop :=
  | T_present v : lookup (d_val d) [k] = Some v -> copyable pf v -> tame v = true -> takes k (bare v).
  Inductive takes_or_empty (k : bytes) : bytes -> Prop :=
  | T_there s : takes k s -> takes_or_empty k s
  | T_missing : seen_absent d [] k -> takes_or_empty k [].

  Lemma takes_get k s : takes k s -> Get (text d) [k] = Ok s.
  Proof. intros [v Hl _ _]. apply get_present; [exact Hw|discriminate|exact Hl]. Qed.
  Lemma takes_value k s : takes k s -> exists v, formatType pf s = render v /\ wf v = true /\ bare v = s /\ tame v = true.
  Proof. intros [v Hl Hc Ht]. apply copy_value; auto. eapply lookup_wf; eassumption. Qed.

  Definition good_ms (ms : list (mem jv)) : Prop := wf (JObj [] ms) = true /\ Forall (fun m => tame (m_val m) = true) ms.

  Lemma good_snoc ms k v : good_ms ms -> str_ok k = true -> wf v = true -> tame v = true -> good_ms (ms ++ [new_mem k v]).
  Proof.
    intros [H1 H2] Hk Hv Ht. split; [apply wf_obj_snoc; assumption|]. apply Forall_app. split; [exact H2|]. repeat constructor. exact Ht.
  Qed.
  Lemma nokey_snoc ms k v k' : nokey k' ms -> k <> k' -> nokey k' (ms ++ [new_mem k v]).
  Proof. intros H Hne. apply Forall_app. split; [exact H|]. repeat constructor. exact Hne. Qed.

  Lemma mutate_abs_loop ks vs : Forall2 takes ks vs -> forall ms, usable ks -> Forall (fun k => nokey k ms) ks -> good_ms ms ->
    exists ms', good_ms (ms ++ ms') /\ keys ms' = ks /\ values ms' = vs /\
      forall r, mutate_abs pf (text d) (ks ++ r) (text (root (JObj [] ms))) = mutate_abs pf (text d) r (text (root (JObj [] (ms ++ ms')))).
  Proof.
    induction 1 as [|k s ks vs Hk _ IH]; intros ms Hu Hn Hg.
    - exists []. rewrite app_nil_r. repeat split; auto; apply Hg.
    - destruct Hu as [Hnd Hu]. inversion Hnd as [|? ? Hnk Hnd']; subst. inversion Hu as [|? ? [Hk1 Hk2] Hu']; subst. inversion Hn as [|? ? Hn1 Hn2]; subst.
      destruct (takes_value k s Hk) as (v & Hf & Hv & Hb & Ht).
      destruct (IH (ms ++ [new_mem k v])) as (ms' & G & Ek & Ev & Er).
      + split; assumption.
      + rewrite Forall_forall in *. intros k' Hk'. apply nokey_snoc; [apply Hn2; exact Hk'|]. intros ->. contradiction.
      + apply good_snoc; assumption.
      + exists (new_mem k v :: ms'). rewrite <- app_assoc in G, Er. cbn [app] in G, Er. split; [exact G|].
        cbn [keys values map m_key m_val new_mem]. rewrite Hb. fold (keys ms') (values ms'). rewrite Ek, Ev. split; [reflexivity|]. split; [reflexivity|].
        intro r. rewrite <- Er. cbn [app mutate_abs]. unfold GetString. rewrite (takes_get k s Hk). cbn [bind].
        destruct Hg as [Hg1 Hg2]. rewrite (add_step pf ms k v s) by assumption. reflexivity.
  Qed.

  Lemma empty_good : good_ms [].
  Proof. split; [reflexivity|constructor]. Qed.
  Lemma nokeys_nil ks : Forall (fun k => nokey k []) ks.
  Proof. apply Forall_forall. intros k _. constructor. Qed.

  (** All keys present: an object with exactly the scheme's keys, in order, holding what Get reads. *)
  Theorem mutate_abs_ok ks vs : usable ks -> Forall2 takes ks vs ->
    exists w ms, wf (JObj w ms) = true /\ MutateJsonAbs pf ks (text d) = Ok (render (JObj w ms)) /\ keys ms = ks /\ values ms = vs /\
      Forall2 (fun k v => Get (text d) [k] = Ok v) ks vs.
  Proof.
    intros Hu HF. destruct (mutate_abs_loop ks vs HF [] Hu (nokeys_nil ks) empty_good) as (ms & (G & _) & Ek & Ev & Er).
    exists [], ms. split; [exact G|]. split.
    - specialize (Er []). rewrite app_nil_r in Er. unfold MutateJsonAbs. change (b "{}") with (text (root (JObj [] []))). rewrite Er. cbn [mutate_abs app]. rewrite root_text. reflexivity.
    - repeat split; [exact Ek|exact Ev|]. clear - HF Hw. induction HF; constructor; [apply takes_get; assumption|assumption].
  Qed.

  (** The first key that is not found decides. *)
  Theorem mutate_abs_err ks vs k r e : usable ks -> Forall2 takes ks vs -> Get (text d) [k] = Err e ->
    MutateJsonAbs pf (ks ++ k :: r) (text d) = Err e.
  Proof.
    intros Hu HF He. destruct (mutate_abs_loop ks vs HF [] Hu (nokeys_nil ks) empty_good) as (ms & (G & _) & Ek & Ev & Er).
    unfold MutateJsonAbs. change (b "{}") with (text (root (JObj [] []))). rewrite Er. cbn [mutate_abs]. unfold GetString. rewrite He. reflexivity.
  Qed.

  Theorem mutate_ok ks vs : usable ks -> Forall2 takes_or_empty ks vs ->
    exists w ms, wf (JObj w ms) = true /\ MutateJson pf ks (text d) = Ok (Some (render (JObj w ms))) /\ keys ms = ks /\ values ms = vs.
  Proof.
    intros Hu HF.
    assert (L : forall ms, Forall (fun k => nokey k ms) ks -> good_ms ms -> exists ms', good_ms (ms ++ ms') /\ keys ms' = ks /\ values ms' = vs /\
      mutate pf (text d) ks (Some (text (root (JObj [] ms)))) = Ok (Some (text (root (JObj [] (ms ++ ms')))))).
    { revert Hu. induction HF as [|k s ks vs Hk HF IH]; intros Hu ms Hn Hg.
      - exists []. rewrite app_nil_r. repeat split; auto; apply Hg.
      - destruct Hu as [Hnd Hu]. inversion Hnd as [|? ? Hnk Hnd']; subst. inversion Hu as [|? ? [Hk1 Hk2] Hu']; subst. inversion Hn as [|? ? Hn1 Hn2]; subst.
        assert (Hv : exists v, formatType pf s = render v /\ wf v = true /\ bare v = s /\ tame v = true).
        { destruct Hk as [s Hk|Hk]; [apply (takes_value k); exact Hk|]. exists (JString []). repeat split. }
        destruct Hv as (v & Hf & Hv & Hb & Ht).
        destruct (IH (conj Hnd' Hu') (ms ++ [new_mem k v])) as (ms' & G & Ek & Ev & Er).
        + rewrite Forall_forall in *. intros k' Hk'. apply nokey_snoc; [apply Hn2; exact Hk'|]. intros ->. contradiction.
        + apply good_snoc; assumption.
        + exists (new_mem k v :: ms'). rewrite <- app_assoc in G, Er. cbn [app] in G, Er. split; [exact G|].
          cbn [keys values map m_key m_val new_mem]. rewrite Hb. fold (keys ms') (values ms'). rewrite Ek, Ev. repeat split.
          rewrite <- Er. cbn [mutate]. unfold GetString. destruct Hg as [Hg1 Hg2]. destruct Hk as [s Hk|Hk].
          * rewrite (takes_get k s Hk). rewrite (add_step pf ms k v s) by assumption. reflexivity.
          * pose proof (get_seen_absent d [] k [] Hw Hk) as E. cbn [app] in E. rewrite E.
            rewrite (add_step pf ms k v []) by assumption. reflexivity. }
    destruct (L [] (nokeys_nil ks) empty_good) as (ms & (G & _) & Ek & Ev & Er). exists [], ms. split; [exact G|].
    split; [|split; assumption]. unfold MutateJson. change (b "{}") with (text (root (JObj [] []))). rewrite Er. cbn [app]. rewrite root_text. reflexivity.
  Qed.
End Mutate.
