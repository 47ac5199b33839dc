(** Proofs about the functions as written in Go on documents: the two halves (C62 to C71 and the properties of the models) joined. *)
From Coq Require Import String Lia.
From Verif Require Import GoStd Json Spec Focus Domains Errors Core Api Iter Ops GoLang AsWritten.
From Verif Require SpecIter IterProofs ListExact IterMisc ApiProofs Updates History NoPanicD Format Make Walk WalkTotal WalkProofs FormatProofs IterObj SpecFormat SpecParser SpecWalk SpecParserOps Parser ParserInsert Pointers SpecList.
From Verif Require SpecPanic NoPanicE TypeExact.
From Verif Require CoreGo IterGo ListGo SplitGo FormatGo UpdateGo WalkGo ParserGo.
From Verif Require IterGoProofs ListGoProofs SplitGoProofs FormatGoProofs WalkGoProofs ParserGoWritten.
From Verif Require Import UpdateGo UpdateGoProofs Octets.

Local Open Scope N_scope.

(** ** One call, then a history *)
Definition op_path (o : op) : list bytes :=
  match o with OSet p _ | OAdd p _ | OAddKV p _ _ | OInsert p _ _ | OStore p _ _ => p | ODelete q x | OSetKey q x _ => q ++ [x] end.
Lemma call_go_spec fuel o json : octets json -> (length json < fuel)%nat -> (S (length (op_path o)) < fuel)%nat -> call_go fuel o json = outcome (Ops.call o json).
Proof.
  intros Hb Hj Hp. destruct o; cbn [call_go Ops.call op_path] in *;
    [apply Set_go_spec|apply Delete_go_spec|apply Add_go_spec|apply AddKeyValue_go_spec|apply Insert_go_spec|apply SetKey_go_spec|apply Store_go_spec]; try assumption; lia.
Qed.
Lemma run_go_spec ops : forall json, octets json -> Forall op_octets ops -> eventually (fun fuel => run_go fuel ops json = match run ops json with Some out => Ret out | None => Pan end).
Proof.
  induction ops as [|o r IH]; intros json Hj Ho; [exists 0%nat; reflexivity|]. apply Forall_cons_iff in Ho. destruct Ho as [Ho Hr]. cbn [run_go run].
  destruct (Ops.call o json) as [out|x e|] eqn:E.
  - pose proof (keeps_call o json Hj Ho) as Hk. rewrite E in Hk. destruct (IH out Hk Hr) as [n Hn]. exists (n + S (length json) + S (S (length (op_path o))))%nat. intros fuel Hf.
    rewrite call_go_spec, E by (assumption || lia). cbn [outcome]. apply Hn. lia.
  - destruct (IH json Hj Hr) as [n Hn]. exists (n + S (length json) + S (S (length (op_path o))))%nat. intros fuel Hf. rewrite call_go_spec, E by (assumption || lia).
    destruct x; cbn [outcome]; apply Hn; lia.
  - exists (S (length json) + S (S (length (op_path o))))%nat. intros fuel Hf. rewrite call_go_spec, E by (assumption || lia). reflexivity.
Qed.

(** ** On documents *)
Lemma from (json : bytes) (path : list bytes) (P : nat -> Prop) : (forall fuel, (length json < fuel)%nat -> (S (length path) < fuel)%nat -> P fuel) -> eventually P.
Proof. intro H. exists (S (length json) + S (S (length path)))%nat. intros fuel Hf. apply H; lia. Qed.

Theorem get_written d p v : wf_doc d = true -> octets (text d) -> p <> [] -> lookup (d_val d) p = Some v ->
  eventually (fun fuel => SplitGo.Get_go fuel (text d) p = Ret (bare v, None)).
Proof. intros Hw Hb Hp0 Hl. apply (from (text d) p). intros fuel Hj Hp. rewrite SplitGoProofs.Get_go_spec by (assumption || lia). rewrite (ApiProofs.get_present d p v) by assumption. reflexivity. Qed.
Theorem get_absent_written d q x rest : wf_doc d = true -> octets (text d) -> seen_absent d q x ->
  eventually (fun fuel => SplitGo.Get_go fuel (text d) (q ++ x :: rest) = Ret ([], Some (EKeyNotFound x))).
Proof. intros Hw Hb Ha. apply (from (text d) (q ++ x :: rest)). intros fuel Hj Hp. rewrite SplitGoProofs.Get_go_spec by (assumption || lia). rewrite (History.get_seen_absent d q x rest) by assumption. reflexivity. Qed.

Theorem call_written d o c' : wf_doc d = true -> octets (text d) -> legal d o -> meaning o (content (d_val d)) = Some c' ->
  exists d', matches d d' c' /\ eventually (fun fuel => call_go fuel o (text d) = Ret (text d', None)).
Proof.
  intros Hw Hb Hl Hm. destruct (History.call_ok d o c' Hw Hl Hm) as (d' & Hc & Hd). exists d'. split; [exact Hd|].
  apply (from (text d) (op_path o)). intros fuel Hj Hp. rewrite call_go_spec, Hc by assumption. reflexivity.
Qed.
Theorem refused_written d o : wf_doc d = true -> octets (text d) -> rejected d o ->
  exists e, eventually (fun fuel => call_go fuel o (text d) = Ret (text d, Some e)).
Proof.
  intros Hw Hb Hr. destruct (History.call_rejected d o Hw Hr) as (e & Hc). exists e.
  apply (from (text d) (op_path o)). intros fuel Hj Hp. rewrite call_go_spec, Hc by assumption. reflexivity.
Qed.
Theorem history_written d ops c' : wf_doc d = true -> octets (text d) -> Forall op_octets ops -> lawful d ops c' ->
  exists d', wf_doc d' = true /\ content (d_val d') = c' /\ eventually (fun fuel => run_go fuel ops (text d) = Ret (text d')).
Proof.
  intros Hw Hb Ho Hl. destruct (History.history d ops c' Hw Hl) as (d' & Hr & Hw' & Hc). exists d'. split; [exact Hw'|]. split; [exact Hc|].
  pose proof (run_go_spec ops (text d) Hb Ho) as H. rewrite Hr in H. exact H.
Qed.
Theorem call_ends o json : octets json -> eventually (fun fuel => call_go fuel o json <> Out).
Proof. intro Hb. apply (from json (op_path o)). intros fuel Hj Hp. rewrite call_go_spec by assumption. destruct (Ops.call o json) as [|[]|]; discriminate. Qed.

Theorem array_written {St} d p w els (cb : St -> bytes -> St * (bool * option err)) s :
  wf_doc d = true -> octets (text d) -> lookup (d_val d) p = Some (JArr w els) -> els <> [] ->
  eventually (fun fuel => IterGo.IterateArray_go fuel (text d) cb p s = Ret (SpecIter.visit cb (SpecIter.items els) s)).
Proof.
  intros Hw Hb Hl Hn. apply (from (text d) p). intros fuel Hj Hp. rewrite IterGoProofs.IterateArray_go_spec by (assumption || lia).
  rewrite (IterProofs.iterate_array cb d p w els s Hw Hl Hn). destruct (SpecIter.visit cb (SpecIter.items els) s). reflexivity.
Qed.
Theorem pairs_written {St} d p w ms (cb : St -> bytes -> bytes -> St * (bool * option err)) s :
  wf_doc d = true -> octets (text d) -> lookup (d_val d) p = Some (JObj w ms) -> text d <> b "{}" ->
  eventually (fun fuel => IterGo.IterateKeyValue_go fuel (text d) cb p s =
    Ret (fst (SpecIter.visit (SpecIter.uncurry2 cb) (SpecList.object_pairs ms) s), snd (SpecIter.visit (SpecIter.uncurry2 cb) (removelast (SpecList.object_pairs ms)) s))).
Proof.
  intros Hw Hb Hl Hn. apply (from (text d) p). intros fuel Hj Hp. rewrite IterGoProofs.IterateKeyValue_go_spec by (assumption || lia).
  rewrite (ListExact.iterate_kv_exact cb d p w ms s Hw Hl). destruct (bytes_eqb (text d) (b "{}")) eqn:E; [|reflexivity]. apply bytes_eqb_eq in E. contradiction.
Qed.
Theorem listings_written d p w ms : wf_doc d = true -> octets (text d) -> lookup (d_val d) p = Some (JObj w ms) -> ms <> [] ->
  eventually (fun fuel => ListGo.GetKeys_go fuel (text d) p = Ret (SpecIter.keys ms, None) /\ ListGo.GetValues_go fuel (text d) p = Ret (SpecList.listed_values ms, None)).
Proof.
  intros Hw Hb Hl Hn. apply (from (text d) p). intros fuel Hj Hp. rewrite ListGoProofs.GetKeys_go_spec, ListGoProofs.GetValues_go_spec by (assumption || lia).
  rewrite (IterObj.get_keys d p w ms Hw Hl), (ListExact.get_values_exact d p w ms Hw Hl).
  destruct (bytes_eqb (text d) (b "{}")) eqn:E; [|destruct ms; [contradiction|split; reflexivity]]. apply bytes_eqb_eq in E.
  destruct (lookup_focus _ _ _ Hl) as (pre & post & Hf). destruct (IterObj.obj_len _ _ _ _ _ _ Hf E). contradiction.
Qed.
Theorem length_written d p v : wf_doc d = true -> octets (text d) -> lookup (d_val d) p = Some v -> container v = true -> p <> [] ->
  eventually (fun fuel => ListGo.Length_go fuel (text d) p = Ret (Z.of_nat (SpecIter.size v), None)).
Proof.
  intros Hw Hb Hl Hc Hn. apply (from (text d) p). intros fuel Hj Hp. rewrite ListGoProofs.Length_go_spec by (assumption || lia).
  rewrite (IterMisc.length_spec d p v Hw Hl Hc). destruct p; [contradiction|reflexivity].
Qed.
Theorem length_exact_written d p v : wf_doc d = true -> octets (text d) -> lookup (d_val d) p = Some v -> container v = true ->
  eventually (fun fuel => ListGo.Length_go fuel (text d) p = Ret (if match p with [] => SpecIter.lone v | _ => false end then 0%Z else Z.of_nat (SpecIter.size v), None)).
Proof.
  intros Hw Hb Hl Hc. apply (from (text d) p). intros fuel Hj Hp. rewrite ListGoProofs.Length_go_spec by (assumption || lia).
  rewrite (IterMisc.length_spec d p v Hw Hl Hc). destruct (match p with [] => SpecIter.lone v | _ => false end); reflexivity.
Qed.
Theorem length_scalar_written d p s : wf_doc d = true -> octets (text d) -> lookup (d_val d) p = Some (JScalar s) ->
  eventually (fun fuel => ListGo.Length_go fuel (text d) p =
    match p with
    | [] => if (length (text d) <? 2)%nat then Ret ((-1)%Z, Some (EBadJSON 0)) else Ret (if (length s <=? 3)%nat then 0%Z else 1%Z, None)
    | _ => Ret (if (length s <=? 2)%nat then 0%Z else 1%Z, None)
    end).
Proof.
  intros Hw Hb Hl. apply (from (text d) p). intros fuel Hj Hp. rewrite ListGoProofs.Length_go_spec by (assumption || lia). rewrite (TypeExact.length_scalar d p s Hw Hl).
  destruct p; [destruct (length (text d) <? 2)%nat; [reflexivity|]; destruct (length s <=? 3)%nat; reflexivity|]. destruct (length s <=? 2)%nat; reflexivity.
Qed.
Theorem map_written d p pre v post : wf_doc d = true -> octets (text d) -> focus (d_val d) p pre v post -> container v = true ->
  (text d = b "[]" \/ text d = b "{}" -> eventually (fun fuel => WalkGo.GetMap_go fuel (text d) p = Ret (None, None))) /\
  (text d <> b "[]" -> text d <> b "{}" -> SpecIter.closed_after d p v post ->
     exists m, eventually (fun fuel => WalkGo.GetMap_go fuel (text d) p = Ret (Some m, None)) /\
       SpecIter.map_of m (match v with
                 | JObj w ms => SpecList.object_pairs ms
                 | JArr w els => SpecIter.numbered (fun i => itoa (Z.of_nat i)) (SpecList.array_items w els)
                 | _ => []
                 end)) /\
  (~ SpecIter.closed_after d p v post -> eventually (fun fuel => WalkGo.GetMap_go fuel (text d) p = Ret (None, Some (EBadJSON (length (d_pre d ++ pre)))))).
Proof.
  intros Hw Hb Hf Hc. destruct (ListExact.get_map_exact d p pre v post Hw Hf Hc) as (H1 & H2 & H3).
  assert (W : forall r, GetMap (text d) p = r -> eventually (fun fuel => WalkGo.GetMap_go fuel (text d) p = ListGoProofs.told None r)).
  { intros r <-. apply (from (text d) p). intros fuel Hj Hp. apply WalkGoProofs.GetMap_go_spec; [exact Hb|exact Hj|lia]. }
  split; [intro E; exact (W _ (H1 E))|]. split; [|intro E; exact (W _ (H3 E))]. intros E1 E2 E3. destruct (H2 E1 E2 E3) as (m & E & M). exists m. split; [exact (W _ E)|exact M].
Qed.
Theorem kinds_written pf d p v : wf_doc d = true -> octets (text d) -> lookup (d_val d) p = Some v ->
  match v with JScalar s => s = b "true" \/ s = b "false" \/ s = b "null" \/ pf s = true | _ => True end ->
  p <> [] \/ SpecIter.is_str v = true \/ container v = true \/ (d_pre d = [] /\ d_post d = []) ->
  eventually (fun fuel => WalkGo.GetType_go fuel (text d) p pf = Ret (match v with
    | JArr _ _ => b "array" | JObj _ _ => b "object" | JString _ => b "string"
    | JScalar s => if bytes_eqb s (b "true") || bytes_eqb s (b "false") then b "boolean" else if bytes_eqb s (b "null") then b "null" else b "number"
    end, None)) /\
  eventually (fun fuel => WalkGo.IsObject_go fuel (text d) p = Ret (container v, None)).
Proof.
  intros Hw Hb Hl Hn Ho. split; apply (from (text d) p); intros fuel Hj Hp.
  - rewrite WalkGoProofs.GetType_go_spec by (assumption || lia). rewrite (IterMisc.get_type_kind pf d p v Hw Hl Hn Ho). destruct v as [s|s|w els|w ms]; try reflexivity.
    destruct (bytes_eqb s (b "true") || bytes_eqb s (b "false")); [reflexivity|]. destruct (bytes_eqb s (b "null")); reflexivity.
  - rewrite WalkGoProofs.IsObject_go_spec by (assumption || lia). rewrite (IterMisc.is_object d p v Hw Hl). reflexivity.
Qed.
Theorem get_type_written pf d p v : wf_doc d = true -> octets (text d) -> lookup (d_val d) p = Some v ->
  eventually (fun fuel => WalkGo.GetType_go fuel (text d) p pf = Ret (match v with
    | JArr _ _ => b "array" | JObj _ _ => b "object" | JString _ => b "string"
    | JScalar s => let t := match p with [] => text d | _ => s end in
        if bytes_eqb t (b "true") || bytes_eqb t (b "false") then b "boolean"
        else if bytes_eqb t (b "null") then b "null"
        else match atoi t with Some _ => b "number" | None => if pf t then b "number" else b "string" end
    end, None)).
Proof.
  intros Hw Hb Hl. apply (from (text d) p). intros fuel Hj Hp. rewrite WalkGoProofs.GetType_go_spec by (assumption || lia). rewrite (TypeExact.get_type_exact pf d p v Hw Hl).
  destruct v as [s|s|w els|w ms]; try reflexivity. cbv zeta. set (t := match p with [] => text d | _ => s end). destruct (_ || _); [reflexivity|]. destruct (bytes_eqb t (b "null")); [reflexivity|].
  destruct (atoi t); [reflexivity|]. destruct (pf t); reflexivity.
Qed.
Theorem types_written d p v : wf_doc d = true -> octets (text d) -> lookup (d_val d) p = Some v ->
  eventually (fun fuel => WalkGo.IsArray_go fuel (text d) p = Ret (is_arr v, None) /\ WalkGo.IsValue_go fuel (text d) p = Ret (negb (container v), None)).
Proof.
  intros Hw Hb Hl. apply (from (text d) p). intros fuel Hj Hp. rewrite WalkGoProofs.IsArray_go_spec, WalkGoProofs.IsValue_go_spec by (assumption || lia).
  rewrite (IterMisc.is_array d p v Hw Hl), (IterMisc.is_value d p v Hw Hl). split; reflexivity.
Qed.
Theorem flatten_written d : wf_doc d = true -> eventually (fun fuel => FormatGo.Flatten_go fuel (text d) = Ret (render (SpecFormat.strip (d_val d)))).
Proof. intro Hw. apply (from (text d) []). intros fuel Hj _. rewrite FormatGoProofs.Flatten_go_spec, FormatProofs.flatten_doc by assumption. reflexivity. Qed.
Theorem indent_written d : wf_doc d = true -> SpecFormat.calm (d_val d) = true -> (forall s, d_val d <> JString s) ->
  eventually (fun fuel => FormatGo.Indent_go fuel (text d) = Ret (render (SpecFormat.pretty 0 (d_val d)))).
Proof. intros Hw Hc Hs. apply (from (text d) []). intros fuel Hj _. rewrite FormatGoProofs.Indent_go_spec, FormatProofs.indent_doc by assumption. reflexivity. Qed.
Theorem walk_written {St} pf d (cb : St -> bytes -> bytes -> list bytes -> St * (bool * option err)) s :
  wf_doc d = true -> octets (text d) -> SpecParser.fits (text d) -> SpecWalk.unique_keys SpecWalk.dec (d_val d) ->
  (forall p, In (p, []) (SpecWalk.objects SpecWalk.dec [] (d_val d)) -> seen_absent d p []) -> text d <> b "{}" /\ text d <> b "[]" ->
  eventually (fun fuel => WalkGo.Walk_go pf fuel (text d) cb (S (S (length (text d)))) s = Ret (SpecWalk.walked SpecWalk.dec (SpecWalk.shown_leaf d) EEmptyArray cb [] (d_val d) s)).
Proof.
  intros Hw Hb Hf Hu Ho Hn. exists (S (S (S (length (text d))))). intros fuel Hl. unfold WalkGo.Walk_go. rewrite WalkGoProofs.walk_go_spec by (assumption || cbn [length]; lia).
  change (Walk.walk pf (S (S (length (text d)))) (text d) [] cb s) with (Walk.Walk pf (text d) cb s). rewrite (WalkProofs.Walk_exact pf d cb Hw Hf Hu Ho Hn).
  unfold WalkProofs.wdone. destruct (SpecWalk.walked _ _ _ _ _ _ _). reflexivity.
Qed.
(** The Parser *)
Theorem parser_written d q v : wf_doc d = true -> octets (text d) -> container (d_val d) = true -> lookup (d_val d) q = Some v -> q <> [] -> SpecParser.straight (d_val d) q = true ->
  exists p, eventually (fun fuel => ParserGo.Parse_go (ParserGo.as_written fuel) (text d) = Ret (Some p, None)) /\ eventually (fun fuel => ParserGo.Get_p (ParserGo.as_written fuel) p q = Ret (bare v, None)).
Proof.
  intros Hw Hb Hc Hl Hq Hs. destruct (ParserInsert.parse_found d q v Hw Hc Hl Hq Hs) as (p & Hp & Hg & _). pose proof (ParserGoWritten.history_written (text d) [] Hb (Forall_nil _)) as H. rewrite Hp in H.
  destruct H as (r & Hr & r' & [n Hc'] & _ & Hget & _). specialize (Hc' n (le_n n)). injection Hc' as <-. exists r. split; [exact Hr|]. pose proof (Hget q) as Hz. rewrite Hg in Hz. exact Hz.
Qed.

Lemma run_calls ops : forall p p', SpecParserOps.p_run ops p = Some p' -> Pointers.p_calls (calls_of ops) p = Some (p', repeat None (length ops)).
Proof.
  induction ops as [|o r IH]; intros p p' H; cbn [SpecParserOps.p_run calls_of flat_map] in *; [injection H as <-; reflexivity|].
  destruct (SpecParserOps.p_call o p) as [p1 [e|]|] eqn:E; try discriminate. apply IH in H.
  destruct o; cbn [pcall_of app Pointers.p_calls Pointers.p_do SpecParserOps.p_call repeat length] in *; try (rewrite E; cbv iota; unfold calls_of in H; rewrite H; reflexivity). discriminate.
Qed.
Lemma calls_octets ops : Forall op_octets ops -> Forall pcall_octets (calls_of ops).
Proof. induction 1 as [|o r Ho Hr IH]; [constructor|]. apply Forall_app. split; [|exact IH]. destruct o; repeat constructor; try exact Ho; apply Ho. Qed.
Theorem parser_history_written d ops c' : wf_doc d = true -> octets (text d) -> Forall op_octets ops -> container (d_val d) = true -> SpecParserOps.p_lawful true d ops c' ->
  exists p p' d', eventually (fun fuel => ParserGo.Parse_go (ParserGo.as_written fuel) (text d) = Ret (Some p, None)) /\
    eventually (fun fuel => ParserGo.calls_p (ParserGo.as_written fuel) (calls_of ops) p = Ret (p', repeat None (length ops))) /\
    wf_doc d' = true /\ content (d_val d') = c' /\ Pointers.q_json p' = text d' /\
    forall q v, lookup (d_val d') q = Some v -> q <> [] -> SpecParser.straight (d_val d') q = true -> eventually (fun fuel => ParserGo.Get_p (ParserGo.as_written fuel) p' q = Ret (bare v, None)).
Proof.
  intros Hw Hb Ho Hc Hl. destruct (ParserInsert.parse_history d ops c' Hw Hc Hl) as (p & d' & p' & Hp & Hr & _ & Hw' & Hc' & Ha).
  pose proof (ParserGoWritten.history_written (text d) (calls_of ops) Hb (calls_octets ops Ho)) as H. rewrite Hp in H. destruct H as (q & Hq & H). rewrite (run_calls _ _ _ Hr) in H. destruct H as (q' & Hq' & Hj & Hg & _).
  exists q, q', d'. split; [exact Hq|]. split; [exact Hq'|]. split; [exact Hw'|]. split; [exact Hc'|]. destruct Ha as (Ht & Hf & _). split; [rewrite Hj; exact Ht|].
  intros x v Hx Hx0 Hs. pose proof (Hg x) as Hz. destruct (Hf x v Hx Hx0 Hs) as [E _]. rewrite E in Hz. exact Hz.
Qed.

(** ** On every document, whatever the path: an answer *)
Lemma some_res {A} (u : A) (f : nat -> flow unit (A * option err)) (r : res A) (json : bytes) (path : list bytes) :
  (forall fuel, (length json < fuel)%nat -> (S (length path) < fuel)%nat -> f fuel = match r with Ok v => Ret (v, None) | Err e => Ret (u, Some e) | Panic => Pan end) -> r <> Panic -> answered f.
Proof. intros H Hr. destruct r as [v|e|]; [exists v, None|exists u, (Some e)|contradiction]; apply (from json path); exact H. Qed.
Lemma some_upd f (r : upd) (json : bytes) (path : list bytes) : (forall fuel, (length json < fuel)%nat -> (S (length path) < fuel)%nat -> f fuel = outcome r) -> r <> UPanic -> answered f.
Proof. intros H Hr. destruct r as [o|[o|] e|]; [exists o, None|exists o, (Some e)|exists [], (Some e)|contradiction]; apply (from json path); exact H. Qed.
Theorem reads_answer d path keys : wf_doc d = true -> octets (text d) ->
  answered (fun fuel => SplitGo.Get_go fuel (text d) path) /\ answered (fun fuel => SplitGo.GetString_go fuel (text d) path) /\
  answered (fun fuel => SplitGo.GetInt_go fuel (text d) path) /\ answered (fun fuel => SplitGo.GetBool_go fuel (text d) path) /\
  answered (fun fuel => WalkGo.GetAll_go fuel (text d) path keys) /\
  answered (fun fuel => WalkGo.IsObject_go fuel (text d) path) /\ answered (fun fuel => WalkGo.IsArray_go fuel (text d) path) /\ answered (fun fuel => WalkGo.IsValue_go fuel (text d) path) /\
  answered (fun fuel => ListGo.IsEmpty_go fuel (text d) path) /\ answered (fun fuel => ListGo.Length_go fuel (text d) path).
Proof.
  intros Hw Hb. destruct (NoPanicD.reads_complete _ (NoPanicD.doc_complete d Hw) unit (fun _ => None) (fun _ => true) path keys) as (H1 & H2 & H3 & H4 & _ & H5 & _ & _ & H6 & H7 & H8 & H9 & H10).
  Ltac one d path spec H := refine (some_res _ _ _ (text d) path _ H); [intros fuel Hj Hp; apply spec; [eassumption|exact Hj|lia..]].
  split; [one d path SplitGoProofs.Get_go_spec H1|]. split; [one d path SplitGoProofs.GetString_go_spec H2|]. split; [one d path SplitGoProofs.GetInt_go_spec H3|]. split; [one d path SplitGoProofs.GetBool_go_spec H4|].
  split; [refine (some_res _ _ _ (text d) path _ H5); [intros fuel Hj Hp; apply WalkGoProofs.GetAll_go_spec; [exact Hb|exact Hj|lia|exact Hp]]|].
  split; [one d path WalkGoProofs.IsObject_go_spec H6|]. split; [one d path WalkGoProofs.IsArray_go_spec H7|]. split; [one d path WalkGoProofs.IsValue_go_spec H8|]. split; [one d path ListGoProofs.IsEmpty_go_spec H9|].
  eapply (some_res (-1)%Z _ (match Length (text d) path with Ok n => Ok (Z.of_nat n) | Err e => Err e | Panic => Panic end) (text d) path).
  - intros fuel Hj Hp. rewrite ListGoProofs.Length_go_spec; [|exact Hb|exact Hj|lia]. destruct (Length (text d) path); reflexivity.
  - destruct (Length (text d) path); congruence.
Qed.
Theorem updates_answer d path key value new index : wf_doc d = true -> octets (text d) ->
  answered (fun fuel => Set_go fuel (text d) new path) /\ answered (fun fuel => SetKey_go fuel (text d) key path) /\
  answered (fun fuel => AddKeyValue_go fuel (text d) key value path) /\ answered (fun fuel => Add_go fuel (text d) new path) /\
  answered (fun fuel => Store_go fuel (text d) key value path) /\ answered (fun fuel => Insert_go fuel (text d) index new path).
Proof.
  intros Hw Hb. destruct (NoPanicD.writes_complete _ (NoPanicD.doc_complete d Hw) key new value path) as (H1 & H2 & H3 & H4 & H5).
  destruct (NoPanicD.documents_total d Hw (fun _ => true) key new index 0%Z true path) as (H6 & _).
  Ltac one_u d path spec H := refine (some_upd _ _ (text d) path _ H); [intros fuel Hj Hp; apply spec; [eassumption|exact Hj|lia..]].
  split; [one_u d path Set_go_spec H1|]. split; [one_u d path SetKey_go_spec H2|]. split; [one_u d path AddKeyValue_go_spec H3|]. split; [one_u d path Add_go_spec H4|]. split; [one_u d path Store_go_spec H5|one_u d path Insert_go_spec H6].
Qed.
Theorem delete_answers d path : wf_doc d = true -> octets (text d) -> (forall x, In x path -> ~ SpecPanic.begins x (text d)) -> answered (fun fuel => Delete_go fuel (text d) path).
Proof. intros Hw Hb Hx. pose proof (NoPanicD.delete_total d path Hw Hx) as H. one_u d path Delete_go_spec H. Qed.

Theorem listings_answer d path v : wf_doc d = true -> octets (text d) -> lookup (d_val d) path = Some v ->
  answered (fun fuel => ListGo.GetKeys_go fuel (text d) path) /\ answered (fun fuel => ListGo.GetValues_go fuel (text d) path) /\
  answered (fun fuel => ListGo.GetKeysValues_go fuel (text d) path) /\ answered (fun fuel => WalkGo.GetMap_go fuel (text d) path).
Proof.
  intros Hw Hb Hl. destruct (NoPanicE.listings_resolve (fun (s : unit) _ _ => (s, (true, None))) tt d path v Hw Hl) as (H1 & H2 & H3 & H4 & _).
  split; [one d path ListGoProofs.GetKeys_go_spec H1|]. split; [one d path ListGoProofs.GetValues_go_spec H2|]. split; [one d path ListGoProofs.GetKeysValues_go_spec H3|one d path WalkGoProofs.GetMap_go_spec H4].
Qed.

(** ** Arrays of values *)
Theorem arrays_written d p w els : wf_doc d = true -> octets (text d) -> lookup (d_val d) p = Some (JArr w els) -> SpecIter.whole d p ->
  eventually (fun fuel =>
    SplitGo.GetStringArray_go fuel (text d) p =
      match w, els with
      | [], [] => Ret ([], None)
      | _, _ => match SpecList.listing w els with Some ts => Ret (ts, None) | None => Pan end
      end /\
    SplitGo.GetIntArray_go fuel (text d) p =
      match SpecList.listing w els with
      | None => Pan
      | Some ts => match SpecList.conversions atoi ts with (l, None) => Ret (l, None) | (_, Some t) => Ret ([], Some (EIntegerParse t)) end
      end /\
    forall (F : Type) (pf : bytes -> option F), SplitGo.GetFloatArray_go fuel pf (text d) p =
      match SpecList.listing w els with
      | None => Pan
      | Some ts => match SpecList.conversions pf ts with (l, None) => Ret (l, None) | (_, Some t) => Ret ([], Some (EFloatParse t)) end
      end).
Proof.
  intros Hw Hb Hl Hp. apply (from (text d) p). intros fuel Hj Hf.
  rewrite SplitGoProofs.GetStringArray_go_spec, SplitGoProofs.GetIntArray_go_spec by (assumption || lia).
  rewrite (proj1 (ListExact.array_getters_exact d p w els Hw Hl) Hp), (proj1 (ListExact.int_array_exact d p w els Hw Hl) Hp).
  split; [destruct w, els; try reflexivity; destruct (SpecList.listing _ _); reflexivity|].
  split; [destruct (SpecList.listing w els) as [ts|]; [destruct (SpecList.conversions atoi ts) as [l [t|]]|]; reflexivity|].
  intros F pf. rewrite SplitGoProofs.GetFloatArray_go_spec by (assumption || lia). rewrite (proj1 (ListExact.float_array_exact pf d p w els Hw Hl) Hp).
  destruct (SpecList.listing w els) as [ts|]; [destruct (SpecList.conversions pf ts) as [l [t|]]|]; reflexivity.
Qed.
Theorem empties_written d p v : wf_doc d = true -> octets (text d) -> lookup (d_val d) p = Some v -> container v = true ->
  eventually (fun fuel => ListGo.IsEmpty_go fuel (text d) p = Ret ((SpecIter.size v =? 0)%nat || SpecIter.lone v, None)).
Proof. intros Hw Hb Hl Hc. apply (from (text d) p). intros fuel Hj Hp. rewrite ListGoProofs.IsEmpty_go_spec by (assumption || lia). rewrite (IterMisc.is_empty_container d p v Hw Hl Hc). reflexivity. Qed.
