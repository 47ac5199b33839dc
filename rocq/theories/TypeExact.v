(** C17: GetType on every value of every document. *)
From Coq Require Import String.
From Verif Require Import GoStd Json Focus Core CoreProofs Errors Api SpecProofs Parse Domains Updates ApiProofs SpecIter Iter IterProofs IterObj Skip IterMisc GoFloat FloatProofs FloatApi.

Local Open Scope N_scope.

Theorem get_type_exact pf d p v : wf_doc d = true -> lookup (d_val d) p = Some v ->
  GetType pf (text d) p = Ok (match v with
    | JArr _ _ => TArray | JObj _ _ => TObject | JString _ => TString
    | JScalar s => let t := match p with [] => text d | _ => s end in
        if bytes_eqb t (b "true") || bytes_eqb t (b "false") then TBoolean
        else if bytes_eqb t (b "null") then TNull
        else match atoi t with Some _ => TNumber | None => if pf t then TNumber else TString end
    end).
Proof.
  intros Hw Hl. destruct p as [|x p].
  - destruct v as [s|s|w els|w ms]; try (rewrite (get_type pf d [] _ Hw Hl) by (right; auto); reflexivity).
    destruct (lookup_focus _ _ _ Hl) as (pre & post & Hf). assert (Hv : wf (JScalar s) = true) by (eapply focus_wf; [exact Hf|apply wf_doc_inv in Hw; tauto]).
    destruct (type_control d [] (JScalar s) [] false Hw Hl) as (n & c & r & E & Ha & HT).
    destruct (render_first _ c r Hv E) as (E1 & E2 & E3).
    unfold GetType. rewrite HT. cbn [bind existsb]. rewrite Ha. cbn [bind]. rewrite E1, E2, E3. cbn [is_arr is_obj is_str].
    replace (GetString (text d) []) with (@Ok bytes (text d)) by reflexivity. cbn [bind]. cbv zeta. unfold atoi.
    destruct (_ || _); [reflexivity|]. destruct (bytes_eqb (text d) (b "null")); [reflexivity|]. destruct (parse_int 64 (text d)); [reflexivity|]. destruct (pf (text d)); reflexivity.
  - rewrite (get_type pf d (x :: p) v Hw Hl) by (left; discriminate). destruct v; reflexivity.
Qed.

(** Blanks around a number or literal that is the whole document make it a string. *)
Theorem get_type_blanks d s : wf_doc d = true -> d_val d = JScalar s -> d_pre d <> [] \/ d_post d <> [] -> GetType float_ok (text d) [] = Ok TString.
Proof.
  intros Hw Hv Hb. rewrite (get_type_exact float_ok d [] (JScalar s) Hw) by (cbn; rewrite Hv; reflexivity). cbv beta iota zeta. f_equal.
  assert (Hn : scalar_ok (text d) = false).
  { apply wf_doc_inv in Hw. destruct Hw as (H1 & _ & H2). unfold text. rewrite Hv. cbn [render].
    assert (B : forall w, ws_ok w = true -> w <> [] -> forallb is_token_char w = false).
    { intros [|c w] Hc N; [congruence|]. cbn in Hc. apply andb_true_iff in Hc. destruct Hc as [Hc _]. cbn [forallb]. replace (is_token_char c) with false; [reflexivity|].
      symmetry. unfold is_token_char. rewrite Hc; reflexivity. }
    unfold scalar_ok. destruct (d_pre d ++ s ++ d_post d) as [|a r] eqn:E; [reflexivity|]. rewrite <- E, !forallb_app.
    destruct Hb as [Hb|Hb]; [rewrite (B _ H1 Hb); reflexivity|rewrite (B _ H2 Hb), !andb_false_r; reflexivity]. }
  assert (Hf : float_ok (text d) = false) by (destruct (float_ok (text d)) eqn:E; [apply ParseFloat_token in E; congruence|reflexivity]).
  assert (Hi : atoi (text d) = None) by (unfold atoi; destruct (parse_int 64 (text d)) eqn:E; [apply int_float in E; [congruence|lia]|reflexivity]).
  rewrite Hf, Hi. assert (K : forall k, scalar_ok k = true -> bytes_eqb (text d) k = false).
  { intros k Hk. destruct (bytes_eqb (text d) k) eqn:E; [|reflexivity]. apply bytes_eqb_eq in E. rewrite E in Hn. congruence. }
  rewrite !K by reflexivity. reflexivity.
Qed.

(** C18: IsEmpty of a string below the root that opens like a container looks at the bytes of the string, but not at the last one inside. *)
Theorem is_empty_string_exact d p pre c s post : wf_doc d = true -> p <> [] -> focus (d_val d) p pre (JString (c :: s)) post -> is_open c = true ->
  IsEmpty (text d) p =
    if last (c :: s) 0 =? c + 2 then Ok (forallb space (firstn (length s - 2) s)) else Err (EBadJSON (length (d_pre d ++ pre) + length (c :: s))).
Proof.
  intros Hw Hp Hf Hc. pose proof (text_focus _ _ _ _ _ Hf) as Ht. cbn [render] in Ht.
  unfold IsEmpty. destruct (text d) as [|c0 r0] eqn:Et.
  { destruct (text_nonnil d Hw) as (cc & rr & EE). congruence. }
  rewrite <- Et in *. clear Et c0 r0. destruct p as [|x p]; [contradiction|].
  destruct (core_present d (x :: p) pre _ post Hw ltac:(discriminate) Hf) as (ks & Hcore). rewrite (Hcore false).
  cbn [bind qoff bare]. set (st := (length (d_pre d ++ pre) + 1)%nat).
  rewrite (at_app_eq _ ((d_pre d ++ pre) ++ [34]) c (s ++ 34 :: post ++ d_post d)) by (try (rewrite Ht; same_text); subst st; len). cbn [bind].
  replace (at_ (text d) (pred (st + length (c :: s)))) with (@Ok N (last (c :: s) 0)).
  - cbn [bind]. rewrite Hc, N.eqb_sym. destruct (last (c :: s) 0 =? c + 2).
    + f_equal. f_equal. replace (text d) with (((d_pre d ++ pre) ++ [34%N; c]) ++ s ++ 34 :: post ++ d_post d) by (rewrite Ht; same_text).
      replace (S st) with (length ((d_pre d ++ pre) ++ [34%N; c])) by (subst st; len). rewrite skipn_app, skipn_all, Nat.sub_diag. cbn [skipn app].
      replace (pred (pred (st + length (c :: s))) - length ((d_pre d ++ pre) ++ [34%N; c]))%nat with (length s - 2)%nat by (subst st; cbn [length]; rewrite !app_length; cbn [length]; lia).
      rewrite firstn_app. replace (length s - 2 - length s)%nat with 0%nat by lia. cbn [firstn]. apply app_nil_r.
    + f_equal. f_equal. subst st. cbn [length]. lia.
  - symmetry. destruct (exists_last (l := c :: s) ltac:(discriminate)) as (l & a & E). rewrite E, last_last.
    apply (at_app_eq _ ((d_pre d ++ pre) ++ 34 :: l) a (34 :: post ++ d_post d)); [rewrite Ht, E; same_text|subst st; len].
Qed.

(** C16: Length of a number or literal, which it does not refuse. *)
Lemma length_loop_token json rest : forall i l, forallb is_token_char rest = true -> length_loop json rest i l false = 0%nat.
Proof.
  induction rest as [|c r IH]; intros i l H; [reflexivity|]. cbn [forallb] in H. apply andb_true_iff in H. destruct H as [Hc Hr]. unfold is_token_char in Hc.
  apply negb_true_iff in Hc. repeat (apply orb_false_iff in Hc; destruct Hc as [Hc ?]). cbn [length_loop]. unfold is_open, is_close.
  repeat match goal with H : (c =? _) = false |- _ => rewrite H; clear H end. cbn [orb andb]. apply IH. exact Hr.
Qed.
Lemma token_inner p s q k : forallb is_token_char s = true -> (k < length s)%nat ->
  forallb space (firstn k (skipn (S (length p)) (p ++ s ++ q))) = (k =? 0)%nat.
Proof.
  intros Hs Hk. replace (skipn (S (length p)) (p ++ s ++ q)) with (skipn 1 (s ++ q)).
  - destruct s as [|a s]; [cbn in Hk; lia|]. cbn [app skipn]. destruct k as [|k]; [reflexivity|]. destruct s as [|c s]; [cbn in Hk; lia|]. cbn [app firstn forallb].
    cbn [forallb] in Hs. apply andb_true_iff in Hs. destruct Hs as [_ Hs]. apply andb_true_iff in Hs. destruct Hs as [Hc _].
    replace (space c) with false; [reflexivity|]. unfold is_token_char in Hc. apply negb_true_iff in Hc. repeat (apply orb_false_iff in Hc; destruct Hc as [Hc ?]). rewrite <- is_ws_space. unfold is_ws. repeat match goal with H : (c =? _) = false |- _ => rewrite H; clear H end. reflexivity.
  - rewrite (skipn_app (S (length p)) p), (@skipn_all2 _ (S (length p)) p) by lia. replace (S (length p) - length p)%nat with 1%nat by lia. reflexivity.
Qed.
Theorem length_scalar d p s : wf_doc d = true -> lookup (d_val d) p = Some (JScalar s) ->
  Length (text d) p =
    match p with
    | [] => if (length (text d) <? 2)%nat then Err (EBadJSON 0) else Ok (if (length s <=? 3)%nat then 0 else 1)%nat
    | _ => Ok (if (length s <=? 2)%nat then 0 else 1)%nat
    end.
Proof.
  intros Hw Hl. destruct (lookup_focus _ _ _ Hl) as (pre & post & Hf). pose proof (text_focus _ _ _ _ _ Hf) as Ht. cbn [render] in Ht.
  assert (Hv : wf (JScalar s) = true) by (eapply focus_wf; [exact Hf|apply wf_doc_inv in Hw; tauto]). cbn [wf] in Hv.
  assert (Hs : forallb is_token_char s = true /\ s <> []) by (unfold scalar_ok in Hv; destruct s; [discriminate|split; [exact Hv|discriminate]]). destruct Hs as [Hs Hn].
  unfold Length. replace (bytes_eqb (text d) (b "[]") || bytes_eqb (text d) (b "{}")) with false.
  2:{ symmetry. destruct s as [|c s]; [congruence|]. cbn [forallb] in Hs. apply andb_true_iff in Hs. destruct Hs as [Hc _].
      assert (I : In c (text d)) by (rewrite Ht; apply in_or_app; right; apply in_or_app; left; left; reflexivity).
      apply orb_false_iff. split; (destruct (bytes_eqb (text d) _) eqn:E; [|reflexivity]); apply bytes_eqb_eq in E; rewrite E in I; cbn in I; destruct I as [<-|[<-|[]]]; discriminate Hc. }
  unfold getStartEnd. destruct p as [|x p].
  - destruct (length (text d) <? 2)%nat; [reflexivity|]. pose proof (start_of_present d [] _ _ _ Hw Hf) as E. cbn [start_of] in E. rewrite E. cbn [bind].
    rewrite (last_nonspace_text d Hw). cbn in Hl. injection Hl as Hl. rewrite Hl. cbn [render]. inversion Hf; subst. clear Hf.
    rewrite length_loop_token.
    + rewrite Ht. rewrite app_nil_r. rewrite token_inner; [|exact Hs|].
      * rewrite app_length. destruct s as [|c1 [|c2 [|c3 [|c4 s]]]]; try congruence; cbn [length]; [..|]; match goal with |- context [(?k =? 0)%nat] => destruct (Nat.eqb_spec k 0) end; try reflexivity; cbn [Nat.leb]; try lia; reflexivity.
      * rewrite app_length. destruct s; [congruence|cbn [length]; lia].
    + rewrite Ht, app_nil_r, skipn_app, skipn_all, Nat.sub_diag. cbn [skipn app]. rewrite app_length. rewrite firstn_app.
      replace (pred (length (d_pre d) + length s) - length (d_pre d) - length s)%nat with 0%nat by lia. cbn [firstn]. rewrite app_nil_r. apply forallb_forall. intros y Hy. rewrite forallb_forall in Hs. apply Hs. rewrite <- (firstn_skipn (pred (length (d_pre d) + length s) - length (d_pre d)) s). apply in_or_app. left. exact Hy.
  - destruct (core_present d (x :: p) pre _ post Hw ltac:(discriminate) Hf) as (ks & Hcore). rewrite (Hcore false). cbn [bind qoff bare]. rewrite Nat.add_0_r.
    assert (L : (length (text d) <? 2)%nat = false).
    { apply Nat.ltb_ge. apply text_len2; [exact Hw|]. destruct (d_val d); try reflexivity; inversion Hf. }
    rewrite L. cbn [bind render]. rewrite length_loop_token.
    + rewrite Ht. rewrite token_inner; [|exact Hs|destruct s; [congruence|cbn [length]; lia]].
      destruct s as [|c1 [|c2 [|c3 s]]]; try congruence; cbn [length]; match goal with |- context [(?k =? 0)%nat] => destruct (Nat.eqb_spec k 0) end; try reflexivity; cbn [Nat.leb]; try lia; reflexivity.
    + rewrite Ht, skipn_app, skipn_all, Nat.sub_diag. cbn [skipn app]. replace (length (d_pre d ++ pre) + length s - length (d_pre d ++ pre))%nat with (length s) by lia. rewrite firstn_app, Nat.sub_diag, firstn_all. cbn [firstn]. rewrite app_nil_r. exact Hs.
Qed.

(** C52: on containers of documents Length and IsEmpty agree at the root, and below it unless one one-byte element stands right before the bracket. *)
Theorem length_empty d p v n e : wf_doc d = true -> lookup (d_val d) p = Some v -> container v = true -> Length (text d) p = Ok n -> IsEmpty (text d) p = Ok e ->
  (e = (n =? 0)%nat <-> p = [] \/ lone v = false).
Proof.
  intros Hw Hl Hc HL HE. rewrite (length_spec d p v Hw Hl Hc) in HL. rewrite (is_empty_container d p v Hw Hl Hc) in HE. injection HL as <-. injection HE as <-.
  assert (H1 : lone v = true -> size v = 1%nat) by (destruct v as [| |w [|x [|y l]]|]; cbn; try discriminate; reflexivity).
  destruct (lone v).
  - rewrite (H1 eq_refl). destruct p; cbn; split; auto; try discriminate. intros [H|H]; discriminate.
  - destruct p; rewrite orb_false_r; split; auto.
Qed.
