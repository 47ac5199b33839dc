(** An absent key, when the items after the object in its parent do not mislead the scanner.

    Once past the object the key search does not stop: it reads on in the items that follow the object in its parent,
    one level too deep, until the parent closes.  What it finds there is [Domains.stray]. *)
From Verif Require Import GoStd Json Core Skip Focus CoreProofs CoreNeg.
From Verif Require Domains.

Local Open Scope N_scope.

Section Siblings.
  Variables (json : bytes) (path : list bytes) (k : nat) (st : cst).
  Local Notation KL rest i lv s e := (key_loop json path rest i 0 k lv false false s e st).
  Local Notation fails := (Err (EKeyNotFound (cur st))).

  (** An item after the object: its key if it is a member, text before its value, value, blanks. *)
  Definition sib : Type := (bytes * bytes * jv * bytes)%type.
  Definition sib_text (s : sib) : bytes := let '(_, h, v, t) := s in h ++ render v ++ t.
  Definition sib_item (s : sib) : bytes * jv := let '(x, _, v, _) := s in (x, v).
  Definition sib_ok (s : sib) : Prop :=
    let '(x, h, v, t) := s in (no_brace x = true -> no_brace h = true) /\ Jpass json k k h /\ wf v = true /\ ws_ok t = true /\
      (forall pre, nobs pre -> nobs (pre ++ h)).

  (** The search ends at the colon of a member with value [v]. *)
  Definition lands (v : jv) (r : res (nat * cst)) : Prop :=
    exists A m B, json = A ++ mem_head m ++ 58 :: mem_tail m ++ B /\ mem_ok m = true /\ terminated (m_post m ++ B) /\ m_val m = v /\
      r = Ok (k, CSt (S (length (A ++ mem_head m))) (brace st) (cur st) (Some (length (A ++ m_pre m ++ [34])))).
  Definition ends (o : Domains.outcome) (r : res (nat * cst)) : Prop :=
    match o with
    | Domains.Nowhere => r = fails
    | Domains.Stray v => S k = length path -> lands v r
    | Domains.Unclear => True
    end.
  Local Notation stray jump l := (Domains.stray jump (cur st) (map sib_item l)).

  (** At the level of the parent, the search and the jump over [l]. *)
  Definition FindA (l : list sib) : Prop := forall t pre c tail s e, ws_ok t = true -> is_close c = true -> nobs pre ->
    json = pre ++ t ++ jpost (map sib_text l) ++ c :: tail ->
    ends (stray false l) (KL (t ++ jpost (map sib_text l) ++ c :: tail) (length pre) k s e).
  Definition jumps (o : Domains.outcome) (text : bytes) (i : nat) (r : jump_out) : Prop :=
    o = Domains.Unclear \/
    match r with
    | JFail => o = Domains.Nowhere
    | JComma j => exists mid rest, text = mid ++ rest /\ (S j = i + length mid)%nat /\ forall s e, ends o (KL rest (S j) (S k) s e)
    | JEnd _ => False
    end.
  Definition FindJ (l : list sib) : Prop := forall t pre c tail, ws_ok t = true -> is_close c = true -> nobs pre ->
    json = pre ++ t ++ jpost (map sib_text l) ++ c :: tail ->
    jumps (stray true l) (t ++ jpost (map sib_text l) ++ c :: tail) (length pre)
      (jump_loop json (t ++ jpost (map sib_text l) ++ c :: tail) (length pre) k k false).

  (** Members of an object one level down. *)
  Lemma find_members l ms : FindJ l -> forallb mem_ok ms = true -> ms <> [] ->
    forall t pre c tail s e, ws_ok t = true -> is_close c = true -> nobs pre ->
    json = pre ++ join (map mem_text ms) ++ 125 :: t ++ jpost (map sib_text l) ++ c :: tail ->
    ends (match find_mem (cur st) ms with Some m => Domains.Stray (m_val m) | None => stray true l end)
      (KL (join (map mem_text ms) ++ 125 :: t ++ jpost (map sib_text l) ++ c :: tail) (length pre) (S k) s e).
  Proof.
    intros HJ Hok Hne t pre c tail s e Ht Hc Hn Hj.
    set (post := t ++ jpost (map sib_text l) ++ c :: tail) in *.
    destruct (find_mem (cur st) ms) as [m|] eqn:Ef.
    { cbn [ends]. intro Hk. apply find_mem_split in Ef. destruct Ef as (Hkm & l1 & l2 & -> & Hnl).
      rewrite forallb_app in Hok. cbn [forallb] in Hok. nbool.
      rewrite map_app in *. cbn [map] in *. rewrite join_split, mem_text_split in *.
      replace ((jpre (map mem_text l1) ++ (mem_head m ++ 58 :: mem_tail m) ++ jpost (map mem_text l2)) ++ 125 :: post)
        with (jpre (map mem_text l1) ++ mem_head m ++ 58 :: mem_tail m ++ jpost (map mem_text l2) ++ 125 :: post) in * by same_text.
      pose proof (key_found json path pre [] l1 m (mem_tail m ++ jpost (map mem_text l2) ++ 125 :: post) k st s e eq_refl) as E.
      cbn [app] in E. rewrite Hkm in E. cbv zeta in E. rewrite E; try assumption; [|reflexivity]. clear E.
      apply Nat.eqb_eq in Hk. rewrite Hk.
      exists (pre ++ jpre (map mem_text l1)), m, (jpost (map mem_text l2) ++ 125 :: post).
      split; [rewrite Hj; same_text|]. split; [assumption|]. split; [|split; reflexivity].
      apply term_ws; [unfold mem_ok in *; nbool; assumption|]. apply term_jpost. right. reflexivity. }
    apply find_mem_none in Ef. rename Ef into Hnk.
    destruct (exists_last Hne) as (ms0 & m & ->). clear Hne.
    rewrite forallb_app in Hok. cbn [forallb] in Hok. nbool. clear H1. rename H0 into Hokm.
    apply Forall_app in Hnk. destruct Hnk as [Hnl Hnm]. inversion Hnm as [|? ? Hkm _]. clear Hnm.
    rewrite map_app in *. cbn [map] in *. rewrite join_split, mem_text_split in *. change (jpost []) with (@nil N) in *.
    replace ((jpre (map mem_text ms0) ++ (mem_head m ++ 58 :: mem_tail m) ++ []) ++ 125 :: post)
      with (jpre (map mem_text ms0) ++ mem_head m ++ 58 :: mem_tail m ++ 125 :: post) in * by same_text.
    destruct (key_mismatches json path ms0 pre (mem_head m ++ 58 :: mem_tail m ++ 125 :: post) k st s e) as (s1 & e1 & E1);
      [assumption|assumption|exact Hj|assumption|]. rewrite E1. clear E1.
    assert (Hn2 : nobs (pre ++ jpre (map mem_text ms0))) by (apply nobs_jpre; exact Hn).
    set (p := pre ++ jpre (map mem_text ms0)) in *.
    assert (Hj2 : json = p ++ mem_head m ++ 58 :: mem_tail m ++ 125 :: post) by (rewrite Hj; unfold p; same_text).
    rewrite key_head; [|exact Hokm|exact Hn2|exact Hj2]. rewrite key_colon by exact Hj2.
    apply bytes_eqb_neq in Hkm. rewrite Hkm. rewrite <- (length_snoc (p ++ mem_head m) 58).
    assert (Hj3 : json = ((p ++ mem_head m) ++ [58]) ++ mem_tail m ++ 125 :: post) by (rewrite Hj2; same_text).
    rewrite jump_over_last; [|exact Hokm|exact Hj3|apply nobs_snoc; discriminate].
    set (p2 := ((p ++ mem_head m) ++ [58]) ++ mem_tail m ++ [125]) in *.
    assert (Hj4 : json = p2 ++ post) by (rewrite Hj3; unfold p2; same_text).
    assert (Hn4 : nobs p2) by (unfold p2; rewrite app_assoc; apply nobs_snoc; discriminate).
    specialize (HJ t p2 c tail Ht Hc Hn4 Hj4). fold post in HJ.
    destruct HJ as [HJ|HJ]; [rewrite HJ; exact I|].
    destruct (jump_loop json post (length p2) k k false) as [j| |q]; [|rewrite HJ; reflexivity|contradiction].
    destruct HJ as (mid & rest & Ep & Ej & HK). rewrite Ep.
    replace (mem_tail m ++ 125 :: mid ++ rest) with ((mem_tail m ++ 125 :: mid) ++ rest) by same_text.
    rewrite key_jumped; [apply HK|]. rewrite Ej. unfold p2. len.
  Qed.

  (** Elements of an array one level down. *)
  Lemma find_elements l els : FindA l -> forallb elem_ok els = true -> forallb (fun e => tame (e_val e)) els = true ->
    forall t pre c tail s e, ws_ok t = true -> is_close c = true -> nobs pre ->
    json = pre ++ join (map elem_text els) ++ 93 :: t ++ jpost (map sib_text l) ++ c :: tail ->
    ends (stray false l) (KL (join (map elem_text els) ++ 93 :: t ++ jpost (map sib_text l) ++ c :: tail) (length pre) (S k) s e).
  Proof.
    intros HA Hok Htame t pre c tail s e Ht Hc. set (post := t ++ jpost (map sib_text l) ++ c :: tail).
    assert (Hend : forall pre s e, json = pre ++ 93 :: post -> ends (stray false l) (KL (93 :: post) (length pre) (S k) s e)).
    { intros pr s1 e1 Hj. cbn [key_loop]. change (length pr <? 0)%nat with false. change (93 =? 34) with false. cbv iota.
      change (93 =? 58) with false. rewrite andb_false_r. change (93 =? 91) with false. change (93 =? 123) with false.
      change (is_close 93) with true. cbv iota. rewrite Nat.ltb_irrefl. cbn [pred]. rewrite <- (length_snoc pr 93).
      apply HA; try assumption; [apply nobs_snoc; discriminate|]. rewrite Hj. fold post. same_text. }
    revert pre s e. induction els as [|e0 els IH]; intros pre s e Hn Hj; [apply Hend; exact Hj|].
    cbn [forallb] in Hok, Htame. apply andb_true_iff in Hok, Htame. destruct Hok as [Hok0 Hok], Htame as [Ht0 Htame].
    cbn [map] in *. rewrite join_cons in *. unfold elem_text at 1. unfold elem_text at 1 in Hj. unfold elem_ok in Hok0. nbool.
    set (rest := jpost (map elem_text els) ++ 93 :: post) in *.
    assert (E : (e_pre e0 ++ render (e_val e0) ++ e_post e0) ++ jpost (map elem_text els) ++ 93 :: post = e_pre e0 ++ render (e_val e0) ++ e_post e0 ++ rest)
      by (unfold rest; same_text).
    rewrite <- app_assoc. rewrite <- app_assoc in Hj. rewrite E in *. rewrite key_ws by assumption. rewrite <- app_length.
    destruct (key_tame json path k (e_val e0) (pre ++ e_pre e0) (e_post e0 ++ rest) s e st) as (s1 & e1 & E1);
      [assumption|assumption|rewrite Hj; same_text|apply nobs_ws; assumption|]. rewrite E1. rewrite key_ws by assumption. rewrite <- app_length.
    set (p := ((pre ++ e_pre e0) ++ render (e_val e0)) ++ e_post e0) in *.
    assert (Hj2 : json = p ++ rest) by (rewrite Hj; unfold p; same_text).
    assert (Hnp : nobs p) by (unfold p; apply nobs_ws; [apply nobs_render; assumption|assumption]).
    unfold rest in *. destruct els as [|e2 els]; [apply Hend; exact Hj2|].
    cbn [map] in *. rewrite jpost_cons in *. cbn [app] in *. cbn [key_loop]. change (length p <? 0)%nat with false.
    change (44 =? 34) with false. change (44 =? 58) with false. rewrite andb_false_r. change (44 =? 91) with false. change (44 =? 123) with false.
    change (is_close 44) with false. cbv iota. rewrite <- (length_snoc p 44).
    rewrite join_cons in IH. apply IH; [assumption|assumption|apply nobs_snoc; discriminate|rewrite Hj2; same_text].
  Qed.

  Lemma fail_end t (pre : bytes) c tail s e lv : ws_ok t = true -> is_close c = true -> (lv <= k)%nat ->
    KL (t ++ c :: tail) (length pre) lv s e = fails.
  Proof.
    intros Ht Hc Hl. rewrite key_ws by assumption. cbn [key_loop]. match goal with |- context [(?z <? 0)%nat] => change (z <? 0)%nat with false end.
    assert (E : (lv <? S k)%nat = true) by (apply Nat.ltb_lt; lia).
    apply close_cases in Hc. destruct Hc; subst c; cbn -[Nat.ltb Nat.eqb]; rewrite andb_false_r, E; reflexivity.
  Qed.

  Lemma jumps_on o text1 text2 i1 i2 r : (exists a, text1 = a ++ text2 /\ i2 = (i1 + length a)%nat) -> jumps o text2 i2 r -> jumps o text1 i1 r.
  Proof.
    intros (a & -> & ->) [H|H]; [left; exact H|right]. destruct r as [j| |]; try exact H.
    destruct H as (mid & rest & -> & E & H). exists (a ++ mid), rest. rewrite app_assoc. split; [reflexivity|]. split; [rewrite app_length; lia|exact H].
  Qed.

  (** An item at the level of the parent. *)
  Lemma find_item x h v t' l : FindA l -> FindJ l -> sib_ok (x, h, v, t') ->
    forall p c tail s e, is_close c = true -> nobs p -> json = p ++ h ++ render v ++ t' ++ jpost (map sib_text l) ++ c :: tail ->
    ends (stray false ((x, h, v, t') :: l)) (KL (h ++ render v ++ t' ++ jpost (map sib_text l) ++ c :: tail) (length p) k s e).
  Proof.
    intros HA HJ (Hb & HJp & Hw & Ht' & Hnb) p0 c tail s e Hc Hn0 Hj0. cbn [map sib_item Domains.stray negb andb].
    destruct (Domains.no_brace x) eqn:Ex; [|exact I]. cbn [negb]. specialize (Hb Ex).
    set (post := t' ++ jpost (map sib_text l) ++ c :: tail) in *.
    assert (Hk : k <> S k) by lia.
    rewrite (Deep_flat json path k k h Hk Hb). rewrite <- app_length. set (p := p0 ++ h) in *.
    assert (Hn : nobs p) by (apply Hnb; exact Hn0).
    assert (Hjp : json = p ++ render v ++ post) by (rewrite Hj0; unfold p; same_text).
    assert (Hpost : forall p s e, json = p ++ post -> nobs p -> ends (stray false l) (KL post (length p) k s e)).
    { intros p1 s1 e1 Hj1 Hn1. apply HA; assumption. }
    destruct v as [y|y|w els|w ms]; cbn [orb andb].
    * rewrite (Deep_flat json path k k (render (JScalar y)) Hk) by (apply no_brace_scalar; exact Hw). rewrite <- app_length.
      apply Hpost; [rewrite Hjp; same_text|apply nobs_render; exact Hw].
    * destruct (Domains.no_brace y) eqn:Ey; [|exact I].
      rewrite (Deep_flat json path k k (render (JString y)) Hk).
      2:{ cbn [render]. change (34 :: y ++ [34]) with ([34] ++ y ++ [34]). rewrite !no_brace_app. rewrite (Ey : no_brace y = true). reflexivity. }
      rewrite <- app_length. apply Hpost; [rewrite Hjp; same_text|apply nobs_render; exact Hw].
    * destruct (forallb (fun e => Domains.tame (e_val e)) els) eqn:Et; [|exact I].
      rewrite wf_arr in Hw. nbool. rewrite render_arr in *. cbn [app] in *. rewrite <- !app_assoc in *. cbn [app] in *.
      cbn [key_loop]. change (length p <? 0)%nat with false. change (91 =? 34) with false. change (91 =? 58) with false. rewrite andb_false_r.
      cbn [N.eqb Pos.eqb]. rewrite key_ws by assumption. rewrite <- (length_snoc p 91), <- app_length.
      apply find_elements; try assumption; [apply nobs_ws; [apply nobs_snoc; discriminate|assumption]|rewrite Hjp; fold post; same_text].
    * rewrite wf_obj in Hw. nbool. rewrite render_obj in *. cbn [app] in *. rewrite <- !app_assoc in *. cbn [app] in *.
      cbn [key_loop]. change (length p <? 0)%nat with false. change (123 =? 34) with false. change (123 =? 58) with false. rewrite andb_false_r.
      cbn [N.eqb Pos.eqb]. rewrite key_ws by assumption. rewrite <- (length_snoc p 123), <- app_length.
      assert (Hjw : json = ((p ++ [123]) ++ w) ++ join (map mem_text ms) ++ 125 :: post) by (rewrite Hjp; same_text).
      destruct ms as [|m ms].
      -- cbn [map join app find_mem find] in *. cbn [key_loop]. match goal with |- context [(?z <? 0)%nat] => change (z <? 0)%nat with false end.
         change (125 =? 34) with false. change (125 =? 58) with false. rewrite andb_false_r. change (125 =? 91) with false. change (125 =? 123) with false.
         change (is_close 125) with true. cbv iota. rewrite Nat.ltb_irrefl. cbn [pred]. rewrite <- (length_snoc _ 125).
         apply Hpost; [rewrite Hjw; same_text|apply nobs_snoc; discriminate].
      -- apply find_members; try assumption; [discriminate|apply nobs_ws; [apply nobs_snoc; discriminate|assumption]].
  Qed.

  Lemma siblings l : Forall sib_ok l -> FindA l /\ FindJ l.
  Proof.
    induction l as [|[[[x h] v] t'] l IH]; intro Hok.
    - split.
      + intros t pre c tail s e Ht Hc Hn Hj. cbn [map]. change (jpost []) with (@nil N). cbn [Domains.stray ends]. apply fail_end; try assumption. lia.
      + intros t pre c tail Ht Hc Hn Hj. cbn [map] in *. change (jpost []) with (@nil N) in *. cbn [app] in *.
        rewrite jump_closes; [right; reflexivity|]. exists t, c, tail. auto.
    - inversion Hok as [|? ? H0 Hl]; subst. destruct (IH Hl) as [HA HJ]. clear IH Hok. pose proof H0 as Hitem. destruct H0 as (Hb & HJp & Hw & Ht' & Hnb).
      assert (Htext : forall r, jpost (map sib_text ((x, h, v, t') :: l)) ++ r = 44 :: h ++ render v ++ t' ++ jpost (map sib_text l) ++ r).
      { intro r. cbn [map]. rewrite jpost_cons. cbn [sib_text]. same_text. }
      split.
      + intros t pre c tail s e Ht Hc Hn Hj. rewrite Htext in *. rewrite key_ws by assumption. rewrite <- app_length.
        set (post := t' ++ jpost (map sib_text l) ++ c :: tail) in *.
        change (44 :: h ++ render v ++ post) with ([44] ++ h ++ render v ++ post).
        rewrite (Deep_flat json path k k [44]) by (lia || reflexivity). rewrite <- app_length.
        apply find_item; try assumption; [apply nobs_snoc; discriminate|rewrite Hj; fold post; same_text].
      + intros t pre c tail Ht Hc Hn Hj. rewrite Htext in *. cbn [map sib_item Domains.stray negb andb orb].
        set (post := t' ++ jpost (map sib_text l) ++ c :: tail) in *.
        set (p := ((pre ++ t) ++ [44]) ++ h).
        assert (Hhead : Jpass json k k (t ++ [44] ++ h)).
        { apply Jpass_app; [apply Jpass_ws; exact Ht|]. apply Jpass_app; [apply Jpass_sep; [left; reflexivity|left; lia]|exact HJp]. }
        assert (Hjp : json = p ++ render v ++ post) by (rewrite Hj; unfold p; same_text).
        assert (Hjh : json = pre ++ (t ++ [44] ++ h) ++ render v ++ post) by (rewrite Hj; same_text).
        replace (t ++ 44 :: h ++ render v ++ post) with ((t ++ [44] ++ h) ++ render v ++ post) by same_text.
        destruct (Hhead pre (render v ++ post) Hjh Hn) as [Hnp E]. rewrite E. clear E.
        replace (pre ++ t ++ [44] ++ h) with p in * by (unfold p; same_text).
        apply (jumps_on _ _ (render v ++ post) _ (length p)).
        { exists (t ++ [44] ++ h). split; [reflexivity|]. unfold p. len. }
        assert (Hgo : Jpass json k k (render v) ->
          jumps (stray true l) (render v ++ post) (length p) (jump_loop json (render v ++ post) (length p) k k false)).
        { intro HJv. destruct (HJv p post Hjp Hnp) as [Hn3 E]. rewrite E. clear E.
          apply (jumps_on _ _ post _ (length (p ++ render v))); [exists (render v); split; [reflexivity|len]|].
          apply HJ; try assumption. rewrite Hjp. fold post. same_text. }
        destruct v as [y|y|w [|e1 [|e2 els]]|w [|m1 [|m2 ms]]]; cbn [tl forallb Domains.thin find_mem find];
          try (apply Hgo; apply Jpass_thin; [exact Hw|reflexivity]).
        * clear Hgo. match goal with |- context [if ?z then _ else _] => destruct z eqn:Et; [|left; reflexivity] end.
          rewrite wf_arr in Hw. cbn [forallb] in Hw. nbool.
          set (mid := 91 :: w ++ elem_text e1).
          assert (Er : render (JArr w (e1 :: e2 :: els)) ++ post = mid ++ 44 :: join (map elem_text (e2 :: els)) ++ 93 :: post).
          { rewrite render_arr. unfold mid. cbn [map]. rewrite (join_cons (elem_text e1)), jpost_cons, (join_cons (elem_text e2)). same_text. }
          assert (Hmid : Jpass json k (S k) (w ++ elem_text e1)).
          { unfold elem_ok in *. nbool. apply Jpass_app; [apply Jpass_ws; assumption|]. unfold elem_text.
            apply Jpass_app; [apply Jpass_ws; assumption|]. apply Jpass_app; [apply Jpass_value1; [lia|assumption]|apply Jpass_ws; assumption]. }
          assert (Hjm : json = (p ++ [91]) ++ (w ++ elem_text e1) ++ 44 :: join (map elem_text (e2 :: els)) ++ 93 :: post).
          { rewrite Hjp, Er. unfold mid. same_text. }
          rewrite Er. right. unfold mid at 1. cbn [app jump_loop]. change (91 =? 34) with false. change (is_open 91) with true. cbv iota.
          rewrite <- (length_snoc p 91). destruct (Hmid _ _ Hjm) as [Hn3 E]; [apply nobs_snoc; discriminate|].
          rewrite E. clear E. cbn [jump_loop]. change (44 =? 34) with false. change (is_open 44) with false. change (is_close 44) with false.
          change (44 =? 44) with true. cbv iota. rewrite Nat.eqb_refl.
          exists (mid ++ [44]), (join (map elem_text (e2 :: els)) ++ 93 :: post). split; [same_text|]. split.
          { unfold mid. rewrite !app_length. cbn [length]. rewrite ?app_length. lia. }
          intros s e. rewrite <- (length_snoc _ 44). apply find_elements; try assumption; try (cbn [forallb]; rewrite ?andb_true_iff; repeat split; assumption);
            [apply nobs_snoc; discriminate|]. rewrite Hjm. fold post. same_text.
        * clear Hgo. rewrite wf_obj in Hw. cbn [forallb] in Hw. nbool.
          set (mid := 123 :: w ++ mem_text m1).
          assert (Er : render (JObj w (m1 :: m2 :: ms)) ++ post = mid ++ 44 :: join (map mem_text (m2 :: ms)) ++ 125 :: post).
          { rewrite render_obj. unfold mid. cbn [map]. rewrite (join_cons (mem_text m1)), jpost_cons, (join_cons (mem_text m2)). same_text. }
          assert (Hmid : Jpass json k (S k) (w ++ mem_text m1)).
          { unfold mem_ok in *. nbool. apply Jpass_app; [apply Jpass_ws; assumption|]. unfold mem_text.
            apply Jpass_app; [apply Jpass_ws; assumption|].
            match goal with |- Jpass _ _ _ (34 :: ?k ++ 34 :: ?t) => change (34 :: k ++ 34 :: t) with (34 :: k ++ [34] ++ t); rewrite app_assoc end.
            apply (Jpass_app _ _ _ (34 :: _)); [apply Jpass_string; assumption|].
            apply Jpass_app; [apply Jpass_ws; assumption|].
            apply (Jpass_app _ _ _ [58]); [apply Jpass_sep; right; reflexivity|].
            apply Jpass_app; [apply Jpass_ws; assumption|].
            apply Jpass_app; [apply Jpass_value1; [lia|assumption]|apply Jpass_ws; assumption]. }
          assert (Hjm : json = (p ++ [123]) ++ (w ++ mem_text m1) ++ 44 :: join (map mem_text (m2 :: ms)) ++ 125 :: post).
          { rewrite Hjp, Er. unfold mid. same_text. }
          rewrite Er. right. unfold mid at 1. cbn [app jump_loop]. change (123 =? 34) with false. change (is_open 123) with true. cbv iota.
          rewrite <- (length_snoc p 123). destruct (Hmid _ _ Hjm) as [Hn3 E]; [apply nobs_snoc; discriminate|].
          rewrite E. clear E. cbn [jump_loop]. change (44 =? 34) with false. change (is_open 44) with false. change (is_close 44) with false.
          change (44 =? 44) with true. cbv iota. rewrite Nat.eqb_refl.
          exists (mid ++ [44]), (join (map mem_text (m2 :: ms)) ++ 125 :: post). split; [same_text|]. split.
          { unfold mid. rewrite !app_length. cbn [length]. rewrite ?app_length. lia. }
          intros s e. rewrite <- (length_snoc _ 44).
          apply (find_members l (m2 :: ms)); try assumption; try (cbn [forallb]; rewrite ?andb_true_iff; repeat split; assumption);
            [discriminate|apply nobs_snoc; discriminate|rewrite Hjm; fold post; same_text].
  Qed.
End Siblings.

Lemma Jpass_head json k l m : mem_ok m = true -> Jpass json k l (m_pre m ++ 34 :: m_key m ++ obj_mid m).
Proof.
  unfold mem_ok, obj_mid. intro H. nbool. apply Jpass_app; [apply Jpass_ws; assumption|].
  match goal with |- Jpass _ _ _ (34 :: ?k ++ 34 :: ?t) => change (34 :: k ++ 34 :: t) with (34 :: k ++ [34] ++ t); rewrite app_assoc end.
  apply (Jpass_app _ _ _ (34 :: _)); [apply Jpass_string; assumption|]. apply Jpass_app; [apply Jpass_ws; assumption|].
  apply (Jpass_app _ _ _ [58]); [apply Jpass_sep; right; reflexivity|]. apply Jpass_ws. assumption.
Qed.

(** The result of [core] for a search that ends as in [Domains.outcome]. *)
Definition wants (d : doc) (x : bytes) (js : bool) (o : Domains.outcome) (r : res (option nat * nat * nat)) : Prop :=
  match o with
  | Domains.Nowhere => r = Err (EKeyNotFound x)
  | Domains.Stray v => exists A B ks, text d = A ++ render v ++ B /\ wf v = true /\ terminated B /\
      (exists p c, A = p ++ [c] /\ c <> 34) /\
      r = if js then Ok (Some ks, length A, O)
          else Ok (Some ks, (length A + qoff v)%nat, (length A + qoff v + length (bare v))%nat)
  | Domains.Unclear => True
  end.

(** From the end of the key search to the result. *)
Lemma ends_finish d path k st x js o z : cur st = x -> o = Domains.Nowhere \/ S k = length path -> ends (text d) path k st o z ->
  wants d x js o (bind (bind z (fun '(k', st') => OUT (text d) path (S k') st'))
    (fun st => if (offset st =? 0)%nat then Err (EBadJSON 0)
             else bind (skip_space (skipn (offset st) (text d)) (offset st))
                  (fun off' => if js then Ok (keyst st, off', O) else value_end (text d) (keyst st) off'))).
Proof.
  intros Hx Ho E.
  destruct o as [|v|]; cbn [ends] in E.
  - rewrite E, <- Hx. reflexivity.
  - destruct Ho as [Ho|Ho]; [discriminate|]. destruct (E Ho) as (A & m & B & Hjm & Hokm & HB & <- & Ez).
    rewrite Ez. cbn [bind]. rewrite OUT_end by lia. unfold wants.
    exists (A ++ mem_head m ++ 58 :: m_mid2 m), (m_post m ++ B), (length (A ++ m_pre m ++ [34])).
    assert (Hjv : text d = (A ++ mem_head m ++ 58 :: m_mid2 m) ++ render (m_val m) ++ m_post m ++ B) by (rewrite Hjm; unfold mem_tail; same_text).
    split; [exact Hjv|]. unfold mem_ok in Hokm. nbool. split; [assumption|]. split; [exact HB|]. split.
    { destruct (m_mid2 m) as [|c0 w0] eqn:Em using rev_ind; [exists (A ++ mem_head m), 58; split; [same_text|discriminate]|].
      exists (A ++ mem_head m ++ 58 :: w0), c0. split; [same_text|]. intros ->.
      match goal with H : ws_ok (w0 ++ [34]) = true |- _ => rewrite ws_ok_app in H; cbn in H; rewrite andb_false_r in H; discriminate H end. }
    eapply core_finish; try eassumption. do 3 eexists. exists ((A ++ mem_head m) ++ [58]), (m_mid2 m). split; [reflexivity|]. split; [lia|].
    split; [assumption|]. split; [rewrite length_snoc; reflexivity|same_text].
  - exact I.
Qed.

(** Absent key: the object is followed in its parent by [l]. *)
Lemma core_stray d q x rest w ms pre post js l t c tail :
  wf_doc d = true -> focus (d_val d) q pre (JObj w ms) post -> nokey x ms ->
  post ++ d_post d = t ++ jpost (map sib_text l) ++ c :: tail -> ws_ok t = true -> is_close c = true ->
  Forall (sib_ok (text d) (length q)) l ->
  let o := Domains.stray (Domains.filled_obj ms) x (map sib_item l) in
  o = Domains.Nowhere \/ rest = [] -> wants d x js o (core (text d) js (q ++ x :: rest)).
Proof.
  intros Hw Hf Hnk Ep Ht Hc Hl o Ho. destruct (core_reach d q x rest pre _ post Hw Hf eq_refl) as (r & Hat & Hcore). rewrite Hcore. clear Hcore.
  assert (Hwc : wf (JObj w ms) = true) by (eapply focus_wf; [exact Hf|unfold wf_doc in Hw; nbool; assumption]).
  destruct Hat as [Hj (s & e & o0 & br & Hbr & Hmk & Hr)]. rewrite Hr. clear Hr. unfold RK. rewrite nth_app_at.
  rewrite wf_obj in Hwc. nbool. rewrite Ep in *. set (st := CSt o0 br x None). destruct (siblings (text d) (q ++ x :: rest) (length q) st l Hl) as [HA HJ].
  rewrite key_ws by assumption. rewrite <- (length_snoc (d_pre d ++ pre) 123), <- app_length. set (p := ((d_pre d ++ pre) ++ [123]) ++ w).
  assert (Hjp : text d = p ++ join (map mem_text ms) ++ 125 :: t ++ jpost (map sib_text l) ++ c :: tail) by (rewrite Hj, render_obj; unfold p; same_text).
  assert (Hn : nobs p) by (unfold p; apply nobs_ws; [apply nobs_snoc; discriminate|assumption]).
  match goal with |- wants _ _ _ _ (bind (bind ?z _) _) => assert (E : ends (text d) (q ++ x :: rest) (length q) st o z) end.
  { destruct ms as [|m ms].
    - cbn [map join app] in *. cbn [key_loop]. match goal with |- context [(?z <? 0)%nat] => change (z <? 0)%nat with false end.
      change (125 =? 34) with false. change (125 =? 58) with false. rewrite andb_false_r. change (125 =? 91) with false. change (125 =? 123) with false.
      change (is_close 125) with true. cbv iota. rewrite Nat.ltb_irrefl. cbn [pred]. rewrite <- (length_snoc _ 125).
      apply HA; try assumption; [apply nobs_snoc; discriminate|rewrite Hjp; same_text].
    - pose proof (find_members (text d) (q ++ x :: rest) (length q) st l (m :: ms) HJ) as E.
      apply find_mem_none in Hnk. change (cur st) with x in E. rewrite Hnk in E. apply E; try assumption. discriminate. }
  apply (ends_finish d (q ++ x :: rest) (length q) st x js o _ eq_refl); [|exact E].
  destruct Ho as [Ho| ->]; [left; exact Ho|right; rewrite app_length; cbn [length]; lia].
Qed.

(** ** The items that follow *)
Definition arr_sibs (l : list (elem jv)) : list sib := map (fun e => ([], e_pre e, e_val e, e_post e)) l.
Definition obj_sibs (l : list (mem jv)) : list sib :=
  map (fun m => (m_key m, m_pre m ++ 34 :: m_key m ++ obj_mid m, m_val m, m_post m)) l.

Lemma arr_sibs_text l : map sib_text (arr_sibs l) = map elem_text l.
Proof. unfold arr_sibs. rewrite map_map. reflexivity. Qed.
Lemma obj_sibs_text l : map sib_text (obj_sibs l) = map mem_text l.
Proof. unfold obj_sibs. rewrite map_map. apply map_ext. intro m. unfold sib_text, mem_text, obj_mid. same_text. Qed.
Lemma arr_sibs_item l : map sib_item (arr_sibs l) = map (fun e => ([], e_val e)) l.
Proof. unfold arr_sibs. rewrite map_map. reflexivity. Qed.
Lemma obj_sibs_item l : map sib_item (obj_sibs l) = map (fun m => (m_key m, m_val m)) l.
Proof. unfold obj_sibs. rewrite map_map. reflexivity. Qed.

Lemma arr_sibs_ok json k l : forallb elem_ok l = true -> Forall (sib_ok json k) (arr_sibs l).
Proof.
  intro H. apply Forall_map. apply Forall_forallb in H. rewrite Forall_forall in *. intros e0 Hin.
  specialize (H _ Hin). unfold elem_ok in H. nbool. unfold sib_ok.
  split; [intros _; apply no_brace_ws; assumption|]. split; [apply Jpass_ws; assumption|]. do 2 (split; [assumption|]). intros p0 Hn0. apply nobs_ws; assumption.
Qed.

Lemma obj_sibs_ok json k l : forallb mem_ok l = true -> Forall (sib_ok json k) (obj_sibs l).
Proof.
  intro H. apply Forall_map. apply Forall_forallb in H. rewrite Forall_forall in *. intros m0 Hin.
  specialize (H _ Hin). pose proof H as Hok. unfold mem_ok in H. nbool. unfold sib_ok.
  split; [|split; [apply Jpass_head; exact Hok|do 2 (split; [assumption|])]].
  + intro Hb. unfold obj_mid. change (34 :: m_mid m0 ++ 58 :: m_mid2 m0) with ([34] ++ m_mid m0 ++ [58] ++ m_mid2 m0).
    change (34 :: m_key m0 ++ [34] ++ m_mid m0 ++ [58] ++ m_mid2 m0) with ([34] ++ m_key m0 ++ [34] ++ m_mid m0 ++ [58] ++ m_mid2 m0).
    rewrite !no_brace_app, !andb_true_iff. repeat split; try assumption; apply no_brace_ws; assumption.
  + intros p0 Hn0. unfold obj_mid. replace (p0 ++ m_pre m0 ++ 34 :: m_key m0 ++ 34 :: m_mid m0 ++ 58 :: m_mid2 m0)
      with (((p0 ++ m_pre m0 ++ 34 :: m_key m0 ++ 34 :: m_mid m0) ++ [58]) ++ m_mid2 m0) by same_text.
    apply nobs_ws; [apply nobs_snoc; discriminate|assumption].
Qed.

Lemma after_key_split x l1 m l2 : nokey x l1 -> m_key m = x -> Domains.after_key (V := jv) x (l1 ++ m :: l2) = l2.
Proof.
  intros Hn Hk. induction Hn as [|a l1 Ha Hn IH]; cbn.
  - rewrite Hk, bytes_eqb_refl. reflexivity.
  - apply bytes_eqb_neq in Ha. rewrite Ha. exact IH.
Qed.

Lemma followers_arr t q i pre w l1 e l2 post : focus t q pre (JArr w (l1 ++ e :: l2)) post -> atoi i = Some (Z.of_nat (length l1)) ->
  Domains.followers t q i = map sib_item (arr_sibs l2).
Proof.
  intros Hf Hi. unfold Domains.followers. rewrite (focus_lookup _ _ _ _ _ Hf), Hi, Nat2Z.id, arr_sibs_item. f_equal.
  clear. induction l1; cbn; [reflexivity|exact IHl1].
Qed.
Lemma followers_obj t q pre w l1 m l2 post : focus t q pre (JObj w (l1 ++ m :: l2)) post -> nokey (m_key m) l1 ->
  Domains.followers t q (m_key m) = map sib_item (obj_sibs l2).
Proof.
  intros Hf Hi. unfold Domains.followers. rewrite (focus_lookup _ _ _ _ _ Hf), obj_sibs_item. f_equal.
  apply after_key_split; [exact Hi|reflexivity].
Qed.

Lemma followers_split d q i pre v post : wf_doc d = true -> focus (d_val d) (q ++ [i]) pre v post ->
  exists l t c tail, post ++ d_post d = t ++ jpost (map sib_text l) ++ c :: tail /\ ws_ok t = true /\ is_close c = true /\
    (forall k, Forall (sib_ok (text d) k) l) /\ Domains.followers (d_val d) q i = map sib_item l.
Proof.
  intros Hw Hf. apply focus_split in Hf. destruct Hf as (pre1 & u & post1 & pre2 & post2 & Hf1 & Hf2 & -> & ->).
  assert (Hwu : wf u = true) by (eapply focus_wf; [exact Hf1|unfold wf_doc in Hw; nbool; assumption]).
  inversion Hf2; subst; match goal with H : focus _ [] _ _ _ |- _ => inversion H; subst end.
  - rewrite wf_arr, forallb_app in Hwu. cbn [forallb] in Hwu. nbool. pose proof H1 as Hoke. unfold elem_ok in H1. nbool.
    exists (arr_sibs l2), (e_post e), 93, (post1 ++ d_post d). split; [rewrite arr_sibs_text; unfold arr_post; same_text|].
    split; [assumption|]. split; [reflexivity|]. split; [intro k; apply arr_sibs_ok; assumption|]. eapply followers_arr; eassumption.
  - rewrite wf_obj, forallb_app in Hwu. cbn [forallb] in Hwu. nbool. pose proof H1 as Hokm. unfold mem_ok in H1. nbool.
    exists (obj_sibs l2), (m_post m), 125, (post1 ++ d_post d). split; [rewrite obj_sibs_text; unfold obj_post; same_text|].
    split; [assumption|]. split; [reflexivity|]. split; [intro k; apply obj_sibs_ok; assumption|]. eapply followers_obj; eassumption.
Qed.
