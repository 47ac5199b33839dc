(** A Parser of a document made of nested Go maps and slices (C80). *)
From Coq Require Import String Lia.
From Verif Require Import GoStd Json Spec SpecProofs SpecFlat Domains Core Skip Errors Api Updates Parse Ops History SpecParser Parser ParserProofs SpecParserOps ParserGet ParserUpd ParserOps ParserInsert ParserRefuse
  Typed TypedProofs SpecTyped Make Flat SpecMade Made SpecDeep Deep.

Local Open Scope N_scope.

Lemma cont_lookup_child pf m x : good pf m -> child (tree (cont pf m)) x = option_map (fun c => tree (cont pf c)) (m_child m x).
Proof.
  intro H. destruct m as [s|ps|ms]; cbn [cont m_child].
  - destruct (tok_simple pf s H) as [(-> & _)|(-> & _)]; reflexivity.
  - cbn [tree]. rewrite map_map. cbn [child]. clear H. induction ps as [|[k v] ps IH]; [reflexivity|]. unfold find_mem in *. cbn [map find assoc fst snd m_key]. destruct (bytes_eqb k x); [reflexivity|exact IH].
  - cbn [tree]. rewrite map_map. cbn [child]. destruct (atoi x) as [z|]; [|reflexivity]. rewrite nth_z_map. destruct (nth_z ms z); reflexivity.
Qed.
Lemma cont_straight pf p : forall m x, good pf m -> m_at m p = Some x -> m_straight m p -> straight (tree (cont pf m)) p = true.
Proof.
  induction p as [|y p IH]; intros m x H Ha Hs; [reflexivity|]. cbn [m_at m_straight straight] in *. destruct Hs as [Hs Hr]. rewrite (cont_lookup_child pf m y H).
  destruct (m_child m y) as [c|] eqn:E; [|discriminate]. cbn [option_map]. rewrite (IH c x (good_child _ _ _ _ H E) Ha Hr), andb_true_r. destruct m as [s|ps|ms]; [discriminate E|reflexivity|].
  destruct Hs as [H1 H2]. cbn [cont tree]. cbn [m_child] in E. destruct (atoi y) as [z|] eqn:Ez; [|discriminate]. rewrite map_map. cbn [exact_step]. rewrite Ez, (H2 z eq_refl), (proj2 (bytes_eqb_eq y y) eq_refl), andb_true_r.
  destruct ms as [|v [|v' ms]]; [reflexivity| |reflexivity]. cbn [map lonely]. destruct v as [s|ps|ms]; [contradiction (H1 s); reflexivity|reflexivity|reflexivity].
Qed.
Theorem deep_parser pf m : good pf m -> filled m ->
  exists p, Parse (make pf m) = Ok p /\ P_JSON p = make pf m /\
    (forall q x, q <> [] -> m_at m q = Some x -> m_straight m q -> P_Get p q = Ok (make pf x)) /\
    (fits (make pf m) -> forall q t, P_Get p q = Ok t -> exists x, m_at m q = Some x /\ (q <> [] -> t = make pf x)).
Proof.
  intros H Hf. destruct (cont_ok pf m H) as (W & _). pose proof (make_text pf m H Hf) as E.
  assert (C : container (d_val (plain (cont pf m))) = true) by (destruct m; [contradiction|reflexivity|reflexivity]).
  destruct (parse_holds (plain (cont pf m)) (plain_wf _ W) C) as (p & Ep & Hp). rewrite <- E in Ep. exists p. split; [exact Ep|].
  destruct (holds_answers _ _ _ Hp) as (A1 & A2 & A3 & _). rewrite <- E in A1. split; [exact A1|]. split.
  - intros q x Hq Ha Hs. destruct (A2 q (tree (cont pf x))) as [G _].
    + apply flat_lookup. rewrite cont_at, Ha by exact H. reflexivity.
    + exact Hq.
    + eapply cont_straight; eassumption.
    + rewrite G, bare_shown. f_equal. apply cont_ok. eapply good_at; eassumption.
  - intros Fi q t G. rewrite E in Fi. destruct (A3 q t Fi G) as [L L']. 
    destruct (m_at m q) as [x|] eqn:Ha.
    + exists x. split; [reflexivity|]. intro Hq. rewrite <- E in L'. destruct (deep_reads pf m q x H Hf Ha) as [R _]. rewrite (R Hq) in L'. congruence.
    + exfalso. apply L. destruct (lookup (d_val (plain (cont pf m))) q) as [u|] eqn:El; [|reflexivity]. exfalso. pose proof (cont_at pf q m H) as D. rewrite Ha in D. cbn [option_map] in D.
      rewrite <- (content_tree (cont pf m)), lookup_content in D. cbn [plain d_val] in El. rewrite El in D. discriminate D.
Qed.
