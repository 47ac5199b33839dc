(** C34: the listings do not panic where the path leads to a value. *)
From Coq Require Import String.
From Verif Require Import GoStd Json SpecIter SpecList Focus Domains Errors Core Api Iter IterProofs IterObj IterMisc ListExact.

Local Open Scope N_scope.

Lemma closed_after_dec d p v post : closed_after d p v post \/ ~ closed_after d p v post.
Proof.
  unfold closed_after. destruct p as [|x p]; [left; left; reflexivity|]. destruct (post ++ d_post d) as [|c r].
  - right. intros [E|(r & E)]; discriminate E.
  - destruct (N.eq_dec c (SpecIter.closing v)) as [->|N]; [left; right; eauto|]. right. intros [E|(r' & E)]; [discriminate E|congruence].
Qed.

Theorem listings_resolve {St} (cb : St -> bytes -> bytes -> St * (bool * option err)) s d p v : wf_doc d = true -> lookup (d_val d) p = Some v ->
  GetKeys (text d) p <> Panic /\ GetValues (text d) p <> Panic /\ GetKeysValues (text d) p <> Panic /\ GetMap (text d) p <> Panic /\
  IterateKeyValue (text d) cb p s <> IPanic.
Proof.
  intros Hw Hl. destruct (lookup_focus _ _ _ Hl) as (pre & post & Hf).
  assert (HM : GetMap (text d) p <> Panic).
  { destruct (container v) eqn:Hc; [|rewrite (getmap_scalar d p pre v post Hw Hf Hc); discriminate].
    destruct (get_map_exact d p pre v post Hw Hf Hc) as (H1 & H2 & H3).
    destruct (bytes_eqb (text d) (b "[]")) eqn:E1; [apply bytes_eqb_eq in E1; rewrite H1 by (left; exact E1); discriminate|].
    destruct (bytes_eqb (text d) (b "{}")) eqn:E2; [apply bytes_eqb_eq in E2; rewrite H1 by (right; exact E2); discriminate|].
    destruct (closed_after_dec d p v post) as [C|C]; [|rewrite (H3 C); discriminate].
    destruct H2 as (m & -> & _); [intro E; rewrite E in E1; discriminate E1|intro E; rewrite E in E2; discriminate E2|exact C|discriminate]. }
  destruct (SpecIter.is_obj v) eqn:Ho.
  - destruct v as [| | |w ms]; try discriminate Ho.
    rewrite (get_keys d p w ms Hw Hl), (get_values_exact d p w ms Hw Hl), (get_keys_values_exact d p w ms Hw Hl), (iterate_kv_exact cb d p w ms s Hw Hl).
    destruct (bytes_eqb (text d) (b "{}")); repeat split; try discriminate; exact HM.
  - destruct (get_kv_wrong d p v Hw Hl Ho) as (-> & -> & ->). rewrite (iterate_kv_wrong cb d p v s Hw Hl Ho). repeat split; try discriminate; exact HM.
Qed.
