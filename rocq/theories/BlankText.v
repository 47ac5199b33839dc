(** C34: texts of blanks only. *)
From Coq Require Import String.
From Verif Require Import GoStd Core Errors Api Typed Iter Make.

Local Open Scope N_scope.

Lemma skip_blank t : forallb space t = true -> forall i, skip_space t i = Panic.
Proof.
  induction t as [|c t IH]; intros H i; [reflexivity|]. cbn in *. destruct (space c); [apply IH; exact H|discriminate H].
Qed.

Section Blank.
  Variable t : bytes.
  Hypothesis Hb : forallb space t = true.
  Hypothesis Hl : (2 <= length t)%nat.

  Local Lemma long : (length t <? 2)%nat = false.
  Proof. apply Nat.ltb_ge. exact Hl. Qed.
  Local Lemma core_blank f p : core t f p = Panic.
  Proof. unfold core. rewrite long. destruct p; [reflexivity|]. rewrite skip_blank by exact Hb. reflexivity. Qed.
  Local Lemma start_blank p : start_of t p = Panic.
  Proof. unfold start_of. destruct p; [apply skip_blank; exact Hb|]. rewrite core_blank. reflexivity. Qed.
  Local Lemma cons_blank : exists c r, t = c :: r.
  Proof. destruct t as [|c r]; [cbn in Hl; lia|eauto]. Qed.
  Local Lemma not_braces : bytes_eqb t (b "{}") = false /\ bytes_eqb t (b "[]") = false.
  Proof.
    split; (destruct (bytes_eqb t _) eqn:E; [apply bytes_eqb_eq in E; rewrite E in Hb; discriminate Hb|reflexivity]).
  Qed.

  Theorem blank_reads F (ff : bytes -> option F) (pf : bytes -> bool) q :
    GetKeys t q = Panic /\ GetValues t q = Panic /\ GetKeysValues t q = Panic /\ GetMap t q = Panic /\ GetType pf t q = Panic /\
    IsObject t q = Panic /\ IsArray t q = Panic /\ IsValue t q = Panic /\ IsEmpty t q = Panic /\ Length t q = Panic /\
    (q <> [] -> Get t q = Panic /\ GetString t q = Panic /\ GetInt t q = Panic /\ GetBool t q = Panic /\ GetFloat ff t q = Panic /\
       GetStringArray t q = Panic /\ GetIntArray t q = Panic /\ GetBoolArray t q = Panic /\ GetFloatArray ff t q = Panic).
  Proof.
    destruct not_braces as [N1 N2]. destruct cons_blank as (c & r & E).
    assert (S : getStartEnd t q = Panic).
    { unfold getStartEnd. rewrite long. destruct q; [rewrite skip_blank by exact Hb|rewrite core_blank]; reflexivity. }
    unfold GetKeys, GetValues, GetKeysValues, GetMap, GetType, IsObject, IsArray, IsValue, Length, typeControlCore.
    rewrite N1, N2, start_blank, S. rewrite E at 1 2 3 4.
    do 8 (split; [reflexivity|]). split.
    - unfold IsEmpty. rewrite E at 1. destruct q; [rewrite skip_blank by exact Hb|rewrite core_blank]; reflexivity.
    - split; [reflexivity|]. intro Hq. assert (G : Get t q = Panic) by (destruct q; [contradiction|]; cbn [Get]; rewrite core_blank; reflexivity).
      unfold GetInt, GetBool, GetFloat, GetStringArray, GetIntArray, GetBoolArray, GetFloatArray, GetString. rewrite G. repeat split; reflexivity.
  Qed.

  Theorem blank_writes new key value index q :
    Store t key value q = UPanic /\
    (q <> [] -> Set_ t new q = UPanic /\ Delete t q = UPanic /\ Add_ t new q = UPanic /\ AddKeyValue t key value q = UPanic /\ Insert t index new q = UPanic /\
       (key <> [] -> SetKey t key q = UPanic)).
  Proof.
    unfold Store, Set_, Delete, Add_, AddKeyValue, Insert, SetKey, target_span. rewrite long, !core_blank. split; [reflexivity|].
    intro Hq. destruct q as [|x q]; [contradiction|]. rewrite ?core_blank. do 5 (split; [reflexivity|]). intro Hk. destruct key; [contradiction|]. reflexivity.
  Qed.

  Theorem blank_schemes (pf : bytes -> bool) k ks :
    MutateJson pf (k :: ks) t = Panic /\ MutateJsonAbs pf (k :: ks) t = Panic /\ Check (k :: ks) t = Panic /\ CheckAbs ks t = Panic.
  Proof.
    assert (G : Get t [k] = Panic) by (cbn [Get]; rewrite core_blank; reflexivity).
    unfold MutateJson, MutateJsonAbs, CheckAbs. cbn [mutate mutate_abs Check]. unfold GetString. rewrite G.
    destruct (blank_reads unit (fun _ => None) pf []) as [K _]. rewrite K. repeat split; reflexivity.
  Qed.
End Blank.
