(** More proofs for C75: cutting twice, formatting, listings, iterators, typed writers and JO. *)
From Coq Require Import String.
From Verif Require Import GoStd Json Core Errors Api Format Iter Typed JO SpecUtf8 NoPanic Splice Utf8Proofs.

Local Open Scope N_scope.

(** ** A text is encoded in one way only *)
Lemma div64 c : c = 64 * (c / 64) + c mod 64. Proof. apply N.div_mod'. Qed.
Lemma div4096 c : c / 4096 = c / 64 / 64. Proof. rewrite N.div_div by discriminate. reflexivity. Qed.
Lemma div262144 c : c / 262144 = c / 4096 / 64. Proof. rewrite N.div_div by discriminate. reflexivity. Qed.
Lemma encode_class c : c < 1114112 -> exists l r, encode c = l :: r /\
  ((c < 128 /\ l = c /\ r = []) \/
   (128 <= l < 224 /\ l = 192 + c / 64 /\ r = [128 + c mod 64]) \/
   (224 <= l < 240 /\ l = 224 + c / 4096 /\ r = [128 + (c / 64) mod 64; 128 + c mod 64]) \/
   (240 <= l /\ l = 240 + c / 262144 /\ r = [128 + (c / 4096) mod 64; 128 + (c / 64) mod 64; 128 + c mod 64])).
Proof.
  intro B. unfold encode. destruct (c <? 128) eqn:C1; [|destruct (c <? 2048) eqn:C2; [|destruct (c <? 65536) eqn:C3]]; rewrite ?N.ltb_lt, ?N.ltb_ge in *; do 2 eexists; (split; [reflexivity|]).
  - left. auto.
  - right. left. pose proof (N.div_lt_upper_bound c 64 32 ltac:(discriminate) ltac:(lia)). generalize dependent (c / 64). intros q Hq. repeat split; lia.
  - right. right. left. pose proof (N.div_lt_upper_bound c 4096 16 ltac:(discriminate) ltac:(lia)). generalize dependent (c / 4096). intros q Hq. repeat split; lia.
  - right. right. right. generalize (c / 262144). intro q. repeat split; lia.
Qed.
Lemma cons_eq (x y : N) l m : x :: l = y :: m -> x = y /\ l = m. Proof. intro H. injection H. auto. Qed.
Lemma encode_inj c d x y : scalar_value c -> scalar_value d -> encode c ++ x = encode d ++ y -> c = d /\ x = y.
Proof.
  intros Hc Hd. assert (Bc : c < 1114112) by (destruct Hc; lia). assert (Bd : d < 1114112) by (destruct Hd; lia). clear Hc Hd.
  assert (M : forall a e, a / 64 = e / 64 -> a mod 64 = e mod 64 -> a = e) by (intros a e E1 E2; rewrite (div64 a), (div64 e), E1, E2; reflexivity).
  assert (Mq : forall a e, a / 4096 = e / 4096 -> (a / 64) mod 64 = (e / 64) mod 64 -> a mod 64 = e mod 64 -> a = e) by (intros a e E1 E2 E3; apply M; [|exact E3]; apply M; [rewrite <- !div4096; exact E1|exact E2]).
  assert (Mh : forall a e, a / 262144 = e / 262144 -> (a / 4096) mod 64 = (e / 4096) mod 64 -> (a / 64) mod 64 = (e / 64) mod 64 -> a mod 64 = e mod 64 -> a = e)
    by (intros a e E1 E2 E3 E4; apply Mq; [|exact E3|exact E4]; apply M; [rewrite <- !div262144; exact E1|exact E2]).
  destruct (encode_class c Bc) as (l & r & -> & Kc), (encode_class d Bd) as (l' & r' & -> & Kd). cbn [app]. intro E. injection E as <- E.
  destruct Kc as [(C1 & C2 & ->)|[(C1 & C2 & ->)|[(C1 & C2 & ->)|(C1 & C2 & ->)]]], Kd as [(D1 & D2 & ->)|[(D1 & D2 & ->)|[(D1 & D2 & ->)|(D1 & D2 & ->)]]]; try (exfalso; lia);
  rewrite C2 in D2; cbn [app] in E; repeat match goal with H : _ :: _ = _ :: _ |- _ => apply cons_eq in H; destruct H end; repeat match goal with H : ?k + _ = ?k + _ |- _ => apply N.add_cancel_l in H end; split; auto; congruence.
Qed.
Lemma utf8_cancel A B : utf8 A -> utf8 (A ++ B) -> utf8 B.
Proof.
  intros (cs & Hcs & ->) (ds & Hds & E). revert ds Hds E. induction cs as [|c cs IH]; intros ds Hds E; cbn [flat_map app] in E; [exists ds; auto|].
  inversion Hcs as [|? ? Hc Hcs']; subst. destruct ds as [|d ds]; cbn [flat_map] in E.
  - exfalso. apply (f_equal (@length N)) in E. rewrite !app_length in E. cbn in E. assert (length (encode c) <> O); [|lia]. unfold encode. destruct (c <? 128); [|destruct (c <? 2048); [|destruct (c <? 65536)]]; discriminate.
  - inversion Hds as [|? ? Hd Hds']; subst. rewrite <- app_assoc in E. destruct (encode_inj _ _ _ _ Hc Hd E) as [_ E']. exact (IH Hcs' ds Hds' E').
Qed.
Lemma slice_cut json s e r : cut json s -> cut json e -> slice json s e = Ok r -> utf8 r.
Proof.
  intros [H1 _] [H2 _] H. unfold slice in H. destruct ((s <=? e)%nat && (e <=? length json)%nat)%bool eqn:E; [|discriminate]. injection H as <-.
  apply andb_true_iff in E. destruct E as [E _]. apply Nat.leb_le in E. apply (utf8_cancel (firstn s json)); [exact H1|].
  replace (firstn s json ++ firstn (e - s) (skipn s json)) with (firstn e json); [exact H2|]. clear -E. revert json e E. induction s as [|s IH]; intros json e E; [cbn; f_equal; lia|].
  destruct json as [|c json]; [rewrite !firstn_nil; destruct (e - S s)%nat; reflexivity|]. destruct e as [|e]; [lia|]. cbn [firstn skipn app Nat.sub]. f_equal. apply IH. lia.
Qed.

(** ** Formatting *)
Inductive laid : bytes -> bytes -> Prop :=
| laid_nil : laid [] []
| laid_keep c x y : laid x y -> laid (c :: x) (c :: y)
| laid_low c t x y : c < 128 -> Forall (fun d => d < 128) t -> laid x y -> laid (c :: x) (t ++ y).
Lemma laid_high : forall h x y, Forall (fun d => 128 <= d) h -> laid (h ++ x) y -> exists y', y = h ++ y' /\ laid x y'.
Proof.
  induction h as [|c h IH]; intros x y Hh H; [exists y; auto|]. inversion Hh as [|? ? Hc Hh']; subst. cbn [app] in H.
  inversion H as [|? ? y0 H0|? t ? y0 L _ _]; subst; [|lia]. destruct (IH x y0 Hh' H0) as (y' & -> & H'). exists y'. auto.
Qed.
Lemma laid_utf8 x y : utf8 x -> laid x y -> utf8 y.
Proof.
  intros (cs & Hcs & ->). revert y. induction cs as [|c cs IH]; intros y H; cbn [flat_map] in H; [inversion H; subst; apply utf8_nil|].
  inversion Hcs as [|? ? Hc Hcs']; subst. destruct (N.lt_ge_cases c 128) as [L|L].
  - rewrite (encode_low c L) in H. cbn [app] in H. inversion H as [|? ? y0 H0|? t ? y0 L' Ht H0]; subst; specialize (IH Hcs' y0 H0); [apply utf8_cons; assumption|apply utf8_app; [apply utf8_all_low, Ht|exact IH]].
  - destruct (laid_high _ _ _ (encode_high c L) H) as (y' & -> & H'). apply utf8_app; [|exact (IH Hcs' y' H')]. exists [c]. split; [constructor; [exact Hc|constructor]|]. cbn. symmetry. apply app_nil_r.
Qed.
Lemma laid_drop c x y : c < 128 -> laid x y -> laid (c :: x) y.
Proof. intros. apply (laid_low c [] x y); [assumption|constructor|assumption]. Qed.
Lemma flatten_laid : forall n x inq, (length x <= n)%nat -> laid x (flatten x inq).
Proof.
  induction n as [|n IH]; intros x inq Hn; (destruct x as [|c x]; [constructor|cbn [length] in Hn; try lia]). cbn [flatten].
  destruct (c =? 92); [destruct x as [|d x]; [repeat constructor|cbn [length] in Hn; do 2 constructor; apply IH; lia]|].
  destruct (c =? 34); [constructor; apply IH; lia|]. destruct inq; [constructor; apply IH; lia|].
  destruct (space c) eqn:E; [apply laid_drop; [apply space_low, E|]|constructor]; apply IH; lia.
Qed.
Theorem flatten_utf8 json : utf8 json -> utf8 (Flatten json).
Proof. intro H. apply (laid_utf8 json); [exact H|]. apply (flatten_laid _ _ _ (le_n _)). Qed.
Lemma tabs_low n t : createTabs n = Ok t -> Forall (fun d => d < 128) t.
Proof. unfold createTabs. destruct (n <? 0)%Z; [discriminate|]. intro H. injection H as <-. generalize (Z.to_nat n). induction n0; cbn [repeat]; constructor; [lia|assumption]. Qed.
Lemma indent_laid : forall x prev level inq y, indent_loop x prev level inq = Ok y -> laid x y.
Proof.
  induction x as [|c x IH]; intros prev level inq y H; cbn [indent_loop] in H; [injection H as <-; constructor|].
  assert (K : forall t prev level inq, emit t (indent_loop x prev level inq) = Ok y -> exists y', y = t ++ y' /\ laid x y').
  { intros t p l i E. unfold emit in E. destruct (indent_loop x p l i) as [o| |] eqn:Eo; cbn [bind] in E; try discriminate. injection E as <-. exists o. split; [reflexivity|]. eapply IH; eassumption. }
  assert (K1 : forall prev level inq, emit [c] (indent_loop x prev level inq) = Ok y -> laid (c :: x) y).
  { intros p l i E. destruct (K _ _ _ _ E) as (y' & -> & Hl). apply (laid_keep c x y' Hl). }
  destruct (c =? 34); [destruct prev; [eapply K1; eassumption|discriminate]|]. destruct inq; [eapply K1; eassumption|].
  destruct (space c) eqn:Es; [apply laid_drop; [apply space_low, Es|eapply IH; eassumption]|].
  destruct (is_open c) eqn:Eo.
  { destruct (createTabs (level + 1)) as [t| |] eqn:Et; cbn [bind] in H; try discriminate. apply tabs_low in Et. destruct (K _ _ _ _ H) as (y' & -> & Hl).
    apply laid_low; [apply open_low, Eo|repeat constructor; [apply open_low, Eo|exact Et]|exact Hl]. }
  destruct (is_close c) eqn:Ec.
  { destruct (createTabs (level - 1)) as [t| |] eqn:Et; cbn [bind] in H; try discriminate. apply tabs_low in Et. destruct (K _ _ _ _ H) as (y' & -> & Hl).
    apply (laid_low c (10 :: t ++ [c])); [apply close_low, Ec| |exact Hl]. constructor; [lia|]. apply Forall_app. split; [exact Et|]. repeat constructor. apply close_low, Ec. }
  destruct (c =? 44) eqn:E44.
  { apply N.eqb_eq in E44. subst c. destruct (createTabs level) as [t| |] eqn:Et; cbn [bind] in H; try discriminate. apply tabs_low in Et. destruct (K _ _ _ _ H) as (y' & -> & Hl).
    apply laid_low; [lia|repeat constructor; exact Et|exact Hl]. }
  destruct (c =? 58) eqn:E58; [|eapply K1; eassumption]. apply N.eqb_eq in E58. subst c. destruct (K _ _ _ _ H) as (y' & -> & Hl). apply laid_low; [lia|repeat constructor|exact Hl].
Qed.
Theorem indent_utf8 json out : utf8 json -> Indent json = Ok out -> utf8 out.
Proof. intros Hu H. apply (laid_utf8 (Flatten json)); [apply flatten_utf8, Hu|]. eapply indent_laid. exact H. Qed.

(** ** Trimming *)
Lemma trim1_split : forall s, exists w, s = w ++ trim1 s /\ Forall (fun c => c < 128) w.
Proof.
  induction s as [|c [|d s] IH]; [exists []; auto|exists []; auto|]. cbn [trim1]. destruct (space c) eqn:E; [|exists []; auto].
  destruct IH as (w & Hs & Hw). exists (c :: w). split; [cbn [app]; f_equal; exact Hs|constructor; [apply space_low, E|exact Hw]].
Qed.
Lemma utf8_trim s : utf8 s -> utf8 (trim1 s).
Proof. intro H. destruct (trim1_split s) as (w & E & Hw). rewrite E in H. exact (utf8_cancel w _ (utf8_all_low _ Hw) H). Qed.
Lemma utf8_trim_end s : utf8 s -> utf8 (rev (trim1 (rev s))).
Proof.
  intro H. destruct (trim1_split (rev s)) as (w & E & Hw). apply (f_equal (@rev N)) in E. rewrite rev_involutive, rev_app_distr in E.
  destruct w as [|c w _] using rev_ind; [cbn in E; rewrite app_nil_r in E; rewrite <- E; exact H|]. apply Forall_app in Hw. destruct Hw as [_ Hw]. inversion Hw as [|? ? Hc _]; subst.
  rewrite rev_app_distr in E. cbn [rev app] in E. rewrite E in H. apply (utf8_cut _ c _ Hc) in H. apply H.
Qed.
Lemma clean_utf8 s v : utf8 s -> cleanValue s = Ok v -> utf8 v.
Proof.
  intros Hu H. unfold cleanValue in H. destruct s as [|c0 s0]; [injection H as <-; exact Hu|]. apply utf8_trim, utf8_trim_end in Hu. set (t := rev (trim1 (rev (trim1 (c0 :: s0))))) in *. clearbody t.
  destruct (hd 0 t =? 34) eqn:E1; cbn [andb] in H; [|injection H as <-; exact Hu]. destruct (last t 0 =? 34) eqn:E2; [|injection H as <-; exact Hu].
  apply N.eqb_eq in E1, E2. destruct t as [|c [|d r]]; try discriminate. injection H as <-. cbn [hd] in E1. subst c.
  change (last (34 :: d :: r) 0) with (last (d :: r) 0) in E2. rewrite (app_removelast_last 0 (l := d :: r)) in Hu by discriminate. rewrite E2 in Hu.
  apply (utf8_cut [] 34) in Hu; [|lia]. destruct Hu as [_ Hu]. apply (utf8_cut _ 34) in Hu; [apply Hu|lia].
Qed.
Lemma nth_low s n c : nth n s 0 = c -> c <> 0 -> nth_error s n = Some c.
Proof. intros H Hc. destruct (nth_error s n) as [d|] eqn:E; [rewrite (nth_error_nth _ _ 0 E) in H; congruence|]. apply nth_error_None in E. rewrite nth_overflow in H by exact E. congruence. Qed.
Lemma cut_len s n : utf8 s -> (length s <= n)%nat -> cut s n.
Proof. intros Hu H. split; [rewrite firstn_all2 by exact H; exact Hu|rewrite skipn_all2 by exact H; apply utf8_nil]. Qed.
Lemma cvs_cut s : utf8 s -> forall e, (cut s (S e)) -> cut s (S (cvs_end s e)).
Proof.
  intros Hu. induction e as [|[|e] IH]; intro Hc; cbn [cvs_end]; auto. destruct (space (nth (S (S e)) s 0)) eqn:E; [|exact Hc].
  apply IH. apply (cut_before s (S (S e)) (nth (S (S e)) s 0) Hu); [|apply space_low, E]. apply nth_low; [reflexivity|]. intro X. rewrite X in E. discriminate.
Qed.
Lemma cleans_utf8 s v : utf8 s -> cleanValueString s = Ok v -> utf8 v.
Proof.
  intros Hu H. unfold cleanValueString in H. destruct s as [|c0 s0]; [discriminate|]. set (s := c0 :: s0) in *.
  assert (Hs : cut s (length s - length (trim1 s))).
  { destruct (trim1_split s) as (w & E & Hw). assert (L : (length s - length (trim1 s))%nat = length w) by (rewrite E at 1; rewrite app_length; lia). rewrite L. split.
    - rewrite E, firstn_at by reflexivity. apply utf8_all_low, Hw.
    - rewrite E, skipn_app_len by reflexivity. apply utf8_trim, Hu. }
  pose proof (cvs_cut s Hu (pred (length s)) ltac:(apply cut_len; [exact Hu|lia])) as He.
  set (st := (length s - length (trim1 s))%nat) in *. set (e := cvs_end s (pred (length s))) in *. clearbody st e.
  destruct (nth st s 0 =? 34) eqn:E1; cbn [andb] in H; [|exact (slice_cut _ _ _ _ Hs He H)]. destruct (nth e s 0 =? 34) eqn:E2; [|exact (slice_cut _ _ _ _ Hs He H)].
  apply N.eqb_eq in E1, E2. apply nth_low in E1; [|discriminate]. apply nth_low in E2; [|discriminate].
  eapply slice_cut; [| |exact H]; [eapply cut_at; [exact Hu|exact E1|lia]|eapply cut_before; [exact Hu|exact E2|lia]].
Qed.

(** ** Iterators: [P] is kept by the callback on texts in UTF-8 *)
Section Iterators.
  Context {St : Type}.
  Variable P : St -> Prop.
  Definition holds (r : itres St) : Prop := match r with IDone s _ => P s | IPanic => True end.

  Lemma iter_arr_utf8 json closes cb : utf8 json -> (forall s v, P s -> utf8 v -> P (fst (cb s v))) ->
    forall rest i start lv inq s, rest = skipn i json -> cut json start -> P s -> holds (iter_arr json closes cb rest i start lv inq s).
  Proof.
    intros Hu Hcb. induction rest as [|c r IH]; intros i start lv inq s Hr Hs HP; cbn [iter_arr]; [exact HP|]. apply skipn_step in Hr. destruct Hr as [Hc Hr].
    destruct (c =? 34); [apply IH; assumption|]. destruct inq; [apply IH; assumption|]. destruct (is_open c); [apply IH; assumption|].
    assert (V : forall v v', cut json i -> slice json start i = Ok v -> cleanValue v = Ok v' -> utf8 v') by (intros v v' Hi E1 E2; eapply clean_utf8; [|exact E2]; eapply slice_cut; [exact Hs|exact Hi|exact E1]).
    destruct (is_close c) eqn:Ec.
    { destruct (lv =? 0)%nat; [exact HP|]. destruct ((c =? 93) && (lv =? 1)%nat)%bool; [|apply IH; assumption]. unfold ibind.
      destruct (slice json start i) as [v| |] eqn:E1; [|exact HP|exact I]. destruct (cleanValue v) as [v'| |] eqn:E2; [|exact HP|exact I].
      pose proof (Hcb s v' HP (V v v' (cut_before json i c Hu Hc (close_low c Ec)) eq_refl E2)) as K. destruct (cb s v') as [s' [g e]]. exact K. }
    destruct ((lv =? 1)%nat && (c =? 44))%bool eqn:E44; [|apply IH; assumption]. apply andb_true_iff in E44. destruct E44 as [_ E44]. apply N.eqb_eq in E44. subst c. unfold ibind.
    destruct (slice json start i) as [v| |] eqn:E1; [|exact HP|exact I]. destruct (cleanValue v) as [v'| |] eqn:E2; [|exact HP|exact I].
    assert (C : cut json i /\ cut json (S i)) by (apply (cut_at json i 44 Hu Hc); lia).
    pose proof (Hcb s v' HP (V v v' (proj1 C) eq_refl E2)) as K. destruct (cb s v') as [s' [g e]]. destruct e; [exact K|]. destruct g; [|exact K]. apply IH; [exact Hr|apply C|exact K].
  Qed.
  Theorem iterate_array_utf8 json cb path s : utf8 json -> (forall s v, P s -> utf8 v -> P (fst (cb s v))) -> P s -> holds (IterateArray json cb path s).
  Proof.
    intros Hu Hcb HP. unfold IterateArray. destruct (length json <? 2)%nat; [exact HP|]. destruct (length json =? 2)%nat; [destruct (bytes_eqb json _); exact HP|]. unfold ibind.
    destruct (match path with [] => skip_space_last json 0 | _ => do '(_, st, _) <- core json true path; Ok st end) as [st| |]; [|exact HP|exact I].
    destruct (at_ json st) as [c| |] eqn:E; [|exact HP|exact I]. destruct (c =? 91) eqn:Ec; [|exact HP]. apply N.eqb_eq in Ec. subst c. apply at_nth in E.
    apply iter_arr_utf8; auto. apply (cut_at json st 91 Hu E). lia.
  Qed.
End Iterators.

(** ** Keys and values *)
Definition quote_at (json : bytes) (n : nat) : Prop := nth_error json n = Some 34.
Definition key_marks (json : bytes) (ks ke : nat) : Prop := (ks = O /\ ke = O) \/ (quote_at json ks /\ (ke = O \/ quote_at json ke)).
Lemma key_slice json ks ke k : utf8 json -> key_marks json ks ke -> slice json (S ks) ke = Ok k -> utf8 k.
Proof.
  intros Hu [[-> ->]|[H1 [->|H2]]] H; [unfold slice in H; cbn in H; discriminate|unfold slice in H; cbn in H; discriminate|]. eapply slice_cut; [| |exact H]; [apply (cut_at json ks 34 Hu H1); lia|apply (cut_before json ke 34 Hu H2); lia].
Qed.
Lemma marks_start json i ks ke : key_marks json ks ke -> quote_at json i -> key_marks json i ke.
Proof. intros [[_ H]|[_ H]] Hi; right; auto. Qed.
Lemma marks_end json i ks ke : key_marks json ks ke -> quote_at json i -> (quote_at json ks -> key_marks json ks i).
Proof. intros _ Hi Hk. right. auto. Qed.
Lemma keys_utf8 json : utf8 json -> forall rest i level ks ke inq l, rest = skipn i json -> key_marks json ks ke -> (inq = true -> quote_at json ks) ->
  keys_loop json rest i level ks ke inq = Ok l -> Forall utf8 l.
Proof.
  intro Hu. induction rest as [|c r IH]; intros i level ks ke inq l Hr Hm Hq H; cbn [keys_loop] in H; [injection H as <-; constructor|]. apply skipn_step in Hr. destruct Hr as [Hc Hr].
  destruct (c =? 34) eqn:E34.
  { apply N.eqb_eq in E34. subst c. destruct inq; [destruct (qscan json i) as [[]|]|].
    - eapply IH; [exact Hr| | |exact H]; [right; auto|discriminate].
    - eapply IH; [exact Hr|exact Hm|exact Hq|exact H].
    - eapply IH; [exact Hr| | |exact H]; [eapply marks_start; eassumption|auto].
    - eapply IH; [exact Hr| | |exact H]; [eapply marks_start; eassumption|auto]. }
  destruct inq; [eapply IH; eassumption|]. destruct (is_open c); [eapply IH; eassumption|].
  destruct (is_close c); [destruct (level =? 1)%nat; [injection H as <-; constructor|eapply IH; eassumption]|].
  destruct ((c =? 58) && (level =? 1)%nat)%bool; [|eapply IH; eassumption].
  destruct (slice json (S ks) ke) as [k| |] eqn:Ek; cbn [bind] in H; try discriminate. destruct (keys_loop json r (S i) level ks ke false) as [l'| |] eqn:El; cbn [bind] in H; try discriminate.
  injection H as <-. constructor; [eapply key_slice; eassumption|eapply IH; try eassumption; discriminate].
Qed.
Theorem get_keys_utf8 json path l : utf8 json -> GetKeys json path = Ok l -> Forall utf8 l.
Proof.
  intros Hu H. unfold GetKeys in H. destruct (bytes_eqb json _); [discriminate|]. destruct (start_of json path) as [st| |]; cbn [bind] in H; try discriminate.
  destruct (at_ json st) as [c| |]; cbn [bind] in H; try discriminate. destruct (c =? 123); [|discriminate]. eapply keys_utf8; [exact Hu|reflexivity| | |exact H]; [left; auto|discriminate].
Qed.
Lemma value_slice json start i v v' : utf8 json -> cut json start -> cut json i -> slice json start i = Ok v -> cleanValueString v = Ok v' -> utf8 v'.
Proof. intros Hu Hs Hi E1 E2. eapply cleans_utf8; [|exact E2]. eapply slice_cut; [exact Hs|exact Hi|exact E1]. Qed.
Lemma values_utf8 json : utf8 json -> forall rest i start level inq l, rest = skipn i json -> cut json start -> values_loop json rest i start level inq = Ok l -> Forall utf8 l.
Proof.
  intro Hu. induction rest as [|c r IH]; intros i start level inq l Hr Hs H; cbn [values_loop] in H; [injection H as <-; constructor|]. apply skipn_step in Hr. destruct Hr as [Hc Hr].
  destruct (c =? 34); [eapply IH; eassumption|]. destruct inq; [eapply IH; eassumption|]. destruct (is_open c); [eapply IH; eassumption|].
  destruct (is_close c) eqn:Ec.
  { destruct (level =? 1)%nat; [|eapply IH; eassumption]. destruct (slice json start i) as [v| |] eqn:E1; cbn [bind] in H; try discriminate.
    destruct (cleanValueString v) as [v'| |] eqn:E2; cbn [bind] in H; try discriminate. injection H as <-. constructor; [|constructor].
    eapply value_slice; [exact Hu|exact Hs| |exact E1|exact E2]. eapply cut_before; [exact Hu|exact Hc|apply close_low, Ec]. }
  destruct (c =? 58) eqn:E58. { apply N.eqb_eq in E58. subst c. eapply IH; [exact Hr| |exact H]. destruct (level =? 1)%nat; [|exact Hs]. apply (cut_at json i 58 Hu Hc). lia. }
  destruct ((c =? 44) && (level =? 1)%nat)%bool eqn:E44; [|eapply IH; eassumption]. apply andb_true_iff in E44. destruct E44 as [E44 _]. apply N.eqb_eq in E44. subst c.
  assert (C : cut json i /\ cut json (S i)) by (apply (cut_at json i 44 Hu Hc); lia).
  destruct (slice json start i) as [v| |] eqn:E1; cbn [bind] in H; try discriminate. destruct (cleanValueString v) as [v'| |] eqn:E2; cbn [bind] in H; try discriminate.
  destruct (values_loop json r (S i) (S i) level false) as [l'| |] eqn:El; cbn [bind] in H; try discriminate. injection H as <-.
  constructor; [eapply value_slice; [exact Hu|exact Hs|exact (proj1 C)|exact E1|exact E2]|eapply IH; [exact Hr|exact (proj2 C)|exact El]].
Qed.
Theorem get_values_utf8 json path l : utf8 json -> GetValues json path = Ok l -> Forall utf8 l.
Proof.
  intros Hu H. unfold GetValues in H. destruct (bytes_eqb json _); [discriminate|]. destruct (start_of json path) as [st| |]; cbn [bind] in H; try discriminate.
  destruct (at_ json st) as [c| |] eqn:E; cbn [bind] in H; try discriminate. destruct (c =? 123) eqn:Ec; [|discriminate]. apply N.eqb_eq in Ec. subst c. apply at_nth in E.
  eapply values_utf8; [exact Hu|reflexivity| |exact H]. apply (cut_at json st 123 Hu E). lia.
Qed.
Lemma kvs_utf8 json : utf8 json -> forall rest i start level ks ke inq l m, rest = skipn i json -> cut json start -> key_marks json ks ke -> (inq = true -> quote_at json ks) ->
  kvs_loop json rest i start level ks ke inq = Ok (l, m) -> Forall utf8 l /\ Forall utf8 m.
Proof.
  intro Hu. induction rest as [|c r IH]; intros i start level ks ke inq l m Hr Hs Hm Hq H; cbn [kvs_loop] in H; [injection H as <- <-; split; constructor|]. apply skipn_step in Hr. destruct Hr as [Hc Hr].
  destruct (c =? 34) eqn:E34.
  { apply N.eqb_eq in E34. subst c. destruct inq; [destruct (qscan json i) as [[]|]|].
    - eapply IH; [exact Hr|exact Hs| | |exact H]; [right; auto|discriminate].
    - eapply IH; [exact Hr|exact Hs|exact Hm|exact Hq|exact H].
    - eapply IH; [exact Hr|exact Hs| | |exact H]; [eapply marks_start; eassumption|auto].
    - eapply IH; [exact Hr|exact Hs| | |exact H]; [eapply marks_start; eassumption|auto]. }
  destruct inq; [eapply IH; eassumption|]. destruct (is_open c); [eapply IH; eassumption|].
  destruct (is_close c) eqn:Ec.
  { destruct (level =? 1)%nat; [|eapply IH; eassumption]. destruct (slice json start i) as [v| |] eqn:E1; cbn [bind] in H; try discriminate.
    destruct (cleanValueString v) as [v'| |] eqn:E2; cbn [bind] in H; try discriminate. injection H as <- <-. split; constructor; [|constructor].
    eapply value_slice; [exact Hu|exact Hs| |exact E1|exact E2]. eapply cut_before; [exact Hu|exact Hc|apply close_low, Ec]. }
  destruct (c =? 58) eqn:E58.
  { apply N.eqb_eq in E58. subst c. destruct (level =? 1)%nat; [|eapply IH; eassumption]. destruct (slice json (S ks) ke) as [k| |] eqn:Ek; cbn [bind] in H; try discriminate.
    destruct (kvs_loop json r (S i) (S i) level ks ke false) as [[l' m']| |] eqn:El; cbn [bind] in H; try discriminate. injection H as <- <-.
    destruct (IH (S i) (S i) level ks ke false l' m' Hr) as [H1 H2]; [apply (cut_at json i 58 Hu Hc); lia|exact Hm|discriminate|exact El|]. split; [constructor; [eapply key_slice; eassumption|exact H1]|exact H2]. }
  destruct ((c =? 44) && (level =? 1)%nat)%bool eqn:E44; [|eapply IH; eassumption]. apply andb_true_iff in E44. destruct E44 as [E44 _]. apply N.eqb_eq in E44. subst c.
  assert (C : cut json i /\ cut json (S i)) by (apply (cut_at json i 44 Hu Hc); lia).
  destruct (slice json start i) as [v| |] eqn:E1; cbn [bind] in H; try discriminate. destruct (cleanValueString v) as [v'| |] eqn:E2; cbn [bind] in H; try discriminate.
  destruct (kvs_loop json r (S i) (S i) level ks ke false) as [[l' m']| |] eqn:El; cbn [bind] in H; try discriminate. injection H as <- <-.
  destruct (IH (S i) (S i) level ks ke false l' m' Hr) as [H1 H2]; [apply C|exact Hm|discriminate|exact El|]. split; [exact H1|constructor; [|exact H2]]. eapply value_slice; [exact Hu|exact Hs|exact (proj1 C)|exact E1|exact E2].
Qed.
Theorem get_kvs_utf8 json path l m : utf8 json -> GetKeysValues json path = Ok (l, m) -> Forall utf8 l /\ Forall utf8 m.
Proof.
  intros Hu H. unfold GetKeysValues in H. destruct (bytes_eqb json _); [discriminate|]. destruct (start_of json path) as [st| |]; cbn [bind] in H; try discriminate.
  destruct (at_ json st) as [c| |] eqn:E; cbn [bind] in H; try discriminate. destruct (c =? 123) eqn:Ec; [|discriminate]. apply N.eqb_eq in Ec. subst c. apply at_nth in E.
  eapply kvs_utf8; [exact Hu|reflexivity| | | |exact H]; [apply (cut_at json st 123 Hu E); lia|left; auto|discriminate].
Qed.

Lemma split_utf8 arr (f : bytes -> res bytes) : utf8 arr -> (forall v w, utf8 v -> f v = Ok w -> utf8 w) -> forall n rest i start level inq l, (length rest <= n)%nat -> rest = skipn i arr -> cut arr start ->
  split_loop f f arr rest i start level inq = Ok l -> Forall utf8 l.
Proof.
  intros Hu Hf. induction n as [|n IH]; intros rest i start level inq l Hn Hr Hs H; (destruct rest as [|c r]; [injection H as <-; constructor|cbn [length] in Hn; try lia]). cbn [split_loop] in H. apply skipn_step in Hr. destruct Hr as [Hc Hr].
  destruct (c =? 92). { destruct r as [|d r]; [injection H as <-; constructor|]. apply skipn_step in Hr. destruct Hr as [_ Hr]. cbn [length] in Hn. replace (i + 2)%nat with (S (S i)) in H by lia. eapply IH; [|exact Hr|exact Hs|exact H]. lia. }
  destruct (c =? 34); [eapply IH; [|exact Hr|exact Hs|exact H]; lia|]. destruct inq; [eapply IH; [|exact Hr|exact Hs|exact H]; lia|].
  set (lv := if is_open c then (level + 1)%Z else if is_close c then (level - 1)%Z else level) in *. clearbody lv.
  destruct ((c =? 93) && (lv =? 0)%Z)%bool eqn:E93.
  { apply andb_true_iff in E93. destruct E93 as [E93 _]. apply N.eqb_eq in E93. subst c. destruct (slice arr start i) as [v| |] eqn:E1; cbn [bind] in H; try discriminate.
    destruct (f v) as [w| |] eqn:E2; cbn [bind] in H; try discriminate. injection H as <-. constructor; [|constructor]. eapply Hf; [|exact E2]. eapply slice_cut; [exact Hs| |exact E1]. apply (cut_before arr i 93 Hu Hc). lia. }
  destruct ((lv =? 1)%Z && (c =? 44))%bool eqn:E44; [|eapply IH; [|exact Hr|exact Hs|exact H]; lia].
  apply andb_true_iff in E44. destruct E44 as [_ E44]. apply N.eqb_eq in E44. subst c. assert (C : cut arr i /\ cut arr (S i)) by (apply (cut_at arr i 44 Hu Hc); lia).
  destruct (slice arr start i) as [v| |] eqn:E1; cbn [bind] in H; try discriminate. destruct (f v) as [w| |] eqn:E2; cbn [bind] in H; try discriminate.
  destruct (split_loop f f arr r (S i) (S i) lv false) as [l'| |] eqn:El; cbn [bind] in H; try discriminate. injection H as <-. constructor.
  - eapply Hf; [|exact E2]. eapply slice_cut; [exact Hs|exact (proj1 C)|exact E1].
  - eapply IH; [|exact Hr|exact (proj2 C)|exact El]. lia.
Qed.
Theorem parse_array_utf8 arr l : utf8 arr -> ParseArray arr = Ok (Some l) -> Forall utf8 l.
Proof.
  intros Hu H. unfold ParseArray in H. destruct (length arr <? 2)%nat; [injection H as <-; constructor|]. destruct (bracketed arr) eqn:E; [|discriminate].
  destruct (length arr =? 2)%nat; [injection H as <-; constructor|]. destruct (split_loop cleanValueString cleanValueString arr arr 0 1 0 false) as [l'| |] eqn:El; cbn [bind] in H; try discriminate. injection H as <-.
  eapply (split_utf8 arr cleanValueString Hu cleans_utf8); [apply le_n|reflexivity| |exact El]. unfold bracketed in E. apply andb_true_iff in E. destruct E as [E _]. apply N.eqb_eq in E.
  destruct arr as [|c arr]; [discriminate|]. cbn [hd] in E. subst c. apply (cut_at (91 :: arr) 0 91 Hu eq_refl). lia.
Qed.
Theorem string_array_utf8 json path l : utf8 json -> GetStringArray json path = Ok l -> Forall utf8 l.
Proof.
  intros Hu H. unfold GetStringArray in H. destruct (GetString json path) as [v| |] eqn:E; cbn [bind] in H; try discriminate. apply (get_utf8 json path v Hu) in E.
  destruct (length v <? 2)%nat; [discriminate|]. destruct (bracketed v); [|discriminate]. destruct (ParseArray v) as [[l'|]| |] eqn:Ep; cbn [bind] in H; try discriminate. injection H as <-. exact (parse_array_utf8 v l' E Ep).
Qed.

(** IterateKeyValue *)
Section KeyValue.
  Context {St : Type}.
  Variable P : St -> Prop.
  Variables (json : bytes) (cb : St -> bytes -> bytes -> St * (bool * option err)).
  Hypothesis Hu : utf8 json.
  Hypothesis Hcb : forall s k v, P s -> utf8 k -> utf8 v -> P (fst (cb s k v)).

  Definition low_at (n : nat) : Prop := exists c, c < 128 /\ nth_error json n = Some c.
  Lemma find_first (p : nat -> bool) : forall k start j, find p (seq start k) = Some j -> (start <= j < start + k)%nat /\ p j = true /\ forall m, (start <= m < j)%nat -> p m = false.
  Proof.
    induction k as [|k IH]; intros start j H; cbn [seq find] in H; [discriminate|]. destruct (p start) eqn:E.
    - injection H as <-. split; [lia|]. split; [exact E|]. intros m Hm. lia.
    - apply IH in H. destruct H as (H1 & H2 & H3). split; [lia|]. split; [exact H2|]. intros m Hm. destruct (Nat.eq_dec m start) as [->|]; [exact E|]. apply H3. lia.
  Qed.
  Lemma find_last (p : nat -> bool) : forall k start j, find p (rev (seq start k)) = Some j -> (start <= j < start + k)%nat /\ p j = true /\ forall m, (j < m < start + k)%nat -> p m = false.
  Proof.
    induction k as [|k IH]; intros start j H; [discriminate|]. rewrite seq_S, rev_app_distr in H. cbn [rev app find] in H. destruct (p (start + k)%nat) eqn:E.
    - injection H as <-. split; [lia|]. split; [exact E|]. intros m Hm. lia.
    - apply IH in H. destruct H as (H1 & H2 & H3). split; [lia|]. split; [exact H2|]. intros m Hm. destruct (Nat.eq_dec m (start + k)) as [->|]; [exact E|]. apply H3. lia.
  Qed.
  Lemma blank_low m : negb (space (nth m json 0)) = false -> low_at m.
  Proof. intro H. apply negb_false_iff in H. exists (nth m json 0). split; [apply space_low, H|]. apply nth_low; [reflexivity|]. intro X. rewrite X in H. discriminate. Qed.
  Lemma cut_low n : low_at n -> cut json n /\ cut json (S n).
  Proof. intros (c & Hc & E). exact (cut_at json n c Hu E Hc). Qed.
  Lemma fwd_cut start i : cut json start -> cut json (fwd_trim json start i).
  Proof.
    intro H. unfold fwd_trim. destruct (find _ (seq start (i - start))) as [j|] eqn:E; [|exact H]. apply find_first in E. destruct E as (H1 & _ & H3).
    destruct (Nat.eq_dec j start) as [->|]; [exact H|]. replace j with (S (pred j)) by lia. apply cut_low, blank_low, H3. lia.
  Qed.
  Definition end_ok (start e : nat) : Prop := cut json (S e) \/ (e = O /\ (1 <= start)%nat).
  Lemma back_cut lo i d start : low_at i -> end_ok start d -> end_ok start (back_trim json lo i d).
  Proof.
    intros Hi Hd. unfold back_trim. destruct (find _ (rev (seq lo (i - lo)))) as [j|] eqn:E; [|exact Hd]. apply find_last in E. destruct E as (H1 & _ & H3).
    left. destruct (Nat.eq_dec (S j) i) as [->|]; [exact (proj1 (cut_low _ Hi))|]. refine (proj1 (cut_low (S j) (blank_low _ (H3 _ _)))). lia.
  Qed.
  Lemma fwd_ge start i : (start <= fwd_trim json start i)%nat.
  Proof. unfold fwd_trim. destruct (find _ (seq start (i - start))) as [j|] eqn:E; [apply find_first in E; destruct E as [E _]; lia|apply le_n]. Qed.
  Lemma end_ok_le start start' e : (start <= start')%nat -> end_ok start e -> end_ok start' e.
  Proof. intros L [H|[H1 H2]]; [left; exact H|right; split; [exact H1|lia]]. Qed.
  Lemma kv_utf8 start e v : cut json start -> end_ok start e -> kv_value json start e = Ok v -> utf8 v.
  Proof.
    intros Hs He H. unfold kv_value in H. destruct (at_ json start) as [c| |] eqn:E1; cbn [bind] in H; try discriminate. apply at_nth in E1.
    assert (He' : slice json start (S e) = Ok v -> utf8 v).
    { intro Hv. destruct He as [He|[-> L]]; [exact (slice_cut _ _ _ _ Hs He Hv)|]. unfold slice in Hv.
      destruct ((start <=? 1)%nat && (1 <=? length json)%nat)%bool eqn:E; [|discriminate]. injection Hv as <-. apply andb_true_iff in E. destruct E as [E _]. apply Nat.leb_le in E.
      destruct start; [lia|apply utf8_nil]. }
    destruct (c =? 34) eqn:C; [|auto]. destruct (at_ json e) as [d| |] eqn:E2; cbn [bind] in H; try discriminate. apply at_nth in E2.
    destruct (d =? 34) eqn:D; [|auto]. apply N.eqb_eq in C, D. subst.
    eapply slice_cut; [| |exact H]; [apply (cut_at json start 34 Hu E1); lia|apply (cut_before json e 34 Hu E2); lia].
  Qed.
  Lemma iter_kv_utf8 : forall rest i start e level ks ke inq key s, rest = skipn i json -> cut json start -> end_ok start e -> key_marks json ks ke -> (inq = true -> quote_at json ks) ->
    utf8 key -> P s -> holds P (iter_kv json cb rest i start e level ks ke inq key s).
  Proof.
    induction rest as [|c r IH]; intros i start e level ks ke inq key s Hr Hs He Hm Hq Hk HP; cbn [iter_kv]; [exact HP|]. apply skipn_step in Hr. destruct Hr as [Hc Hr].
    destruct (c =? 34) eqn:E34.
    { apply N.eqb_eq in E34. subst c. destruct inq; [destruct (qscan json i) as [[]|]|].
      - apply IH; auto; try discriminate; right; auto.
      - apply IH; auto.
      - apply IH; auto. eapply marks_start; eassumption.
      - apply IH; auto. eapply marks_start; eassumption. }
    destruct inq; [apply IH; auto|]. destruct (is_open c); [apply IH; auto|].
    destruct (is_close c) eqn:Ec.
    { assert (Li : low_at i) by (exists c; split; [apply close_low, Ec|exact Hc]).
      destruct ((c =? 125) && (level =? 1)%nat)%bool; [|destruct (level =? 1)%nat; [exact HP|apply IH; auto]]. unfold ibind. cbv zeta.
      destruct (kv_value json (fwd_trim json start i) (back_trim json (fwd_trim json start i) i e)) as [v| |] eqn:Ev; [|exact HP|exact I].
      cbn [holds]. apply Hcb; [exact HP|exact Hk|]. eapply kv_utf8; [apply fwd_cut, Hs| |exact Ev]. apply back_cut; [exact Li|]. eapply end_ok_le; [apply fwd_ge|exact He]. }
    destruct ((level =? 1)%nat && (c =? 44))%bool eqn:E44.
    { apply andb_true_iff in E44. destruct E44 as [_ E44]. apply N.eqb_eq in E44. subst c. unfold ibind. cbv zeta.
      assert (Li : low_at i) by (exists 44; split; [lia|exact Hc]).
      assert (He' : end_ok (fwd_trim json start i) (back_trim json (S (fwd_trim json start i)) i (pred i))).
      { apply back_cut; [exact Li|]. destruct i as [|i]; [left|left; cbn [pred]; exact (proj1 (cut_low _ Li))]. apply (cut_low 0 Li). }
      destruct (kv_value json (fwd_trim json start i) (back_trim json (S (fwd_trim json start i)) i (pred i))) as [v| |] eqn:Ev; [|exact HP|exact I].
      pose proof (Hcb s key v HP Hk (kv_utf8 _ _ _ (fwd_cut _ _ Hs) He' Ev)) as K. destruct (cb s key v) as [s' [g er]]. destruct er; [exact K|]. destruct g; [|exact K].
      apply IH; auto. apply fwd_cut, Hs. }
    destruct ((level =? 1)%nat && (c =? 58))%bool eqn:E58; [|apply IH; auto].
    apply andb_true_iff in E58. destruct E58 as [_ E58]. apply N.eqb_eq in E58. subst c. unfold ibind. destruct (slice json (S ks) ke) as [k| |] eqn:Ek; [|exact HP|exact I].
    pose proof (key_slice json ks ke k Hu Hm Ek) as Lk. apply IH; auto; first [apply (cut_at json i 58 Hu Hc); lia|destruct He as [He|[He _]]; [left; exact He|right; split; [exact He|lia]]].
  Qed.
  Theorem iterate_kv_utf8 path s : P s -> holds P (IterateKeyValue json cb path s).
  Proof.
    intro HP. unfold IterateKeyValue. destruct (bytes_eqb json _); [exact HP|]. unfold ibind. destruct (start_of json path) as [st| |]; [|exact HP|exact I].
    destruct (at_ json st) as [c| |] eqn:E; [|exact HP|exact I]. destruct (c =? 123) eqn:Ec; [|exact HP]. apply N.eqb_eq in Ec. subst c. apply at_nth in E.
    assert (C : cut json st /\ cut json (S st)) by (apply (cut_at json st 123 Hu E); lia).
    apply iter_kv_utf8; auto; [apply C| |left; auto|discriminate|apply utf8_nil]. destruct st; [left; apply C|right; split; [reflexivity|lia]].
  Qed.
End KeyValue.

(** ** Typed writers and JO *)
Lemma quote_utf8 s : utf8 s -> utf8 (quote s).
Proof. intro H. apply utf8_cons; [lia|apply utf8_app; [exact H|apply utf8_low; lia]]. Qed.
Lemma format_utf8 pf s : utf8 s -> utf8 (formatType pf s).
Proof.
  intro H. pose proof (quote_utf8 s H) as Q.
  unfold formatType. destruct s as [|c r]; [exact Q|]. repeat match goal with |- utf8 (if ?x then _ else _) => destruct x end; assumption.
Qed.
Lemma itoa_utf8 z : utf8 (itoa z).
Proof.
  assert (D : forall n, Forall (fun c => c < 128) (itoa_N n)).
  { intro n. apply Forall_forall. intros c Hc. apply itoa_N_digits in Hc. lia. }
  apply utf8_all_low. unfold itoa. destruct (z <? 0)%Z; [constructor; [lia|]|]; apply D.
Qed.
