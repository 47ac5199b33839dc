(** Go slices of strings with their backing arrays.  The heap is the list of arrays ever allocated; a slice is a
    window of one array.  [append] writes in place if the capacity allows and copies otherwise; the capacity
    it then chooses is Go's business: [grow] is any function of the number of elements. *)
From Coq Require Import String.
From Verif Require Import GoStd.

Definition heap := list (list bytes).
Record slc : Type := Slc { s_arr : nat; s_off : nat; s_len : nat; s_cap : nat }.

Definition array (h : heap) (a : nat) : list bytes := nth a h [].
Definition view (h : heap) (s : slc) : list bytes := firstn (s_len s) (skipn (s_off s) (array h (s_arr s))).
Definition s_end (s : slc) : nat := s_off s + s_len s.

(** The window and its capacity lie within the array. *)
Definition slc_ok (h : heap) (s : slc) : Prop :=
  s_arr s < length h /\ s_len s <= s_cap s /\ s_off s + s_cap s <= length (array h (s_arr s)).

Fixpoint put_nth {A : Type} (n : nat) (x : A) (l : list A) : list A :=
  match l, n with
  | [], _ => []
  | _ :: r, O => x :: r
  | a :: r, S n' => a :: put_nth n' x r
  end.

Section Append.
  Variable grow : nat -> nat.

  (** [make([]string, 0, n)] filled with the given elements, [n] at least their number *)
  Definition alloc (h : heap) (xs : list bytes) (spare : nat) : heap * slc :=
    (h ++ [xs ++ repeat [] spare], Slc (length h) 0 (length xs) (length xs + spare)).

  (** [append(s, x)] *)
  Definition append1 (h : heap) (s : slc) (x : bytes) : heap * slc :=
    if s_len s <? s_cap s then
      (put_nth (s_arr s) (put_nth (s_end s) x (array h (s_arr s))) h, Slc (s_arr s) (s_off s) (S (s_len s)) (s_cap s))
    else alloc h (view h s ++ [x]) (grow (S (s_len s))).
End Append.

(** ** Facts *)
Lemma put_nth_len {A} n (x : A) l : length (put_nth n x l) = length l.
Proof. revert n. induction l as [|a l IH]; intros [|n]; cbn; auto. Qed.
Lemma put_nth_same {A} n (x : A) l d : n < length l -> nth n (put_nth n x l) d = x.
Proof. revert n. induction l as [|a l IH]; intros [|n] H; cbn in *; try lia; [reflexivity|]. apply IH. lia. Qed.
Lemma put_nth_other {A} n m (x : A) l d : n <> m -> nth m (put_nth n x l) d = nth m l d.
Proof. revert n m. induction l as [|a l IH]; intros [|n] [|m] H; cbn; try reflexivity; try lia. apply IH. lia. Qed.
Lemma put_nth_firstn {A} n (x : A) l k : k <= n -> firstn k (put_nth n x l) = firstn k l.
Proof.
  revert n k. induction l as [|a l IH]; intros [|n] [|k] H; cbn; try reflexivity; try lia. f_equal. apply IH. lia.
Qed.
Lemma put_nth_skipn {A} n (x : A) l k : k <= n -> skipn k (put_nth n x l) = put_nth (n - k) x (skipn k l).
Proof.
  revert n k. induction l as [|a l IH]; intros [|n] [|k] H; cbn; try reflexivity; try lia.
  - destruct (n - k); reflexivity.
  - apply IH. lia.
Qed.
Lemma put_nth_snoc {A} n (x : A) l : n < length l -> firstn (S n) (put_nth n x l) = firstn n l ++ [x].
Proof.
  revert n. induction l as [|a l IH]; intros [|n] H; cbn in *; try lia; [reflexivity|]. f_equal. apply IH. lia.
Qed.

Lemma array_put h a l x : a < length h -> array (put_nth a l h) x = if a =? x then l else array h x.
Proof.
  intro H. unfold array. destruct (Nat.eqb_spec a x) as [->|Hne]; [apply put_nth_same; exact H|apply put_nth_other; exact Hne].
Qed.
Lemma array_app h l x : x < length h -> array (h ++ l) x = array h x.
Proof. intro H. unfold array. apply app_nth1. exact H. Qed.

Lemma view_len h s : slc_ok h s -> length (view h s) = s_len s.
Proof. intros (H1 & H2 & H3). unfold view. rewrite firstn_length, skipn_length. lia. Qed.

Lemma alloc_view h xs n : let '(h', s) := alloc h xs n in
  slc_ok h' s /\ view h' s = xs /\ s_arr s = length h /\ forall t, slc_ok h t -> slc_ok h' t /\ view h' t = view h t.
Proof.
  cbn. unfold slc_ok, view. cbn [s_arr s_off s_len s_cap]. rewrite app_length. cbn [length]. unfold array at 1 2. rewrite nth_middle, app_length, repeat_length.
  split; [lia|]. split.
  - cbn [skipn]. replace (length xs) with (length xs + 0) by lia. rewrite firstn_app_2, firstn_O, app_nil_r. reflexivity.
  - split; [reflexivity|]. intros t (T1 & T2 & T3). rewrite array_app by exact T1. split; [lia|reflexivity].
Qed.

Section AppendFacts.
  Variables (grow : nat -> nat) (h h' : heap) (s s' : slc) (x : bytes).
  Hypotheses (Hok : slc_ok h s) (Happ : append1 grow h s x = (h', s')).

  (** The result is the old list with the new element at its end. *)
  Lemma append_view : slc_ok h' s' /\ view h' s' = view h s ++ [x].
  Proof.
    pose proof Hok as (H1 & H2 & H3). unfold append1 in Happ. destruct (Nat.ltb_spec (s_len s) (s_cap s)).
    - injection Happ as <- <-. unfold slc_ok, view. cbn [s_arr s_off s_len s_cap]. rewrite !put_nth_len.
      rewrite array_put, Nat.eqb_refl, put_nth_len by exact H1. split; [lia|].
      rewrite put_nth_skipn by (unfold s_end; lia). replace (s_end s - s_off s) with (s_len s) by (unfold s_end; lia).
      apply put_nth_snoc. rewrite skipn_length. lia.
    - pose proof (alloc_view h (view h s ++ [x]) (grow (S (s_len s)))) as A. rewrite Happ in A. tauto.
  Qed.

  (** A slice that ends before the end of [s] or lives in another array does not notice. *)
  Lemma append_keeps t : slc_ok h t -> (s_arr t = s_arr s -> s_end t <= s_end s) ->
    slc_ok h' t /\ view h' t = view h t.
  Proof.
    intros (T1 & T2 & T3) Ht. pose proof Hok as (H1 & H2 & H3). unfold append1 in Happ. destruct (Nat.ltb_spec (s_len s) (s_cap s)).
    - injection Happ as <- <-. unfold slc_ok, view. rewrite put_nth_len, array_put by exact H1.
      destruct (Nat.eqb_spec (s_arr s) (s_arr t)) as [E|E]; [|auto]. rewrite put_nth_len. rewrite E. split; [lia|].
      symmetry in E. specialize (Ht E). unfold s_end in *.
      rewrite put_nth_skipn by lia. apply put_nth_firstn. lia.
    - unfold alloc in Happ. injection Happ as <- <-. unfold slc_ok, view. rewrite array_app, app_length by exact T1. cbn [length]. split; [lia|reflexivity].
  Qed.

  Lemma append_end : (s_arr s' = s_arr s /\ s_end s' = S (s_end s) /\ length h' = length h) \/ (s_arr s' = length h /\ length h' = S (length h)).
  Proof.
    unfold append1 in Happ. destruct (s_len s <? s_cap s).
    - injection Happ as <- <-. left. unfold s_end. cbn. rewrite put_nth_len. lia.
    - unfold alloc in Happ. injection Happ as <- <-. right. cbn. rewrite app_length. cbn. lia.
  Qed.
End AppendFacts.
