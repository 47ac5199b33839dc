(** Specification of what a call that appends to a slice of strings may write. *)
From Coq Require Import String.
From Verif Require Import GoStd Heap.

(** The cell right behind the window of [p] set to [x]. *)
Definition put_past (h : heap) (p : slc) (x : bytes) : heap :=
  put_nth (s_arr p) (put_nth (s_end p) x (array h (s_arr p))) h.

(** [h'] is [h] with new arrays, and with the cell behind [p] set to [x] if [p] has spare capacity and only then. *)
Definition wrote (p : slc) (x : bytes) (h h' : heap) : Prop :=
  (s_len p = s_cap p /\ exists l, h' = h ++ l) \/ (s_len p < s_cap p /\ exists l, h' = put_past h p x ++ l).

(** A slice that does not show the cell behind [p] does not notice. *)
Definition apart (p t : slc) : Prop := s_arr t = s_arr p -> s_end t <= s_end p \/ s_end p < s_off t.

(** The keys do not contain the cell behind the path, except in their first place. *)
Definition beside (p ks : slc) : Prop := s_arr ks = s_arr p -> s_end ks <= s_end p \/ s_end p <= s_off ks.

Definition any_wrote (p : slc) (ks : list bytes) (h h' : heap) : Prop := h' = h \/ exists k, In k ks /\ wrote p k h h'.

(** A callback that keeps the path slices it is given, beside what they show at the time; and the paths alone. *)
Definition keeping {St} (cb : St -> bytes -> bytes -> list bytes -> St * (bool * option err))
    (h : heap) (s : St * list (slc * list bytes)) (k v : bytes) (p : slc) : (St * list (slc * list bytes)) * (bool * option err) :=
  let '(s', r) := cb (fst s) k v (view h p) in ((s', snd s ++ [(p, view h p)]), r).
Definition noting {St} (cb : St -> bytes -> bytes -> list bytes -> St * (bool * option err))
    (s : St * list (list bytes)) (k v : bytes) (p : list bytes) : (St * list (list bytes)) * (bool * option err) :=
  let '(s', r) := cb (fst s) k v p in ((s', snd s ++ [p]), r).

