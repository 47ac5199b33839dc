(** Model of make.go:9-161, the key handling of type Scheme, with Go's slice sharing. *)
From Coq Require Import String.
From Verif Require Import GoStd Heap SpecScheme.

(** make.go:12-15 [Scheme] *)
Record scheme : Type := Sch { originalKeys : slc; keys_ : slc }.

(** make.go:20-22 [MakeScheme]: both fields are the caller's slice. *)
Definition MakeScheme (ks : slc) : scheme := Sch ks ks.

Section Scheme.
  Variable grow : nat -> nat.

  (** make.go:113-117, the loop of Add: is the key there? *)
  Fixpoint has_key (ks : list bytes) (key : bytes) : bool :=
    match ks with
    | [] => false
    | k :: r => if bytes_eqb k key then true else has_key r key
    end.

  (** make.go:112-120 [Scheme.Add] *)
  Definition Scheme_Add (h : heap) (s : scheme) (key : bytes) : heap * scheme * bool :=
    if has_key (view h (keys_ s)) key then (h, s, false)
    else let '(h', ks) := append1 grow h (keys_ s) key in (h', Sch (originalKeys s) ks, true).

  (** make.go:128-134, the loop of Remove; [ks] is what is left of s.keys (the loop writes to a new array only) *)
  Fixpoint remove_loop (h : heap) (new : slc) (ks : list bytes) (key : bytes) (result : bool) : heap * slc * bool :=
    match ks with
    | [] => (h, new, result)
    | k :: r =>
        if bytes_eqb k key then remove_loop h new r key true
        else let '(h', new') := append1 grow h new k in remove_loop h' new' r key result
    end.

  (** make.go:125-137 [Scheme.Remove] *)
  Definition Scheme_Remove (h : heap) (s : scheme) (key : bytes) : heap * scheme * bool :=
    let '(h1, new) := alloc h [] (s_len (keys_ s)) in
    let '(h2, new', result) := remove_loop h1 new (view h (keys_ s)) key false in
    (h2, Sch (originalKeys s) new', result).

  (** make.go:141-143 [Save], make.go:147-149 [Restore] *)
  Definition Scheme_Save (s : scheme) : scheme := Sch (keys_ s) (keys_ s).
  Definition Scheme_Restore (s : scheme) : scheme := Sch (originalKeys s) (originalKeys s).

  (** make.go:153-155 [GetOriginalKeys], make.go:159-161 [GetCurrentKeys]: the slices themselves *)
  Definition GetOriginalKeys (s : scheme) : slc := originalKeys s.
  Definition GetCurrentKeys (s : scheme) : slc := keys_ s.

  Definition sch_step (op : sop) (h : heap) (s : scheme) : heap * scheme * shown :=
    match op with
    | SAdd k => let '(h', s', v) := Scheme_Add h s k in (h', s', ShBool v)
    | SRemove k => let '(h', s', v) := Scheme_Remove h s k in (h', s', ShBool v)
    | SSave => (h, Scheme_Save s, ShNone)
    | SRestore => (h, Scheme_Restore s, ShNone)
    | SOriginal => (h, s, ShKeys (view h (GetOriginalKeys s)))
    | SCurrent => (h, s, ShKeys (view h (GetCurrentKeys s)))
    end.

  Fixpoint sch_run (ops : list sop) (h : heap) (s : scheme) : heap * scheme * list shown :=
    match ops with
    | [] => (h, s, [])
    | op :: r =>
        let '(h1, s1, x) := sch_step op h s in
        let '(h2, s2, xs) := sch_run r h1 s1 in (h2, s2, x :: xs)
    end.
End Scheme.
