(** Flatten and Indent once more, statement by statement; FormatGoProofs.v shows that they compute what the models in
    Format.v compute. *)
From Coq Require Import String.
From Verif Require Import GoStd GoLang CoreGo.

Local Open Scope Z_scope.

Section FormatGo.
  Variable fuel : nat.

  (** utils.go:36-42 [createTabs]: [res := make([]byte, n); for i := range res { res[i] = 9 }; return res]; the state is [res] *)
  Definition createTabs_go (n : Z) : flow unit bytes :=
    func (
      read (fun _ => if n <? 0 then Panic else Ok (repeat 0%N (Z.to_nat n))) (fun x => set_ (fun _ => x)) ;;
      var (fun _ => 0) (for_ fuel (fun s => Ok (snd s <? zlen (fst s))) (fun s => (fst s, snd s + 1))
        (set_ (fun s => (zput (fst s) (Z.to_N (snd s)) 9%N, snd s)))) ;;
      return_ (fun s => s)) [].

  (** The variables [newJSON], [inQuote], [level] *)
  Record fm : Type := Fm { f_new : bytes; f_inQuote : bool; f_level : Z }.
  Definition f_to_new x s := Fm x (f_inQuote s) (f_level s).
  Definition f_to_inQuote x s := Fm (f_new s) x (f_level s).
  Definition f_to_level x s := Fm (f_new s) (f_inQuote s) x.
  Definition fset {R : Type} (f : fm -> fm) : cmd (fm * Z) R := set_ (fun s => (f (fst s), snd s)).
  (** [newJSON = append(newJSON, x...)] *)
  Definition add {R : Type} (x : bytes) : cmd (fm * Z) R := fset (fun s => f_to_new (f_new s ++ x) s).

  (** others.go:68-97 [Flatten] *)
  Definition flatten_body {R : Type} (json : bytes) : cmd (fm * Z) R :=
    read (fun s => zat json (snd s)) (fun curr =>
    if_ (fun _ => (curr =? 92)%N)
      (add [curr] ;;
       if_ (fun s => snd s + 1 <? zlen json) (read (fun s => zat json (snd s + 1)) (fun c => add [c])) pass ;;
       set_ (fun s => (fst s, snd s + 1)) ;;
       continue_) pass ;;
    if_ (fun _ => (curr =? 34)%N)
      (add [curr] ;;
       fset (fun s => f_to_inQuote (negb (f_inQuote s)) s) ;;
       continue_) pass ;;
    if_ (fun s => f_inQuote (fst s))
      (add [curr] ;; continue_)
      (if_ (fun _ => negb (space curr)) (add [curr] ;; continue_) pass)).
  Definition Flatten_go (json : bytes) : flow unit bytes :=
    func (
      var (fun _ => 0) (for_ fuel (fun s => Ok (snd s <? zlen json)) (fun s => (fst s, snd s + 1)) (flatten_body json)) ;;
      return_ (fun s => f_new s)) (Fm [] false 0).

  (** [newJSON = append(newJSON, createTabs(level)...)] *)
  Definition tabs {R : Type} : cmd (fm * Z) R := call (fun s => createTabs_go (f_level (fst s))) add.
  (** others.go:107-180 *)
  Definition indent_body {R : Type} (json : bytes) : cmd (fm * Z) R :=
    read (fun s => zat json (snd s)) (fun curr =>
    if_ (fun _ => (curr =? 34)%N)
      (add [curr] ;;
       read (fun s => zat json (snd s - 1)) (fun c => if_ (fun _ => (c =? 92)%N) continue_ pass) ;;
       fset (fun s => f_to_inQuote (negb (f_inQuote s)) s) ;;
       continue_) pass ;;
    if_ (fun s => f_inQuote (fst s))
      (add [curr] ;; continue_)
      (if_ (fun _ => negb (space curr))
         (if_ (fun _ => (curr =? 91)%N) (fset (fun s => f_to_level (f_level s + 1) s) ;; add [curr] ;; add [10%N] ;; tabs ;; continue_) pass ;;
          if_ (fun _ => (curr =? 93)%N) (fset (fun s => f_to_level (f_level s - 1) s) ;; add [10%N] ;; tabs ;; add [curr] ;; continue_) pass ;;
          if_ (fun _ => (curr =? 123)%N) (fset (fun s => f_to_level (f_level s + 1) s) ;; add [curr] ;; add [10%N] ;; tabs ;; continue_) pass ;;
          if_ (fun _ => (curr =? 125)%N) (fset (fun s => f_to_level (f_level s - 1) s) ;; add [10%N] ;; tabs ;; add [curr] ;; continue_) pass ;;
          if_ (fun _ => (curr =? 44)%N) (add [curr] ;; add [10%N] ;; tabs ;; continue_) pass ;;
          if_ (fun _ => (curr =? 58)%N) (add [curr] ;; add [32%N] ;; continue_) pass ;;
          add [curr] ;; continue_) pass)).
  (** others.go:102-182 [Indent] *)
  Definition Indent_go (json : bytes) : flow unit bytes :=
    func (call (fun _ => Flatten_go json) (fun json =>
      var (fun _ => 0) (for_ fuel (fun s => Ok (snd s <? zlen json)) (fun s => (fst s, snd s + 1)) (indent_body json)) ;;
      return_ (fun s => f_new s))) (Fm [] false 0).
End FormatGo.
