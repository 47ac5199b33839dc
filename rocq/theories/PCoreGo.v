(** pCore once more, statement by statement, on nodes linked by pointers; PCoreGoProofs.v shows that it computes what the
    model in Pointers.v computes (and that one, by C46, what the model on trees computes). *)
From Coq Require Import String.
From Verif Require Import GoStd Errors SpecPtr Pointers GoLang CoreGo IterGo.

Local Open Scope Z_scope.

(** parse_core.go:10-26: the variables of the function, and the heap *)
Record pc : Type := Pc { q_inQuote : bool; braceList : sequance; indexList : sequance; q_start : Z; q_end : Z; q_key : bytes; valStart : Z; q_last : N; hp : heap; core : option nat }.
Definition q_to_inQuote x s := Pc x (braceList s) (indexList s) (q_start s) (q_end s) (q_key s) (valStart s) (q_last s) (hp s) (core s).
Definition q_to_brace x s := Pc (q_inQuote s) x (indexList s) (q_start s) (q_end s) (q_key s) (valStart s) (q_last s) (hp s) (core s).
Definition q_to_index x s := Pc (q_inQuote s) (braceList s) x (q_start s) (q_end s) (q_key s) (valStart s) (q_last s) (hp s) (core s).
Definition q_to_start x s := Pc (q_inQuote s) (braceList s) (indexList s) x (q_end s) (q_key s) (valStart s) (q_last s) (hp s) (core s).
Definition q_to_end x s := Pc (q_inQuote s) (braceList s) (indexList s) (q_start s) x (q_key s) (valStart s) (q_last s) (hp s) (core s).
Definition q_to_key x s := Pc (q_inQuote s) (braceList s) (indexList s) (q_start s) (q_end s) x (valStart s) (q_last s) (hp s) (core s).
Definition q_to_val x s := Pc (q_inQuote s) (braceList s) (indexList s) (q_start s) (q_end s) (q_key s) x (q_last s) (hp s) (core s).
Definition q_to_last x s := Pc (q_inQuote s) (braceList s) (indexList s) (q_start s) (q_end s) (q_key s) (valStart s) x (hp s) (core s).
Definition q_to_heap x s := Pc (q_inQuote s) (braceList s) (indexList s) (q_start s) (q_end s) (q_key s) (valStart s) (q_last s) x (core s).
Definition q_to_core x s := Pc (q_inQuote s) (braceList s) (indexList s) (q_start s) (q_end s) (q_key s) (valStart s) (q_last s) (hp s) x.

Section PCoreGo.
  Variables (fuel : nat) (json : bytes).
  Definition P := (pc * Z)%type.
  Definition upd (f : pc -> pc) : cmd P heap := set_ (fun s => (f (fst s), snd s)).
  (** [x := e] with an [e] that may panic and change the state *)
  Definition step {A : Type} (e : pc -> res A) (f : A -> pc -> pc) : cmd P heap := read (fun s => e (fst s)) (fun a => upd (f a)).

  (** [newNode := &node{up: core, label: l, value: v}; core.down = append(core.down, newNode)]; [enter] says whether
      [core = newNode] follows *)
  Definition node (l : pc -> res bytes) (v : P -> res bytes) (enter : bool) : cmd P heap :=
    read (fun s => l (fst s)) (fun l =>
    read v (fun v =>
    step (fun s => push_down (fst (alloc (hp s) (Cell l v (core s) []))) (core s) (length (hp s))) (fun h s =>
      let newNode := length (hp s) in let s := q_to_heap h s in if enter then q_to_core (Some newNode) s else s))).
  Definition value : P -> res bytes := fun s => zslice json (valStart (fst s)) (snd s).
  Definition keyLabel (s : pc) : res bytes := Ok (q_key s).
  Definition indexLabel (s : pc) : res bytes := do n <- sq_last (indexList s); Ok (itoa n).

  (** parse_core.go:31-115 *)
  Definition p_body : cmd P heap :=
    read (fun s => zat json (snd s)) (fun curr =>
    read (fun s => zat (flags [34; 44; 58; 91; 93; 123; 125]%N) (Z.of_N curr)) (fun is_char =>
    if_ (fun _ => negb is_char) continue_ pass ;;
    if_ (fun _ => (curr =? 34)%N)
      (label
         (if_ (fun s => q_inQuote (fst s))
            (look_back fuel json snd and_odd (set_ (fun t => (q_to_inQuote (negb (q_inQuote (fst (fst t)))) (fst (fst t)), snd (fst t), snd t)) ;; break_) goto_)
            (upd (q_to_inQuote true) ;; set_ (fun s => (q_to_start (snd s + 1) (fst s), snd s)) ;; continue_) ;;
          if_ (fun s => q_inQuote (fst s)) (set_ (fun s => (q_to_start (snd s + 1) (fst s), snd s)) ;; continue_) pass ;;
          set_ (fun s => (q_to_end (snd s) (fst s), snd s))) ;;
       continue_) pass ;;
    if_ (fun s => q_inQuote (fst s)) continue_
      (if_ (fun _ => (curr =? 91) || (curr =? 123))%N
         (if_ (fun s => (q_last (fst s) =? 58)%N)
            (node keyLabel (fun _ => Ok []) true)
            (node indexLabel (fun _ => Ok []) true) ;;
          step (fun s => sq_push (indexList s) 0) q_to_index ;;
          read (fun s => sq_push (braceList (fst s)) (snd s)) (fun l => upd (q_to_brace l)) ;;
          set_ (fun s => (q_to_val (snd s + 1) (fst s), snd s)) ;;
          upd (q_to_last curr) ;;
          continue_) pass ;;
       if_ (fun _ => (curr =? 93) || (curr =? 125))%N
         (if_ (fun s => (q_last (fst s) =? 58)%N)
            (node keyLabel value false)
            (if_ (fun s => (q_last (fst s) =? 44)%N)
               (node indexLabel value false ;; set_ (fun s => (q_to_val (snd s + 1) (fst s), snd s))) pass) ;;
          read (fun s => sq_pop (braceList (fst s))) (fun r =>
            upd (q_to_brace (snd r)) ;;
            read (fun s => zslice json (fst r) (snd s + 1)) (fun v =>
            step (fun s => write (hp s) (core s) (set_value v)) q_to_heap)) ;;
          step (fun s => sq_pop (indexList s)) (fun r => q_to_index (snd r)) ;;
          step (fun s => deref (hp s) (core s)) (fun r => q_to_core (c_up (snd r))) ;;
          upd (q_to_last curr) ;;
          continue_) pass ;;
       if_ (fun _ => (curr =? 58)%N)
         (step (fun s => zslice json (q_start s) (q_end s)) q_to_key ;;
          set_ (fun s => (q_to_val (snd s + 1) (fst s), snd s)) ;;
          upd (q_to_last 58%N) ;;
          continue_) pass ;;
       if_ (fun _ => (curr =? 44)%N)
         (if_ (fun s => (q_last (fst s) =? 58)%N)
            (node keyLabel value false)
            (if_ (fun s => (q_last (fst s) =? 44) || (q_last (fst s) =? 91))%N (node indexLabel value false) pass) ;;
          step (fun s => sq_inc (indexList s)) q_to_index ;;
          set_ (fun s => (q_to_val (snd s + 1) (fst s), snd s)) ;;
          upd (q_to_last 44%N) ;;
          continue_) pass))).

  (** parse_core.go:5-118; [return nil] hands over the heap *)
  Definition pCore_go (h : heap) (node : nat) : flow unit heap :=
    func (
      if_ (fun _ => zlen json <? 2) (return_ hp) pass ;;
      read (fun s => sq_push (indexList s) 0) (fun l => set_ (q_to_index l)) ;;
      for_ fuel (fun s => do c <- zat json (q_start s); Ok (space c)) (fun s => s) (
        if_ (fun s => q_start s >? zlen json - 1) (return_ hp) pass ;;
        set_ (fun s => q_to_start (q_start s + 1) s)) ;;
      var (fun s => q_start s) (for_ fuel (fun s => Ok (snd s <? zlen json)) (fun s => (fst s, snd s + 1)) p_body) ;;
      return_ hp) (Pc false (makeSeq 4) (makeSeq 4) 0 0 [] 0 0 h (Some node)).
End PCoreGo.

(** A text, by computation: the labels and values of the nodes, in the order they are made *)
Example pCore_go_runs :
  match pCore_go 30 (b "{""k"":[1, 2] ,""x"":""z""}") [Cell [] [] None []] 0 with
  | Ret h => map (fun c => (c_label c, c_value c, c_down c)) h = [([], [], [1%nat]); (b "0", b "{""k"":[1, 2] ,""x"":""z""}", [2%nat; 5%nat]);
      (b "k", b "[1, 2]", [3%nat; 4%nat]); (b "0", b "1", []); (b "1", b " 2", []); (b "x", b """z""", [])]
  | _ => False
  end.
Proof. vm_compute. reflexivity. Qed.
