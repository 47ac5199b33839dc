(** The iterators on the memory of GoMem.v.  The loops read the document from memory at every step, as a callback may have
    written to it; [StM] is what the callback remembers from call to call. *)
From Coq Require Import String.
From Verif Require Import GoStd Core Errors Api Iter GoMem.

Local Open Scope N_scope.

Definition nil_bytes : bsl := Bsl 0 0 0 0.

(** utils.go:121-145 [cleanValue] *)
Definition cleanValueM (s : bsl) : M bsl :=
  let! t := look s in
  match t with
  | [] => ret s
  | _ =>
      let start := (length t - length (trim1 t))%nat in
      let end_ := (start + pred (length (trim1 (rev (skipn start t)))))%nat in
      if (nth start t 0 =? 34) && (nth end_ t 0 =? 34) then sub s (S start) end_ else sub s start (S end_)
  end.

Section IterMem.
  Context {StM : Type}.

  (** inter_iter.go:41-102, the loop of IterateArray; [n] steps are left and [lv] is [level + 1] *)
  Fixpoint iter_arrM (json : bsl) (cb : StM -> bsl -> M (StM * (bool * option err))) (n i start lv : nat) (inq : bool) (s : StM)
    : M (StM * option err) :=
    match n with
    | O => ret (s, Some (EBadJSON start))
    | S n =>
        let! t := look json in
        let c := nth i t 0 in
        if c =? 34 then iter_arrM json cb n (S i) start lv (if inq then negb (closes1 t i) else true) s
        else if inq then iter_arrM json cb n (S i) start lv inq s
        else if is_open c then iter_arrM json cb n (S i) start (S lv) inq s
        else if is_close c then
          if (lv =? 0)%nat then ret (s, None)
          else if (c =? 93) && (lv =? 1)%nat then
            let! v := sub json start i in
            let! v := cleanValueM v in
            let! r := cb s v in
            ret (fst r, snd (snd r))
          else iter_arrM json cb n (S i) start (pred lv) inq s
        else if (lv =? 1)%nat && (c =? 44) then
          let! v := sub json start i in
          let! v := cleanValueM v in
          let! r := cb s v in
          match snd (snd r) with
          | Some e => ret (fst r, Some e)
          | None => if fst (snd r) then iter_arrM json cb n (S i) (S i) lv inq (fst r) else ret (fst r, None)
          end
        else iter_arrM json cb n (S i) start lv inq s
    end.

  (** [x, err := f(json); if err != nil { return err }; k] for an [f] that only reads *)
  Definition ibindM {A} (s : StM) (r : res A) (k : A -> M (StM * option err)) : M (StM * option err) :=
    match r with Ok a => k a | Err e => ret (s, Some e) | Panic => panic end.

  (** inter_iter.go:6-103 [IterateArray] *)
  Definition IterateArrayM (json : bsl) (cb : StM -> bsl -> M (StM * (bool * option err))) (path : list bytes) (s : StM) : M (StM * option err) :=
    let! t := look json in
    if (b_len json <? 2)%nat then ret (s, Some (EBadJSON 0))
    else if (b_len json =? 2)%nat then
      if bytes_eqb t (b "[]") then ret (s, None) else ret (s, Some (EBadJSON 0))
    else
      ibindM s (match path with
                | [] => skip_space_last t 0
                | _ => do '(_, st, _) <- core t true path; Ok st
                end) (fun start =>
      ibindM s (at_ t start) (fun c =>
      if c =? 91 then iter_arrM json cb (b_len json - S start) (S start) (S start) 1 false s
      else ret (s, Some EArrayExpected))).

  (** inter_iter.go:191-195, 220-229 *)
  Definition kv_valueM (json : bsl) (start end_ : nat) : M bsl :=
    let! t := look json in
    let! c := eval (at_ t start) in
    if c =? 34 then
      let! d := eval (at_ t end_) in
      if d =? 34 then sub json (S start) end_ else sub json start (S end_)
    else sub json start (S end_).

  (** inter_iter.go:135-247, the loop of IterateKeyValue *)
  Fixpoint iter_kvM (json : bsl) (cb : StM -> bsl -> bsl -> M (StM * (bool * option err))) (n i start end_ level ks ke : nat) (inq : bool)
    (key : bsl) (s : StM) : M (StM * option err) :=
    match n with
    | O => ret (s, None)
    | S n =>
        let! t := look json in
        let c := nth i t 0 in
        if c =? 34 then
          if inq then
            match qscan t i with
            | Some true => iter_kvM json cb n (S i) start end_ level ks i false key s
            | Some false => iter_kvM json cb n (S i) start end_ level ks ke inq key s
            | None => iter_kvM json cb n (S i) start end_ level i ke inq key s
            end
          else iter_kvM json cb n (S i) start end_ level i ke true key s
        else if inq then iter_kvM json cb n (S i) start end_ level ks ke inq key s
        else if is_open c then iter_kvM json cb n (S i) start end_ (S level) ks ke inq key s
        else if is_close c then
          if (c =? 125) && (level =? 1)%nat then
            let start := fwd_trim t start i in
            let end_ := back_trim t start i end_ in
            let! v := kv_valueM json start end_ in
            let! r := cb s key v in ret (fst r, None)
          else if (level =? 1)%nat then ret (s, None)
          else iter_kvM json cb n (S i) start end_ (pred level) ks ke inq key s
        else if (level =? 1)%nat && (c =? 44) then
          let start := fwd_trim t start i in
          let end_ := back_trim t (S start) i (pred i) in
          let! v := kv_valueM json start end_ in
          let! r := cb s key v in
          match snd (snd r) with
          | Some e => ret (fst r, Some e)
          | None => if fst (snd r) then iter_kvM json cb n (S i) start end_ level ks ke inq key (fst r) else ret (fst r, None)
          end
        else if (level =? 1)%nat && (c =? 58) then
          let! key := sub json (S ks) ke in iter_kvM json cb n (S i) (S i) end_ level ks ke inq key s
        else iter_kvM json cb n (S i) start end_ level ks ke inq key s
    end.

  (** inter_iter.go:108-250 [IterateKeyValue] *)
  Definition IterateKeyValueM (json : bsl) (cb : StM -> bsl -> bsl -> M (StM * (bool * option err))) (path : list bytes) (s : StM)
    : M (StM * option err) :=
    let! t := look json in
    if bytes_eqb t (b "{}") then ret (s, Some EEmpty)
    else
      ibindM s (start_of t path) (fun start =>
      ibindM s (at_ t start) (fun c =>
      if c =? 123 then iter_kvM json cb (b_len json - start) start start 0 0 0 0 false nil_bytes s
      else ret (s, Some EObjectExpected))).
End IterMem.
