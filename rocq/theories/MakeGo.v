(** formatType, the Make functions and the methods of Scheme that read or build JSON once more, statement by statement;
    MakeGoProofs.v shows that they compute what the models in Typed.v and Make.v compute.  [pf] is the set of texts
    strconv.ParseFloat accepts; numbers are given as the texts strconv and fmt make of them. *)
From Coq Require Import String.
From Verif Require Import GoStd Errors GoLang CoreGo IterGo ListGo SplitGo UpdateGo.

Local Open Scope Z_scope.

(** [for i, x := range xs] *)
Fixpoint range_from {A S R : Type} (xs : list A) (i : Z) (body : Z -> A -> cmd S R) (s : S) : flow S R :=
  match xs with
  | [] => Nrm s
  | x :: r =>
      match body i x s with
      | Nrm s' | Cnt s' => range_from r (i + 1) body s'
      | Brk s' => Nrm s'
      | Gto s' => Gto s'
      | Ret a => Ret a
      | Pan => Pan
      | Out => Out
      end
  end.
Definition range_ {A S R : Type} (xs : list A) (body : Z -> A -> cmd S R) : cmd S R := range_from xs 0 body.
(** [s += ...], [js = append(js, x...)] *)
Definition appended {R : Type} (x : bytes) : cmd bytes R := set_ (fun js => js ++ x).

(** [string(x) + string(y)] is [++]; utils.go:54-88 [formatType], 90-92 [isBool], 94-97 [isFloat], 99-102 [isInt] *)
Definition isBool_go (val : bytes) : bool := bytes_eqb val (b "true") || bytes_eqb val (b "false").
Definition formatType_go (pf : bytes -> bool) (val : bytes) : flow unit bytes :=
  func (
    if_ (fun _ => zlen val =? 0) (return_ (fun _ => b """""")) pass ;;
    if_ (fun _ => isBool_go val) (return_ (fun _ => val)) pass ;;
    if_ (fun _ => match parse_int 32 val with Some _ => true | None => false end)
      (read (fun _ => zat val 0) (fun c =>
       if_ (fun _ => (c =? 48)%N && (zlen val >? 1)) (return_ (fun _ => b """" ++ val ++ b """")) pass) ;;
       return_ (fun _ => val)) pass ;;
    if_ (fun _ => pf val) (return_ (fun _ => val)) pass ;;
    if_ (fun _ => bytes_eqb val (b "null")) (return_ (fun _ => val)) pass ;;
    read (fun _ => zat val 0) (fun start =>
    read (fun _ => zat val (zlen val - 1)) (fun end_ =>
    if_ (fun _ => (start =? 34) && (end_ =? 34))%N (return_ (fun _ => val)) pass ;;
    if_ (fun _ => (start =? 91) && (end_ =? 93))%N (return_ (fun _ => val)) pass ;;
    if_ (fun _ => (start =? 123) && (end_ =? 125))%N (return_ (fun _ => val)) pass ;;
    return_ (fun _ => b """" ++ val ++ b """")))) tt.

(** ** Make

    The state is [js].  What all of them do, [item] being the statements for one element (e.g. make.go:193-201); a nil
    slice is no list. *)
Definition made {A : Type} (open_ close_ : N) (xs : option (list A)) (item : Z -> A -> cmd bytes bytes) : flow unit bytes :=
  match xs with
  | None => Ret [open_; close_]
  | Some xs =>
      func (
        appended [open_] ;;
        range_ xs (fun i x => item i x ;; appended [44%N]) ;;
        read (fun js => zslice js 0 (zlen js - 1)) (fun x => set_ (fun _ => x)) ;;
        appended [close_] ;;
        return_ (fun js => js)) []
  end.
Definition formatted (pf : bytes -> bool) (v : bytes) : cmd bytes bytes := call (fun _ => formatType_go pf v) appended.

(** make.go:171-184 [MakeArray], 189-202 [MakeArrayString], 207-220 [MakeArrayInt], 225-246 [MakeArrayBool], 281-294 [MakeArrayBytes] *)
Definition MakeArray_go pf (elements : option (list bytes)) := made 91 93 elements (fun _ => formatted pf).
Definition MakeArrayString_go pf (values : option (list bytes)) := made 91 93 values (fun _ => formatted pf).
Definition MakeArrayInt_go (values : option (list Z)) := made 91 93 values (fun _ v => appended (itoa v)).
Definition MakeArrayBool_go (values : option (list bool)) :=
  made 91 93 values (fun _ v => if_ (fun _ => v) (appended (b "true")) (appended (b "false"))).
Definition MakeArrayBytes_go (values : option (list bytes)) := made 91 93 values (fun _ => appended).

(** [x, _ := strconv.Atoi(text)]: 0 for what is no number, the nearest int for one out of range *)
Definition atoi_value (t : bytes) : Z := match parse_signed t with Some z => Z.max int64_min (Z.min int64_max z) | None => 0 end.
(** make.go:251-276 [MakeArrayFloat] *)
Definition MakeArrayFloat_go (fuel : nat) (nums : option (list bytes)) :=
  made 91 93 nums (fun _ num =>
    var (fun _ => 0) (
      var (fun _ => 0) (for_ fuel (fun s => Ok (snd s <? zlen num)) (fun s => (fst s, snd s + 1)) (
        read (fun s => zat num (snd s)) (fun c =>
        if_ (fun _ => (c =? 101)%N) (set_ (fun s => ((fst (fst s), snd s), snd s))) pass))) ;;
      read (fun s => zslice num (snd s + 2) (zlen num)) (fun t =>
      if_ (fun _ => atoi_value t =? 0)
        (read (fun s => zslice num 0 (snd s)) (fun x => set_ (fun s => (fst s ++ x, snd s))))
        (set_ (fun s => (fst s ++ num, snd s)))))).

(** make.go:313-319, 336-342, 356-362: one pair *)
Definition pair_go (pf : bytes -> bool) (k : bytes) (v : bytes) : cmd bytes bytes :=
  appended [34%N] ;; appended k ;; appended [34%N] ;; appended [58%N] ;; formatted pf v.
(** make.go:304-324 [MakeJson], 327-347 [MakeJsonString]: nil is [None] *)
Definition len_of {A : Type} (l : option (list A)) : Z := match l with None => 0 | Some l => zlen l end.
Definition MakeJsonString_go (pf : bytes -> bool) (ks vs : option (list bytes)) : flow unit (option bytes) :=
  if negb (len_of ks =? len_of vs) then Ret None
  else call (fun _ => made 123 125 ks (fun i k =>
         read (fun _ => zat (match vs with None => [] | Some l => l end) i) (pair_go pf k))) (fun js => return_ (fun _ => Some js)) tt.
Definition MakeJson_go := MakeJsonString_go.
(** make.go:350-367 [MakeJsonWithMap]; the pairs in the order in which range yields them *)
Definition MakeJsonWithMap_go (pf : bytes -> bool) (m : option (list (bytes * bytes))) :=
  made 123 125 m (fun _ kv => pair_go pf (fst kv) (snd kv)).

(** ** Scheme *)
Section Scheme.
  Variables (pf : bytes -> bool) (fuel : nat) (keys : list bytes) (json : bytes).

  (** inter_add.go:234-239 [AddKeyValueString]; nil is [None] *)
  Definition AddKeyValueString_go (j key value : bytes) (path : list bytes) : flow unit (option bytes * option err) :=
    func (
      if_ (fun _ => zlen key =? 0) (return_ (fun _ => (None, Some ENullKey))) pass ;;
      call (fun _ => formatType_go pf value) (fun v =>
      call (fun _ => AddKeyValue_go fuel j key (Some v) path) (fun r => return_ (fun _ => (Some (fst r), snd r))))) tt.

  (** make.go:37-52 [MutateJson]; the state is [newJson].  Go's nil as a text is the empty one; AddKeyValue gives it
      back as it is, [same] *)
  Definition same (old new : option bytes) : option bytes := match old, new with None, Some [] => None | _, _ => new end.
  Definition mutate_body (k : bytes) : cmd (option bytes) (option bytes * option err) :=
    call (fun _ => GetString_go fuel json [k]) (fun r =>
    let '(val, e) := r in
    call (fun _ => formatType_go pf val) (fun val =>
    call (fun new => AddKeyValueString_go (match new with None => [] | Some j => j end) k val []) (fun r =>
    set_ (fun new => same new (fst r)) ;;
    match e, snd r with None, Some _ => return_ (fun _ => (None, None)) | _, _ => pass end))).
  Definition MutateJson_go : flow unit (option bytes * option err) :=
    func (range_ keys (fun _ => mutate_body) ;; return_ (fun new => (new, None))) (Some (b "{}")).
  (** make.go:55-71 [MutateJsonAbs] *)
  Definition mutate_abs_body (k : bytes) : cmd (option bytes) (option bytes * option err) :=
    call (fun _ => GetString_go fuel json [k]) (fun r =>
    let '(val, e) := r in
    match e with Some e => return_ (fun _ => (None, Some e)) | None => pass end ;;
    call (fun _ => formatType_go pf val) (fun val =>
    call (fun new => AddKeyValueString_go (match new with None => [] | Some j => j end) k val []) (fun r =>
    set_ (fun new => same new (fst r)) ;;
    match snd r with Some e => return_ (fun _ => (None, Some e)) | None => pass end))).
  Definition MutateJsonAbs_go : flow unit (option bytes * option err) :=
    func (range_ keys (fun _ => mutate_abs_body) ;; return_ (fun new => (new, None))) (Some (b "{}")).
  (** make.go:74-82 [Check] *)
  Definition Check_go : flow unit bool :=
    func (
      range_ keys (fun _ k =>
        call (fun _ => Get_go fuel json [k]) (fun r => if_ (fun _ => match snd r with Some _ => true | None => false end) (return_ (fun _ => false)) pass)) ;;
      return_ (fun _ => true)) tt.
  (** make.go:85-107 [CheckAbs] *)
  Definition CheckAbs_go : flow unit bool :=
    func (
      call (fun _ => GetKeys_go fuel json []) (fun r =>
      let '(ks, e) := r in
      match e with Some _ => return_ (fun _ => false) | None => pass end ;;
      if_ (fun _ => negb (zlen ks =? zlen keys)) (return_ (fun _ => false)) pass ;;
      var (fun _ => 0) (for_ fuel (fun s => Ok (snd s <? zlen ks)) (fun s => (fst s, snd s + 1)) (
        var (fun _ => false) (
          read (fun s => zat ks (snd (fst s))) (fun key =>
          var (fun _ => 0) (for_ fuel (fun s => Ok (snd s <? zlen keys)) (fun s => (fst s, snd s + 1)) (
            read (fun s => zat keys (snd s)) (fun k =>
            if_ (fun _ => bytes_eqb key k) (set_ (fun s => ((fst (fst s), true), snd s)) ;; break_) pass)))) ;;
          if_ (fun s => negb (snd s)) (return_ (fun _ => false)) pass))) ;;
      return_ (fun _ => true))) tt.
End Scheme.
