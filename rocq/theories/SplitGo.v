(** The functions of inter_get.go that return one value or an array, and ParseArray, once more, statement by statement;
    SplitGoProofs.v shows that they compute what the models in Api.v and Iter.v compute. *)
From Coq Require Import String.
From Verif Require Import GoStd Errors GoLang CoreGo IterGo.

Local Open Scope Z_scope.

Section SplitGo.
  Variable fuel : nat.

  (** inter_get.go:12-21 [Get] *)
  Definition Get_go (json : bytes) (path : list bytes) : flow unit (bytes * option err) :=
    func (
      if_ (fun _ => zlen path =? 0) (return_ (fun _ => (json, None))) pass ;;
      call (fun _ => returns (core_go fuel json false path)) (fun r =>
        let '(_, start, end_, e) := r in
        match e with Some e => return_ (fun _ => ([], Some e)) | None => pass end ;;
        read (fun _ => zslice json start end_) (fun v => return_ (fun _ => (v, e))))) tt.
  (** inter_get.go:25-31 [GetString]; [string(val)] is [val] *)
  Definition GetString_go (json : bytes) (path : list bytes) : flow unit (bytes * option err) :=
    func (
      call (fun _ => Get_go json path) (fun r =>
        let '(val, e) := r in
        match e with Some e => return_ (fun _ => ([], Some e)) | None => pass end ;;
        return_ (fun _ => (val, e)))) tt.

  (** [val, err := GetString(json, path...); if err != nil { return none, err }; c]; [src] is the call on the right *)
  Definition gotten {S A : Type} (src : flow unit (bytes * option err)) (none : A) (s : S) (c : bytes -> cmd S (A * option err)) : flow unit (A * option err) :=
    func (
      call (fun _ => src) (fun r =>
        let '(val, e) := r in
        match e with Some e => return_ (fun _ => (none, Some e)) | None => pass end ;;
        c val)) s.

  (** inter_get.go:36-46 [GetInt], 51-61 [GetFloat] ([pf] is strconv.ParseFloat, [minus1] is -1.0), 66-78 [GetBool]; the methods
      of Parser differ in the call of GetString only: parse_get.go:61-71, 76-86, 91-103 *)
  Definition GetInt_of (src : flow unit (bytes * option err)) : flow unit (Z * option err) :=
    gotten src (-1) tt (fun val =>
      match atoi val with
      | None => return_ (fun _ => (-1, Some (EIntegerParse val)))
      | Some intVal => return_ (fun _ => (intVal, None))
      end).
  Definition GetFloat_of {F : Type} (pf : bytes -> option F) (minus1 : F) (src : flow unit (bytes * option err)) : flow unit (F * option err) :=
    gotten src minus1 tt (fun val =>
      match pf val with
      | None => return_ (fun _ => (minus1, Some (EFloatParse val)))
      | Some floatVal => return_ (fun _ => (floatVal, None))
      end).
  Definition GetBool_of (src : flow unit (bytes * option err)) : flow unit (bool * option err) :=
    gotten src false tt (fun val =>
      if_ (fun _ => bytes_eqb val (b "true")) (return_ (fun _ => (true, None))) pass ;;
      if_ (fun _ => bytes_eqb val (b "false")) (return_ (fun _ => (false, None))) pass ;;
      return_ (fun _ => (false, Some (EBoolParse val)))).
  Definition GetInt_go (json : bytes) (path : list bytes) := GetInt_of (GetString_go json path).
  Definition GetFloat_go {F : Type} (pf : bytes -> option F) (minus1 : F) (json : bytes) (path : list bytes) := GetFloat_of pf minus1 (GetString_go json path).
  Definition GetBool_go (json : bytes) (path : list bytes) := GetBool_of (GetString_go json path).

  (** ** Arrays

      The variables [start], [inQuote], [level], [newArray] *)
  Section Elements.
    Context {A R : Type}.
    Record sp : Type := Sp { p_start : Z; p_inQuote : bool; p_level : Z; p_array : list A }.
    Definition p_to_start x s := Sp x (p_inQuote s) (p_level s) (p_array s).
    Definition p_to_inQuote x s := Sp (p_start s) x (p_level s) (p_array s).
    Definition p_to_level x s := Sp (p_start s) (p_inQuote s) x (p_array s).
    Definition p_to_array x s := Sp (p_start s) (p_inQuote s) (p_level s) x.
    Variables (val : bytes) (mid fin : bytes -> cmd (sp * Z) R).
    Definition pset (f : sp -> sp) : cmd (sp * Z) R := set_ (fun s => (f (fst s), snd s)).

    (** others.go:197-234, inter_get.go:119-161, 185-227, 251-303: [fin] and [mid] are what is done with
        [element := val[start:i]] *)
    Definition split_body : cmd (sp * Z) R :=
      read (fun s => zat val (snd s)) (fun curr =>
      if_ (fun _ => (curr =? 92)%N) (set_ (fun s => (fst s, snd s + 1)) ;; continue_) pass ;;
      if_ (fun _ => (curr =? 34)%N) (pset (fun s => p_to_inQuote (negb (p_inQuote s)) s) ;; continue_) pass ;;
      if_ (fun s => p_inQuote (fst s)) continue_
        (if_ (fun _ => (curr =? 91) || (curr =? 123))%N (pset (fun s => p_to_level (p_level s + 1) s)) pass ;;
         if_ (fun _ => (curr =? 93) || (curr =? 125))%N
           (pset (fun s => p_to_level (p_level s - 1) s) ;;
            if_ (fun _ => (curr =? 93)%N)
              (if_ (fun s => p_level (fst s) =? 0)
                 (read (fun s => zslice val (p_start (fst s)) (snd s)) fin ;;
                  break_) pass) pass) pass ;;
         if_ (fun s => p_level (fst s) =? 1)
           (if_ (fun _ => (curr =? 44)%N)
              (read (fun s => zslice val (p_start (fst s)) (snd s)) mid ;;
               set_ (fun s => (p_to_start (snd s + 1) (fst s), snd s)) ;;
               continue_) pass) pass)).
    (** [for i := 0; i < len(val); i++] *)
    Definition split_for : cmd sp R := var (fun _ => 0) (for_ fuel (fun s => Ok (snd s <? zlen val)) (fun s => (fst s, snd s + 1)) split_body).
    Definition append_ (a : A) : cmd (sp * Z) R := pset (fun s => p_to_array (p_array s ++ [a]) s).
  End Elements.
  Arguments sp A : clear implicits.

  (** others.go:185-238 [ParseArray]; nil is [None] *)
  Definition string_element (element : bytes) : cmd (sp bytes * Z) (option (list bytes)) :=
    call (fun _ => cleanValueString_go fuel element) append_.
  Definition ParseArray_go (arr : bytes) : flow unit (option (list bytes)) :=
    func (
      if_ (fun _ => zlen arr <? 2) (return_ (fun _ => Some [])) pass ;;
      read (fun _ => and_also (do c <- zat arr 0; Ok (c =? 91)%N) (do c <- zat arr (zlen arr - 1); Ok (c =? 93)%N)) (fun both =>
      if_ (fun _ => both)
        (if_ (fun _ => zlen arr =? 2) (return_ (fun _ => Some [])) pass ;;
         split_for arr string_element string_element ;;
         return_ (fun s => Some (p_array s))) pass) ;;
      return_ (fun _ => None)) (Sp 1 false 0 []).

  (** inter_get.go:83-100 and parse_get.go:108-125 [GetStringArray] *)
  Definition GetStringArray_of (src : flow unit (bytes * option err)) : flow unit (list bytes * option err) :=
    gotten src [] tt (fun val =>
      if_ (fun _ => zlen val <? 2) (return_ (fun _ => ([], Some (EStringArrayParse val)))) pass ;;
      read (fun _ => and_also (do c <- zat val 0; Ok (c =? 91)%N) (do c <- zat val (zlen val - 1); Ok (c =? 93)%N)) (fun both =>
      if_ (fun _ => both)
        (call (fun _ => ParseArray_go val) (fun arr =>
           match arr with
           | None => return_ (fun _ => ([], Some (EStringArrayParse val)))
           | Some arr => return_ (fun _ => (arr, None))
           end)) pass) ;;
      return_ (fun _ => ([], Some (EStringArrayParse val)))).
  Definition GetStringArray_go (json : bytes) (path : list bytes) := GetStringArray_of (GetString_go json path).

  (** inter_get.go:110-117, 165, and the same lines of the other two *)
  Definition array_of {A : Type} (src : flow unit (bytes * option err)) (wrong : bytes -> err) (mid fin : bytes -> cmd (sp A * Z) (list A * option err)) : flow unit (list A * option err) :=
    gotten src [] (Sp 1 false 0 []) (fun val =>
      if_ (fun _ => zlen val <? 2) (return_ (fun _ => ([], Some (wrong val)))) pass ;;
      read (fun _ => and_also (do c <- zat val 0; Ok (c =? 91)%N) (do c <- zat val (zlen val - 1); Ok (c =? 93)%N)) (fun both =>
      if_ (fun _ => both)
        (split_for val mid fin ;; return_ (fun s => (p_array s, None))) pass) ;;
      return_ (fun _ => ([], Some (wrong val)))).

  (** inter_get.go:140-144, 151-155: [num, err := strconv.Atoi(cleanValueString(element)); if err != nil
      { return nil, errIntegerParse(cleanValueString(element)) }; newArray = append(newArray, num)] *)
  Definition int_element (element : bytes) : cmd (sp Z * Z) (list Z * option err) :=
    call (fun _ => cleanValueString_go fuel element) (fun t =>
      match atoi t with
      | None => call (fun _ => cleanValueString_go fuel element) (fun t => return_ (fun _ => ([], Some (EIntegerParse t))))
      | Some num => append_ num
      end).
  (** inter_get.go:105-166 and parse_get.go:130-191 [GetIntArray] *)
  Definition GetIntArray_of (src : flow unit (bytes * option err)) : flow unit (list Z * option err) :=
    array_of src EIntegerArrayParse int_element int_element.
  Definition GetIntArray_go (json : bytes) (path : list bytes) := GetIntArray_of (GetString_go json path).

  (** inter_get.go:206-210, 217-221 *)
  Definition float_element {F : Type} (pf : bytes -> option F) (element : bytes) : cmd (sp F * Z) (list F * option err) :=
    call (fun _ => cleanValueString_go fuel element) (fun t =>
      match pf t with
      | None => call (fun _ => cleanValueString_go fuel element) (fun t => return_ (fun _ => ([], Some (EFloatParse t))))
      | Some num => append_ num
      end).
  (** inter_get.go:171-232 and parse_get.go:196-257 [GetFloatArray] *)
  Definition GetFloatArray_of {F : Type} (pf : bytes -> option F) (src : flow unit (bytes * option err)) : flow unit (list F * option err) :=
    array_of src EFloatArrayParse (float_element pf) (float_element pf).
  Definition GetFloatArray_go {F : Type} (pf : bytes -> option F) (json : bytes) (path : list bytes) := GetFloatArray_of pf (GetString_go json path).

  (** inter_get.go:272-281, 289-298: [element = cleanValueString(element)], then [wrong] if it is neither *)
  Definition bool_element (wrong : bytes -> cmd (sp bool * Z) (list bool * option err)) (element : bytes) : cmd (sp bool * Z) (list bool * option err) :=
    call (fun _ => cleanValueString_go fuel element) (fun element =>
    if_ (fun _ => bytes_eqb element (b "true") || bytes_eqb element (b "false"))
      (if_ (fun _ => bytes_eqb element (b "true")) (append_ true) (append_ false))
      (wrong element)).
  (** inter_get.go:237-308 and parse_get.go:262-333 [GetBoolArray]; before the closing bracket (line 280) the text is cleaned again for the message *)
  Definition GetBoolArray_of (src : flow unit (bytes * option err)) : flow unit (list bool * option err) :=
    array_of src EBoolArrayParse
      (bool_element (fun element => return_ (fun _ => ([], Some (EBoolParse element)))))
      (bool_element (fun element => call (fun _ => cleanValueString_go fuel element) (fun t => return_ (fun _ => ([], Some (EBoolParse t)))))).
  Definition GetBoolArray_go (json : bytes) (path : list bytes) := GetBoolArray_of (GetString_go json path).
End SplitGo.
