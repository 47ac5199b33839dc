(** Model of errors.go: error texts and [ErrEqual]. *)
From Coq Require Import String.
From Verif Require Export GoStd.

Local Open Scope string_scope.

(** errors.go:8-27 *)
Definition err_code (e : err) : Z :=
  match e with
  | ENullPath => 0 | EEmptyArray => 2 | EIndexExpected => 3 | EObjectExpected => 5
  | EArrayExpected => 6 | EIndexOutOfRange => 7 | EKeyNotFound _ => 8 | EBadJSON _ => 9
  | EKeyAlreadyExist _ => 11 | EIntegerParse _ => 12 | EFloatParse _ => 13 | EBoolParse _ => 14
  | EStringArrayParse _ => 15 | EIntegerArrayParse _ => 16 | EFloatArrayParse _ => 17
  | EBoolArrayParse _ => 18 | ENullKey => 19 | EEmpty => 20
  | EUser _ => -1
  end%Z.

(** fmt's %02d for a non-negative number. *)
Definition fmt02 (z : Z) : bytes :=
  let s := itoa z in if (List.length s <? 2)%nat then 48%N :: s else s.

Definition with_code (s : bytes) (e : err) : bytes := (s ++ b " error_code: " ++ fmt02 (err_code e))%list.

(** errors.go:45-133: the text of each error. *)
Definition err_text (e : err) : bytes :=
  match e with
  | ENullPath => with_code (b "error: path cannot be null") e
  | EEmptyArray => with_code (b "error: array is empty") e
  | EIndexExpected => with_code (b "error: index expected, got key value") e
  | EObjectExpected => with_code (b "error: last path must be pointed at an object") e
  | EArrayExpected => with_code (b "error: last path must be pointed at an array") e
  | EIndexOutOfRange => with_code (b "error: index out of range") e
  | EKeyNotFound k => with_code (b "error: key '" ++ k ++ b "' not found")%list e
  | EBadJSON n => with_code (b "error: bad json format. at:'" ++ itoa (Z.of_nat n) ++ b "'")%list e
  | EKeyAlreadyExist k => with_code (b "error: key '" ++ k ++ b "' already exist")%list e
  | EIntegerParse v => with_code (b "parse error: '" ++ v ++ b "' cannot be converted to int.")%list e
  | EFloatParse v => with_code (b "parse error: '" ++ v ++ b "' cannot be converted to float.")%list e
  | EBoolParse v => with_code (b "parse error: '" ++ v ++ b "' cannot be converted to bool.")%list e
  | EStringArrayParse v => with_code (b "parse error: '" ++ v ++ b "' cannot be converted to []string.")%list e
  | EIntegerArrayParse v => with_code (b "parse error: '" ++ v ++ b "' cannot be converted to []int.")%list e
  | EFloatArrayParse v => with_code (b "parse error: '" ++ v ++ b "' cannot be converted to []float.")%list e
  | EBoolArrayParse v => with_code (b "parse error: '" ++ v ++ b "' cannot be converted to []bool.")%list e
  | ENullKey => with_code (b "error: new key cannot be null") e
  | EEmpty => with_code (b "error: Object/Array is empty") e
  | EUser msg => msg
  end.

(** errors.go:29-43 [ErrEqual]; [None] is a nil error. *)
Definition err_equal (e : option err) (code : Z) : bool :=
  match e with
  | None => false
  | Some e =>
      let str := err_text e in
      if (List.length str <? 2)%nat then false
      else match atoi (skipn (List.length str - 2) str) with
           | None => false
           | Some c => (c =? code)%Z
           end
  end.

(** ** Facts *)
Definition is_lib_error (e : err) : bool := match e with EUser _ => false | _ => true end.

Lemma err_text_lib e : is_lib_error e = true -> exists s, err_text e = with_code s e.
Proof. destruct e; try discriminate; intros _; eexists; reflexivity. Qed.

Lemma fmt02_len e : is_lib_error e = true -> List.length (fmt02 (err_code e)) = 2%nat.
Proof. destruct e; try discriminate; reflexivity. Qed.

Lemma fmt02_atoi e : is_lib_error e = true -> atoi (fmt02 (err_code e)) = Some (err_code e).
Proof. destruct e; try discriminate; reflexivity. Qed.

Lemma err_equal_spec e code : is_lib_error e = true -> err_equal (Some e) code = (err_code e =? code)%Z.
Proof.
  intro He. destruct (err_text_lib e He) as [s Hs]. unfold err_equal. rewrite Hs. unfold with_code.
  pose proof (fmt02_len e He) as Hl. rewrite !app_length, Hl.
  replace (List.length s + (List.length (b " error_code: ") + 2) <? 2)%nat with false
    by (symmetry; apply Nat.ltb_ge; lia).
  replace (List.length s + (List.length (b " error_code: ") + 2) - 2)%nat
    with (List.length (s ++ b " error_code: ")) by (rewrite app_length; lia).
  rewrite app_assoc, skipn_app, Nat.sub_diag, skipn_all. cbn [app skipn].
  rewrite (fmt02_atoi e He). reflexivity.
Qed.

Lemma err_equal_nil code : err_equal None code = false.
Proof. reflexivity. Qed.
