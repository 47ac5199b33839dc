(** Reading functions that are separate copies of one loop, or look at the same bytes, agree on every text. *)
From Coq Require Import String.
From Verif Require Import GoStd Json Core Errors Api Iter GoFloat FloatProofs SpecAgree Splice.

Local Open Scope N_scope.

(** ** GetKeysValues is GetKeys and GetValues at once *)
Lemma slice_no_err t s e er : slice t s e <> Err er.
Proof. unfold slice. destruct (_ && _)%bool; discriminate. Qed.
Lemma cvs_no_err t er : cleanValueString t <> Err er.
Proof. unfold cleanValueString. destruct t; [discriminate|]. destruct (_ && _)%bool; apply slice_no_err. Qed.

Lemma kvs_zipped json : forall rest i start level ks ke inq,
  zipped (kvs_loop json rest i start level ks ke inq) (keys_loop json rest i level ks ke inq) (values_loop json rest i start level inq).
Proof.
  induction rest as [|c r IH]; intros i start level ks ke inq; cbn [kvs_loop keys_loop values_loop]; [split; reflexivity|].
  destruct (c =? 34).
  { destruct inq; [|apply IH]. destruct (qscan json i) as [[]|]; apply IH. }
  destruct inq; [apply IH|]. destruct (is_open c); [apply IH|]. destruct (is_close c).
  { destruct (level =? 1)%nat; [|apply IH]. pose proof (slice_no_err json start i) as NE. destruct (slice json start i) as [v|er|]; cbn [bind];
      [|exfalso; exact (NE er eq_refl)|right; reflexivity].
    pose proof (cvs_no_err v) as NC. destruct (cleanValueString v) as [w|er|]; cbn [bind]; [|exfalso; exact (NC er eq_refl)|right; reflexivity].
    split; reflexivity. }
  destruct (c =? 58) eqn:E58; cbn [andb].
  { destruct (level =? 1)%nat; [|apply IH]. pose proof (slice_no_err json (S ks) ke) as NE.
    destruct (slice json (S ks) ke) as [k|er|]; cbn [bind]; [|exfalso; exact (NE er eq_refl)|left; reflexivity].
    specialize (IH (S i) (S i) level ks ke false). unfold zipped in IH.
    destruct (kvs_loop json r (S i) (S i) level ks ke false) as [[l vs]|er|]; cbn [bind zipped].
    - destruct IH as [-> ->]. split; reflexivity.
    - destruct IH as [-> ->]. split; reflexivity.
    - destruct IH as [-> | ->]; [left; reflexivity|right; reflexivity]. }
  destruct (c =? 44); cbn [andb]; [|apply IH]. destruct (level =? 1)%nat; [|apply IH].
  pose proof (slice_no_err json start i) as NE. destruct (slice json start i) as [v|er|]; cbn [bind];
    [|exfalso; exact (NE er eq_refl)|right; reflexivity].
  pose proof (cvs_no_err v) as NC. destruct (cleanValueString v) as [w|er|]; cbn [bind]; [|exfalso; exact (NC er eq_refl)|right; reflexivity].
  specialize (IH (S i) (S i) level ks ke false). unfold zipped in IH.
  destruct (kvs_loop json r (S i) (S i) level ks ke false) as [[l vs]|er|]; cbn [bind zipped].
  - destruct IH as [-> ->]. split; reflexivity.
  - destruct IH as [-> ->]. split; reflexivity.
  - destruct IH as [-> | ->]; [left; reflexivity|right; reflexivity].
Qed.

Theorem keys_values_zipped json path : zipped (GetKeysValues json path) (GetKeys json path) (GetValues json path).
Proof.
  unfold GetKeysValues, GetKeys, GetValues. destruct (bytes_eqb json (b "{}")); [split; reflexivity|].
  destruct (start_of json path) as [s|e|]; cbn [bind]; [|split; reflexivity|left; reflexivity].
  destruct (at_ json s) as [c|e|]; cbn [bind]; [|split; reflexivity|left; reflexivity].
  destruct (c =? 123); [apply kvs_zipped|split; reflexivity].
Qed.

(** ** Type predicates *)
Theorem value_is_not_object json path : IsValue json path = rmap negb (IsObject json path).
Proof.
  unfold IsValue, IsObject, typeControlCore. destruct json as [|c0 json]; [reflexivity|].
  destruct (start_of (c0 :: json) path) as [s|e|]; cbn [bind rmap]; [|reflexivity|reflexivity].
  destruct (at_ (c0 :: json) s) as [c|e|]; cbn [bind rmap]; [|reflexivity|reflexivity].
  destruct (existsb (N.eqb c) [91; 123]); reflexivity.
Qed.

Theorem array_is_object json path : IsArray json path = Ok true -> IsObject json path = Ok true.
Proof.
  unfold IsArray, IsObject, typeControlCore. destruct json as [|c0 json]; [discriminate|].
  destruct (start_of (c0 :: json) path) as [s|e|]; cbn [bind]; [|discriminate|discriminate].
  destruct (at_ (c0 :: json) s) as [c|e|]; cbn [bind existsb]; [|discriminate|discriminate].
  destruct (c =? 91); cbn [orb]; [reflexivity|discriminate].
Qed.

Lemma parsed_as json path pf : GetType pf json path =
  match json with
  | [] => Err (EBadJSON 0)
  | _ =>
    do s <- start_of json path; do c <- at_ json s;
    if c =? 91 then Ok TArray else if c =? 123 then Ok TObject else if c =? 34 then Ok TString
    else
      do val <- GetString json path;
      if bytes_eqb val (b "true") || bytes_eqb val (b "false") then Ok TBoolean
      else if bytes_eqb val (b "null") then Ok TNull
      else match parse_int 64 val with Some _ => Ok TNumber | None => if pf val then Ok TNumber else Ok TString end
  end.
Proof.
  unfold GetType, typeControlCore. destruct json as [|c0 json]; [reflexivity|].
  destruct (start_of (c0 :: json) path) as [s|e|]; reflexivity.
Qed.

(** GetType and the predicates. *)
Theorem type_agrees pf json path t : GetType pf json path = Ok t ->
  IsArray json path = Ok (is_tarray t) /\ IsObject json path = Ok (is_container t) /\ IsValue json path = Ok (negb (is_container t)).
Proof.
  rewrite parsed_as. rewrite value_is_not_object. unfold IsArray, IsObject, typeControlCore. destruct json as [|c0 json]; [discriminate|].
  destruct (start_of (c0 :: json) path) as [s|e|]; cbn [bind rmap]; [|discriminate|discriminate].
  destruct (at_ (c0 :: json) s) as [c|e|]; cbn [bind rmap existsb]; [|discriminate|discriminate].
  destruct (c =? 91) eqn:E1; [intros [= <-]; repeat split|]. destruct (c =? 123) eqn:E2; [intros [= <-]; repeat split|].
  cbn [orb rmap negb]. intro H. assert (K : is_container t = false /\ is_tarray t = false).
  { destruct (c =? 34); [injection H as <-; split; reflexivity|]. destruct (GetString _ _) as [v|e|]; cbn [bind] in H; [|discriminate|discriminate].
    destruct (_ || _)%bool; [injection H as <-; split; reflexivity|]. destruct (bytes_eqb v (b "null")); [injection H as <-; split; reflexivity|].
    destruct (parse_int 64 v); [injection H as <-; split; reflexivity|]. destruct (pf v); injection H as <-; split; reflexivity. }
  destruct K as [-> ->]. repeat split.
Qed.

(** ** Where Get and the type tests look *)
Lemma core_both json path s ks : core json true path = Ok (ks, s, O) ->
  core json false path = value_end json ks s.
Proof.
  unfold core. destruct (length json <? 2)%nat; [discriminate|]. destruct path as [|p0 path]; [discriminate|].
  destruct (skip_space json 0) as [o| |]; cbn [bind]; try discriminate. destruct (at_ json o) as [c| |]; cbn [bind]; try discriminate.
  destruct (outer _ _ _ _ _ _) as [st| |]; cbn [bind]; try discriminate. destruct (offset st =? 0)%nat; [discriminate|].
  destruct (skip_space _ _) as [off| |]; cbn [bind]; try discriminate. intros [= <- <-]. reflexivity.
Qed.
Lemma core_same_err json path : match core json false path with
  | Ok _ => exists ks s, core json true path = Ok (ks, s, O)
  | Err _ => True
  | Panic => True
  end.
Proof.
  unfold core. destruct (length json <? 2)%nat; [exact I|]. destruct path as [|p0 path]; [exact I|].
  destruct (skip_space json 0) as [o| |]; cbn [bind]; try exact I. destruct (at_ json o) as [c| |]; cbn [bind]; try exact I.
  destruct (outer _ _ _ _ _ _) as [st| |]; cbn [bind]; try exact I. destruct (offset st =? 0)%nat; [exact I|].
  destruct (skip_space _ _) as [off| |]; cbn [bind]; try exact I. destruct (value_end _ _ _) as [x| |]; [|exact I|exact I].
  eexists _, _. reflexivity.
Qed.

(** What Get returns stands where the type tests look, behind the quote if there is one. *)
Lemma get_at json path v : path <> [] -> Get json path = Ok v ->
  exists s c, start_of json path = Ok s /\ at_ json s = Ok c /\ json <> [] /\
    (c = 34 \/ (c <> 34 /\ exists r, v = c :: r)).
Proof.
  intros NP. destruct path as [|p0 path]; [contradiction|]. unfold Get, start_of. intro H.
  pose proof (core_same_err json (p0 :: path)) as CS. destruct (core json false (p0 :: path)) as [[[ks s] e]| |] eqn:E; cbn [bind] in H; try discriminate.
  destruct CS as (ks1 & s1 & CS). rewrite CS. cbn [bind]. rewrite (core_both _ _ _ _ CS) in E. unfold value_end in E.
  exists s1. destruct (at_ json s1) as [c| |] eqn:Ec; cbn [bind] in E; try discriminate. exists c.
  split; [reflexivity|]. split; [reflexivity|]. split; [intros ->; unfold at_ in Ec; destruct s1; discriminate Ec|].
  destruct (N.eq_dec c 34) as [->|N34]; [left; reflexivity|]. right. split; [exact N34|].
  assert (K : s = s1 /\ (s1 < e)%nat).
  { destruct (is_open c) eqn:Eo.
    - destruct (close_loop json (skipn s1 json) s1 0 false) as [e1|] eqn:Ecl; [|discriminate E]. injection E as _ <- <-. split; [reflexivity|].
      destruct (skipn s1 json) as [|d r] eqn:Es; [discriminate Ecl|].
      assert (G : forall rest i lv q x, close_loop json rest i lv q = Some x -> (i < x)%nat).
      { clear. induction rest as [|d r IH]; intros i lv q x H; cbn [close_loop] in H; [discriminate|].
        destruct (d =? 34); [apply IH in H; lia|]. destruct q; [apply IH in H; lia|]. destruct (is_open d); [apply IH in H; lia|].
        destruct (is_close d); [|apply IH in H; lia]. destruct (lv =? 1)%nat; [injection H as <-; lia|apply IH in H; lia]. }
      exact (G _ _ _ _ _ Ecl).
    - destruct (c =? 34) eqn:E34; [apply N.eqb_eq in E34; contradiction|].
      destruct (token_loop (skipn s1 json) s1) as [e1|] eqn:Et; [|discriminate E]. destruct (e1 =? s1)%nat eqn:Ee; [discriminate E|].
      injection E as _ <- <-. split; [reflexivity|]. apply Nat.eqb_neq in Ee.
      assert (G : forall rest i x, token_loop rest i = Some x -> (i <= x)%nat).
      { clear. induction rest as [|d r IH]; intros i x H; cbn [token_loop] in H; [discriminate|].
        destruct (space d || (d =? 44) || (d =? 93) || (d =? 125)); [injection H as <-; lia|apply IH in H; lia]. }
      apply G in Et. lia. }
  destruct K as [-> Lt]. unfold slice in H. destruct ((s1 <=? e)%nat && (e <=? length json)%nat)%bool; [|discriminate H]. injection H as <-.
  unfold at_ in Ec. destruct (nth_error json s1) as [x|] eqn:En; [|discriminate Ec]. injection Ec as ->.
  apply nth_error_split in En. destruct En as (l1 & l2 & -> & <-).
  rewrite skipn_app, skipn_all2, Nat.sub_diag by lia. cbn [skipn app]. destruct (e - length l1)%nat as [|n] eqn:En; [lia|]. cbn [firstn]. eexists. reflexivity.
Qed.

Lemma skip_first c r : space c = false -> skip_space (c :: r) 0 = Ok O.
Proof. intro H. cbn [skip_space]. rewrite H. reflexivity. Qed.

(** A value GetBool accepts is a boolean, or a string of that text. *)
Theorem bool_type pf json path x : GetBool json path = Ok x ->
  GetType pf json path = Ok TBoolean \/ (GetType pf json path = Ok TString /\ path <> []).
Proof.
  unfold GetBool, GetString. intro H. destruct (Get json path) as [v| |] eqn:G; cbn [bind] in H; try discriminate.
  assert (V : v = b "true" \/ v = b "false").
  { destruct (bytes_eqb v (b "true")) eqn:E1; [left; apply bytes_eqb_eq; exact E1|].
    destruct (bytes_eqb v (b "false")) eqn:E2; [right; apply bytes_eqb_eq; exact E2|discriminate H]. }
  rewrite parsed_as. destruct path as [|p0 path].
  - cbn [Get] in G. injection G as ->. left. destruct V as [-> | ->]; reflexivity.
  - destruct (get_at json (p0 :: path) v ltac:(discriminate) G) as (s & c & -> & Ec & NJ & C). destruct json; [contradiction|]. cbn [bind].
    rewrite Ec. cbn [bind]. destruct C as [->|(N34 & r & ->)]; [right; split; [reflexivity|discriminate]|].
    left. unfold GetString. rewrite G. cbn [bind]. apply N.eqb_neq in N34. rewrite N34.
    destruct V as [V|V]; injection V as -> ->; reflexivity.
Qed.

Lemma atoi_head c r z : atoi (c :: r) = Some z -> space c = false /\ c <> 91 /\ c <> 123 /\ c <> 34.
Proof.
  intro H.
  assert (K : c = 43 \/ c = 45 \/ exists u, uint_of_bytes (c :: r) = Some u).
  { unfold atoi, parse_int in H. destruct (parse_signed (c :: r)) as [x|] eqn:E; [|discriminate]. clear H.
    destruct (N.eq_dec c 43) as [->|N1]; [auto|]. destruct (N.eq_dec c 45) as [->|N2]; [auto|]. right. right.
    assert (P : parse_signed (c :: r) = option_map Z.of_N (parse_digits (c :: r))).
    { destruct c as [|p]; [reflexivity|]. do 6 (try (destruct p as [p|p|])); first [reflexivity|congruence]. }
    rewrite P in E. unfold parse_digits in E. destruct (uint_of_bytes (c :: r)) as [u|]; [eauto|discriminate]. }
  destruct K as [->|[->|[u K]]]; [repeat split; try discriminate|repeat split; try discriminate|].
  cbn [uint_of_bytes] in K. destruct (uint_of_bytes r); [|discriminate].
  split; [unfold space; destruct (N.eqb_spec c 32) as [->|_]; [discriminate K|]; destruct (N.eqb_spec c 9) as [->|_]; [discriminate K|];
          destruct (N.eqb_spec c 10) as [->|_]; [discriminate K|]; destruct (N.eqb_spec c 13) as [->|_]; [discriminate K|reflexivity]|].
  repeat split; intros ->; discriminate K.
Qed.

Lemma word_eqb v w : v <> w -> bytes_eqb v w = false.
Proof. apply bytes_eqb_neq. Qed.

Lemma number_type pf json path v : Get json path = Ok v -> (exists c r, v = c :: r /\ space c = false /\ c <> 91 /\ c <> 123 /\ c <> 34) ->
  v <> b "true" -> v <> b "false" -> v <> b "null" -> (parse_int 64 v <> None \/ pf v = true) ->
  GetType pf json path = Ok TNumber \/ (GetType pf json path = Ok TString /\ path <> []).
Proof.
  intros G (c & r & Ev & B1 & B2 & B3 & B4) W1 W2 W3 A. apply word_eqb in W1, W2, W3. apply N.eqb_neq in B2, B3, B4. rewrite parsed_as.
  assert (A2 : match parse_int 64 v with Some _ => Ok TNumber | None => if pf v then Ok TNumber else Ok TString end = Ok TNumber).
  { destruct (parse_int 64 v); [reflexivity|]. destruct A as [A|A]; [contradiction|]. rewrite A. reflexivity. }
  destruct path as [|p0 path].
  - left. cbn [Get] in G. injection G as ->. subst v. unfold start_of. rewrite skip_first by exact B1. cbn [bind at_ nth_error].
    unfold at_. cbn [nth_error bind]. rewrite B2, B3, B4. unfold GetString. cbn [Get bind]. rewrite W1, W2, W3. cbn [orb]. exact A2.
  - destruct (get_at json (p0 :: path) v ltac:(discriminate) G) as (s & c' & -> & Ec & NJ & C). destruct json; [contradiction|]. cbn [bind].
    rewrite Ec. cbn [bind]. destruct C as [->|(N34 & r' & Ev')]; [right; split; [reflexivity|discriminate]|].
    rewrite Ev in Ev'. injection Ev' as <- _. left. rewrite B2, B3, B4. unfold GetString. rewrite G. cbn [bind]. rewrite W1, W2, W3. exact A2.
Qed.

(** A value GetInt accepts is a number, or a string of that text. *)
Theorem int_type pf json path z : GetInt json path = Ok z ->
  GetType pf json path = Ok TNumber \/ (GetType pf json path = Ok TString /\ path <> []).
Proof.
  unfold GetInt, GetString. intro H. destruct (Get json path) as [v| |] eqn:G; cbn [bind] in H; try discriminate.
  destruct (atoi v) as [z'|] eqn:A; [|discriminate H]. apply (number_type pf json path v G); try (intros ->; discriminate A).
  - destruct v as [|c r]; [discriminate A|]. apply atoi_head in A. exists c, r. tauto.
  - left. unfold atoi in A. congruence.
Qed.

(** And so for GetFloat. *)
Theorem float_type json path x : GetFloat ParseFloat json path = Ok x ->
  GetType float_ok json path = Ok TNumber \/ (GetType float_ok json path = Ok TString /\ path <> []).
Proof.
  unfold GetFloat, GetString. intro H. destruct (Get json path) as [v| |] eqn:G; cbn [bind] in H; try discriminate.
  destruct (ParseFloat v) as [z'|] eqn:A; [|discriminate H].
  assert (F : float_ok v = true) by (unfold float_ok; rewrite A; reflexivity).
  apply (number_type float_ok json path v G); try (intros ->; discriminate A); [|right; exact F].
  apply ParseFloat_token in F. destruct v as [|c r]; [discriminate|]. cbn [scalar_ok forallb] in F. apply andb_true_iff in F as [F _].
  exists c, r. split; [reflexivity|]. unfold is_token_char in F. change (is_ws c) with (space c) in F.
  split; [destruct (space c); [discriminate F|reflexivity]|]. split; [|split]; intros ->; discriminate F.
Qed.

(** ** Length and IsEmpty *)
Lemma firstn_blank : forall l m n, (m <= n)%nat -> forallb space (firstn n l) = true -> forallb space (firstn m l) = true.
Proof.
  induction l as [|c l IH]; intros m n H E; destruct m; [reflexivity|reflexivity|reflexivity|]. destruct n; [lia|]. cbn [firstn forallb] in *.
  apply andb_true_iff in E. destruct E as [-> E]. apply (IH m n); [lia|exact E].
Qed.

Theorem length_zero_empty json path : Length json path = Ok O -> IsEmpty json path <> Ok false.
Proof.
  intros H F. unfold Length in H. unfold IsEmpty in F. destruct json as [|c0 json0]; [discriminate F|]. set (json := c0 :: json0) in *.
  assert (K : exists s e, match path with
         | [] => do s <- skip_space json 0; Ok (s, last_nonspace json)
         | _ => do '(_, s, e) <- core json false path; Ok (s, pred e)
         end = Ok (s, e) /\ forallb space (firstn (pred e - S s) (skipn (S s) json)) = false).
  { destruct (match path with [] => _ | _ => _ end) as [[s e]| |] eqn:E; cbn [bind] in F; try discriminate F. exists s, e. split; [reflexivity|].
    destruct (at_ json s) as [c| |]; cbn [bind] in F; try discriminate F. destruct (at_ json e) as [d| |]; cbn [bind] in F; try discriminate F.
    destruct (is_open c); [|discriminate F]. destruct (c + 2 =? d); [|discriminate F]. injection F as F. exact F. }
  clear F. destruct K as (s & e & E & F). destruct (bytes_eqb json (b "[]") || bytes_eqb json (b "{}"))%bool eqn:EB.
  - clear H. apply orb_true_iff in EB. rewrite !bytes_eqb_eq in EB. assert (L : length json = 2%nat) by (destruct EB as [-> | ->]; reflexivity).
    assert (Le : (e <= 1)%nat).
    { destruct path as [|p0 path].
      - destruct EB as [EB|EB]; rewrite EB in E; vm_compute in E; injection E as _ <-; lia.
      - destruct (core json false (p0 :: path)) as [[[ks s1] e1]| |] eqn:C; cbn [bind] in E; try discriminate E. injection E as -> <-.
        apply core_shape in C. destruct C as (_ & (A & r & C & HJ & HA & He & _) & _). rewrite HJ in L. rewrite !app_length in L. lia. }
    replace (pred e - S s)%nat with O in F by lia. discriminate F.
  - unfold getStartEnd in H. destruct (length json <? 2)%nat; [discriminate H|].
    destruct path as [|p0 path].
    + destruct (skip_space json 0) as [s1| |]; cbn [bind] in E, H; try discriminate E. injection E as -> <-.
      destruct (length_loop _ _ _ _ _); [|discriminate H]. rewrite F in H. discriminate H.
    + destruct (core json false (p0 :: path)) as [[[ks s1] e1]| |]; cbn [bind] in E, H; try discriminate E. injection E as -> <-.
      destruct (length_loop _ _ _ _ _); [|discriminate H]. destruct (forallb space (firstn (pred e1 - S s) (skipn (S s) json))) eqn:G; [|discriminate H].
      rewrite (firstn_blank _ _ (pred e1 - S s)) in F by (lia || exact G). discriminate F.
Qed.

(** ** Typed arrays are the string array, element by element *)
Section Typed.
  Context {A : Type} (g : bytes -> option A) (mid fin : bytes -> res A).
  Hypothesis mid_ok : forall v a, mid v = Ok a <-> exists t, cleanValueString v = Ok t /\ g t = Some a.
  Hypothesis fin_ok : forall v a, fin v = Ok a <-> exists t, cleanValueString v = Ok t /\ g t = Some a.

  Lemma split_reads arr : forall rest i start level inq l,
    split_loop mid fin arr rest i start level inq = Ok l <->
    exists ts, split_loop cleanValueString cleanValueString arr rest i start level inq = Ok ts /\ read_as g ts l.
  Proof.
    assert (NIL : forall l, (Ok [] = Ok l :> res (list A)) <-> exists ts, Ok [] = Ok ts :> res (list bytes) /\ read_as g ts l).
    { intro l. split; [intros [= <-]; exists []; split; [reflexivity|constructor]|]. intros (ts & [= <-] & R). inversion R. reflexivity. }
    assert (K : forall n rest, (length rest <= n)%nat -> forall i start level inq l,
      split_loop mid fin arr rest i start level inq = Ok l <->
      exists ts, split_loop cleanValueString cleanValueString arr rest i start level inq = Ok ts /\ read_as g ts l);
      [|intro rest; apply (K (length rest)); lia].
    induction n as [|n IH]; intros rest Hn i start level inq l; destruct rest as [|c r]; cbn [length] in Hn; try lia; cbn [split_loop]; try apply NIL.
    destruct (c =? 92); [destruct r as [|d r]; [apply NIL|apply IH; cbn [length] in Hn; lia]|].
    destruct (c =? 34); [apply IH; lia|]. destruct inq; [apply IH; lia|].
    set (lv := if is_open c then (level + 1)%Z else if is_close c then (level - 1)%Z else level).
    destruct ((c =? 93) && (lv =? 0)%Z)%bool.
    { destruct (slice arr start i) as [v|e|]; cbn [bind]; [|split; [discriminate|intros (ts & [=] & _)]|split; [discriminate|intros (ts & [=] & _)]].
      split.
      - destruct (fin v) as [a|e|] eqn:E; cbn [bind]; [|discriminate|discriminate]. intros [= <-]. apply fin_ok in E. destruct E as (t & -> & E). cbn [bind].
        exists [t]. split; [reflexivity|]. constructor; [exact E|constructor].
      - intros (ts & H & R). destruct (cleanValueString v) as [t|e|] eqn:E; cbn [bind] in H; try discriminate H. injection H as <-.
        inversion R as [|x a xs l' Ra Rl]; subst. inversion Rl; subst.
        assert (F : fin v = Ok a) by (apply fin_ok; exists t; auto). rewrite F. reflexivity. }
    destruct ((lv =? 1)%Z && (c =? 44))%bool; [|apply IH; lia].
    destruct (slice arr start i) as [v|e|]; cbn [bind]; [|split; [discriminate|intros (ts & [=] & _)]|split; [discriminate|intros (ts & [=] & _)]].
    specialize (IH r ltac:(lia) (S i) (S i) lv false). split.
    - destruct (mid v) as [a|e|] eqn:E; cbn [bind]; [|discriminate|discriminate]. apply mid_ok in E. destruct E as (t & -> & E). cbn [bind].
      destruct (split_loop mid fin arr r (S i) (S i) lv false) as [l'|e|]; cbn [bind]; [|discriminate|discriminate]. intros [= <-].
      destruct (proj1 (IH l') eq_refl) as (ts & -> & R). cbn [bind]. exists (t :: ts). split; [reflexivity|]. constructor; assumption.
    - intros (ts & H & R). destruct (cleanValueString v) as [t|e|] eqn:E; cbn [bind] in H; try discriminate H.
      destruct (split_loop cleanValueString cleanValueString arr r (S i) (S i) lv false) as [ts'|e|]; cbn [bind] in H; try discriminate H.
      injection H as <-. inversion R as [|x a xs l' Ra Rl]; subst.
      assert (F : mid v = Ok a) by (apply mid_ok; exists t; auto). rewrite F. cbn [bind].
      rewrite (proj2 (IH l')) by (exists ts'; auto). reflexivity.
  Qed.

  Lemma typed_array err json path l :
    (do val <- GetString json path;
     if (length val <? 2)%nat then Err (err val)
     else if bracketed val then split_loop mid fin val val 0 1 0 false
     else Err (err val)) = Ok l <->
    Get json path <> Ok (b "[]") /\ exists ts, GetStringArray json path = Ok ts /\ read_as g ts l.
  Proof.
    unfold GetStringArray, GetString. destruct (Get json path) as [val|e|]; cbn [bind];
      [|split; [discriminate|intros (_ & ts & [=] & _)]|split; [discriminate|intros (_ & ts & [=] & _)]].
    destruct (length val <? 2)%nat eqn:E2; [split; [discriminate|intros (_ & ts & [=] & _)]|].
    destruct (bracketed val) eqn:EB; [|split; [discriminate|intros (_ & ts & [=] & _)]]. unfold ParseArray. rewrite E2, EB. rewrite split_reads.
    destruct (length val =? 2)%nat eqn:E3.
    - assert (V : val = b "[]").
      { apply Nat.eqb_eq in E3. destruct val as [|x [|y [|z v]]]; cbn [length] in E3; try discriminate E3. unfold bracketed in EB. cbn [hd last] in EB.
        apply andb_true_iff in EB. destruct EB as [X Y]. apply N.eqb_eq in X, Y. subst. reflexivity. }
      subst val. split; [|intros [N _]; exfalso; apply N; reflexivity]. intros (ts & H & R). exfalso. vm_compute in H. discriminate H.
    - cbn [bind]. assert (NV : val <> b "[]") by (intros ->; discriminate E3).
      destruct (split_loop cleanValueString cleanValueString val val 0 1 0 false) as [ts|e|]; cbn [bind].
      + split; [intros H; split; [congruence|exact H]|intros [_ H]; exact H].
      + split; [intros (x & [=] & _)|intros (_ & x & [=] & _)].
      + split; [intros (x & [=] & _)|intros (_ & x & [=] & _)].
  Qed.
End Typed.

Theorem int_array_reads json path l : GetIntArray json path = Ok l <->
  Get json path <> Ok (b "[]") /\ exists ts, GetStringArray json path = Ok ts /\ read_as atoi ts l.
Proof.
  assert (K : forall v a, int_elem v = Ok a <-> exists t, cleanValueString v = Ok t /\ atoi t = Some a).
  { intros v a. unfold int_elem. destruct (cleanValueString v) as [t|e|]; cbn [bind]; [|split; [discriminate|intros (x & [=] & _)]|split; [discriminate|intros (x & [=] & _)]].
    destruct (atoi t) as [z|] eqn:E; split; [intros [= <-]; exists t; auto|intros (x & [= <-] & H); congruence|discriminate|intros (x & [= <-] & H); congruence]. }
  apply (typed_array atoi int_elem int_elem K K EIntegerArrayParse).
Qed.

Theorem float_array_reads F (pf : bytes -> option F) json path l : GetFloatArray pf json path = Ok l <->
  Get json path <> Ok (b "[]") /\ exists ts, GetStringArray json path = Ok ts /\ read_as pf ts l.
Proof.
  assert (K : forall v a, float_elem pf v = Ok a <-> exists t, cleanValueString v = Ok t /\ pf t = Some a).
  { intros v a. unfold float_elem. destruct (cleanValueString v) as [t|e|]; cbn [bind]; [|split; [discriminate|intros (x & [=] & _)]|split; [discriminate|intros (x & [=] & _)]].
    destruct (pf t) as [z|] eqn:E; split; [intros [= <-]; exists t; auto|intros (x & [= <-] & H); congruence|discriminate|intros (x & [= <-] & H); congruence]. }
  apply (typed_array pf (float_elem pf) (float_elem pf) K K EFloatArrayParse).
Qed.

Theorem bool_array_reads json path l : GetBoolArray json path = Ok l <->
  Get json path <> Ok (b "[]") /\ exists ts, GetStringArray json path = Ok ts /\ read_as bool_word ts l.
Proof.
  assert (K : forall v a, bool_mid v = Ok a <-> exists t, cleanValueString v = Ok t /\ bool_word t = Some a).
  { intros v a. unfold bool_mid, bool_word. destruct (cleanValueString v) as [t|e|]; cbn [bind]; [|split; [discriminate|intros (x & [=] & _)]|split; [discriminate|intros (x & [=] & _)]].
    split.
    - intro H. exists t. split; [reflexivity|]. destruct (bytes_eqb t (b "true")); [congruence|]. destruct (bytes_eqb t (b "false")); congruence.
    - intros (x & [= <-] & H). destruct (bytes_eqb t (b "true")); [congruence|]. destruct (bytes_eqb t (b "false")); congruence. }
  assert (K2 : forall v a, bool_fin v = Ok a <-> exists t, cleanValueString v = Ok t /\ bool_word t = Some a).
  { intros v a. unfold bool_fin, bool_word. destruct (cleanValueString v) as [t|e|]; cbn [bind]; [|split; [discriminate|intros (x & [=] & _)]|split; [discriminate|intros (x & [=] & _)]].
    split.
    - intro H. exists t. split; [reflexivity|]. destruct (bytes_eqb t (b "true")); [congruence|]. destruct (bytes_eqb t (b "false")); [congruence|].
      destruct (cleanValueString t); discriminate.
    - intros (x & [= <-] & H). destruct (bytes_eqb t (b "true")); [congruence|]. destruct (bytes_eqb t (b "false")); congruence. }
  apply (typed_array bool_word bool_mid bool_fin K K2 EBoolArrayParse).
Qed.
