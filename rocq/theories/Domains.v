(** Conditions on documents under which the properties that are false in general hold.  They speak about
    trees and texts only, not about the model of the code. *)
From Coq Require Import String.
From Verif Require Import GoStd Json Spec Focus.

Local Open Scope N_scope.

Definition opening (c : N) : bool := (c =? 91) || (c =? 123).
Definition closing (c : N) : bool := (c =? 93) || (c =? 125).

(** [s] occurs in [t]. *)
Definition occurs (s t : bytes) : Prop := exists a c, t = a ++ s ++ c.
Definition quoted (x : bytes) : bytes := 34 :: x ++ [34].

(** At most one item. *)
Definition thin (v : jv) : bool :=
  match v with
  | JArr _ (_ :: _ :: _) | JObj _ (_ :: _ :: _) => false
  | _ => true
  end.

(** No bracket inside any string or key. *)
Definition no_brace (s : bytes) : bool := forallb (fun c => negb (opening c) && negb (closing c)) s.
Fixpoint calm (v : jv) : bool :=
  match v with
  | JScalar _ => true
  | JString s => no_brace s
  | JArr _ els => forallb (fun e => match e with Elem _ v _ => calm v end) els
  | JObj _ ms => forallb (fun m => match m with Mem _ k _ _ v _ => no_brace k && calm v end) ms
  end.
Definition tame (v : jv) : bool := match v with JScalar _ | JString _ => true | _ => calm v end.

(** No opening bracket at all. *)
Definition no_open (s : bytes) : bool := forallb (fun c => negb (opening c)) s.

(** ** Searching a key that is not there

    Past the end of the object the scanner goes on in the items that follow it in its parent, and takes the members of objects among
    them for members of the object.  It is either in a jump, looking for the comma that ends the value of a member, or searching.  This is what
    it finds there: nothing, the value of a member of some other object, or, if there are brackets inside strings where it does not
    recognise strings, something not described here. *)
Inductive outcome : Type := Nowhere | Stray (v : jv) | Unclear.

Definition filled_obj {A} (ms : list A) : bool := match ms with [] => false | _ => true end.

(** An item is a value with its key, [[]] in an array.  In a jump the first item of a container is passed over unseen. *)
Fixpoint stray (jump : bool) (x : bytes) (l : list (bytes * jv)) : outcome :=
  match l with
  | [] => Nowhere
  | (k, v) :: r =>
      if negb jump && negb (no_brace k) then Unclear else
      match v with
      | JScalar _ => stray jump x r
      | JString s => if jump || no_brace s then stray jump x r else Unclear
      | JArr _ els =>
          if forallb (fun e => tame (e_val e)) (if jump then tl els else els) then stray (jump && thin v) x r else Unclear
      | JObj _ ms =>
          match find_mem x (if jump then tl ms else ms) with
          | Some m => Stray (m_val m)
          | None => stray (jump || filled_obj ms) x r
          end
      end
  end.

(** The items following the one at [q] in its parent. *)
Fixpoint after_key {V} (x : bytes) (ms : list (mem V)) : list (mem V) :=
  match ms with
  | [] => []
  | m :: r => if bytes_eqb (m_key m) x then r else after_key x r
  end.
Definition followers (t : jv) (q : list bytes) (x : bytes) : list (bytes * jv) :=
  match lookup t q with
  | Some (JArr _ els) =>
      match atoi x with
      | Some z => map (fun e => ([], e_val e)) (skipn (S (Z.to_nat z)) els)
      | None => []
      end
  | Some (JObj _ ms) => map (fun m => (m_key m, m_val m)) (after_key x ms)
  | _ => []
  end.

Definition last_tame (ms : list (mem jv)) : bool :=
  match rev ms with [] => true | m :: _ => tame (m_val m) end.

(** What the scanner finds for the key [x], which is not in the object at [q].  After the root there are no items, but the jump runs
    into the end of the text and the search resumes in the value of the last member. *)
Definition stray_at (t : jv) (q : list bytes) (x : bytes) : outcome :=
  match lookup t q with
  | Some (JObj _ ms) =>
      match rev q with
      | [] => if last_tame ms then Nowhere else Unclear
      | y :: r => stray (filled_obj ms) x (followers t (rev r) y)
      end
  | _ => Unclear
  end.

(** [x] is not a key of the object at [q], and the text is such that the scanner sees this: it finds the key nowhere in the items
    that follow, or the bytes ["x"] occur nowhere in the document. *)
Definition seen_absent (d : doc) (q : list bytes) (x : bytes) : Prop :=
  exists w ms, lookup (d_val d) q = Some (JObj w ms) /\ find_mem x ms = None /\
  ( stray_at (d_val d) q x = Nowhere
    \/ (x <> [] /\ ~ occurs (quoted x) (text d) /\ (forall t, text d <> x ++ 34 :: t)) ).

(** A step that is no index of the array. *)
Definition bad_step (els : list (elem jv)) (x : bytes) : bool :=
  match atoi x with
  | None => true
  | Some z => match nth_z els z with Some _ => false | None => true end
  end.

(** ** Searching below a value that is not a container

    The scanner takes the next opening bracket in the text for the start of the value.  This is the first container among
    the items, if no string or key before it contains a bracket ([None]: there is one). *)
Fixpoint next_container (l : list (bytes * jv)) : option (option jv) :=
  match l with
  | [] => Some None
  | (k, v) :: r =>
      if no_brace k then
        match v with
        | JScalar _ => next_container r
        | JString s => if no_brace s then next_container r else None
        | _ => Some (Some v)
        end
      else None
  end.

(** The rest of the path in the container found. *)
Definition into (c : jv) (p : list bytes) : outcome :=
  match lookup c p with
  | Some v => Stray v
  | None => match c, p with
            | JArr _ els, y :: _ => if bad_step els y then Nowhere else Unclear
            | _, _ => Unclear
            end
  end.

(** What the scanner finds for the path [p] below the value of the member [x] of the object at [q], which is not a container: it goes
    on into the members that follow, then into the items that follow the object.  In an object among the latter it is
    one level too high. *)
Definition below_at (t : jv) (q : list bytes) (x : bytes) (p : list bytes) : outcome :=
  match lookup t (q ++ [x]) with
  | Some v =>
      match next_container (([], v) :: followers t q x) with
      | None => Unclear
      | Some (Some c) => into c p
      | Some None =>
          match rev q with
          | [] => Nowhere
          | i :: r =>
              match next_container (followers t (rev r) i) with
              | None => Unclear
              | Some None => Nowhere
              | Some (Some (JObj _ ms)) =>
                  match p with
                  | [] => Unclear
                  | y :: rest =>
                      match stray false y (map (fun m => (m_key m, m_val m)) ms), rest with
                      | Stray _, _ :: _ => Unclear
                      | o, _ => o
                      end
                  end
              | Some (Some c) => into c p
              end
          end
      end
  | None => Unclear
  end.

(** A path that goes on below a non-container, in a text where the scanner sees this: below an array
    element always; below an object member if no bracket opens after the member's colon, or if the search goes on in vain. *)
Definition seen_below (d : doc) (p : list bytes) : Prop :=
  (exists q x y rest w l1 e l2 pre post, p = q ++ x :: y :: rest /\
     focus (d_val d) q pre (JArr w (l1 ++ e :: l2)) post /\
     atoi x = Some (Z.of_nat (length l1)) /\ container (e_val e) = false)
  \/ (exists q y rest w l1 m l2 pre post, p = q ++ m_key m :: y :: rest /\
     focus (d_val d) q pre (JObj w (l1 ++ m :: l2)) post /\ nokey (m_key m) l1 /\
     no_open (render (m_val m) ++ obj_post m l2 ++ post ++ d_post d) = true)
  \/ (exists q x y rest w ms v, p = q ++ x :: y :: rest /\ lookup (d_val d) q = Some (JObj w ms) /\
     lookup (d_val d) (q ++ [x]) = Some v /\ container v = false /\ below_at (d_val d) q x (y :: rest) = Nowhere).

(** A string whose text begins and ends with brackets. *)
Definition is_arr (v : jv) : bool := match v with JArr _ _ => true | _ => false end.
Definition is_obj (v : jv) : bool := match v with JObj _ _ => true | _ => false end.
Definition looks (o c : N) (v : jv) : bool :=
  match v with
  | JScalar _ => false
  | JString s => match s with
                 | [] => false
                 | x :: _ => (x =? o) && (last s 0 =? c)
                 end
  | JArr _ _ => (o =? 91) && (c =? 93)
  | JObj _ _ => (o =? 123) && (c =? 125)
  end.

(** Insert works if the element at the index is not the last one, or is the only one, or directly follows
    the bracket or comma before it. *)
Definition insert_layout (els : list (elem jv)) (z : Z) : Prop :=
  (z + 1 < Z.of_nat (length els))%Z \/ length els = 1%nat \/ exists e, nth_z els z = Some e /\ e_pre e = [].

(** The path does not resolve, and the text is such that the scanner sees this. *)
Definition seen_unresolved (d : doc) (p : list bytes) : Prop :=
  (exists q x rest w els, p = q ++ x :: rest /\ lookup (d_val d) q = Some (JArr w els) /\ bad_step els x = true)
  \/ (exists q x rest, p = q ++ x :: rest /\ seen_absent d q x)
  \/ seen_below d p.

(** ** Computing the decomposition around a path (for examples) *)
Fixpoint split_key (x : bytes) (ms : list (mem jv)) : option (list (mem jv) * mem jv * list (mem jv)) :=
  match ms with
  | [] => None
  | m :: r => if bytes_eqb (m_key m) x then Some ([], m, r)
              else match split_key x r with Some (l1, m', l2) => Some (m :: l1, m', l2) | None => None end
  end.

Fixpoint focus_at (t : jv) (p : list bytes) : option (bytes * jv * bytes) :=
  match p with
  | [] => Some ([], t, [])
  | x :: p' =>
      match t with
      | JArr w els =>
          match atoi x with
          | Some z =>
              match nth_z els z with
              | Some e =>
                  match focus_at (e_val e) p' with
                  | Some (pre, v, post) =>
                      Some (arr_pre w (firstn (Z.to_nat z) els) e ++ pre, v,
                            post ++ arr_post e (skipn (S (Z.to_nat z)) els))
                  | None => None
                  end
              | None => None
              end
          | None => None
          end
      | JObj w ms =>
          match split_key x ms with
          | Some (l1, m, l2) =>
              match focus_at (m_val m) p' with
              | Some (pre, v, post) => Some (obj_pre w l1 m ++ pre, v, post ++ obj_post m l2)
              | None => None
              end
          | None => None
          end
      | _ => None
      end
  end.

Lemma split_key_sound x ms l1 m l2 : split_key x ms = Some (l1, m, l2) ->
  ms = l1 ++ m :: l2 /\ m_key m = x /\ nokey x l1.
Proof.
  revert l1. induction ms as [|a ms IH]; intros l1 H; cbn in H; [discriminate|].
  destruct (bytes_eqb_spec (m_key a) x) as [E|E].
  - injection H as <- <- <-. repeat split; [exact E|constructor].
  - destruct (split_key x ms) as [[[l1' m'] l2']|]; [|discriminate]. injection H as <- <- <-.
    destruct (IH _ eq_refl) as (-> & Hk & Hn). repeat split; [exact Hk|]. constructor; assumption.
Qed.

Lemma focus_at_sound t p pre v post : focus_at t p = Some (pre, v, post) -> focus t p pre v post.
Proof.
  revert t pre v post. induction p as [|x p IH]; intros t pre v post H; cbn [focus_at] in H.
  - injection H as <- <- <-. constructor.
  - destruct t as [s|s|w els|w ms]; try discriminate.
    + destruct (atoi x) as [z|] eqn:Ex; [|discriminate]. destruct (nth_z els z) as [e|] eqn:En; [|discriminate].
      destruct (focus_at (e_val e) p) as [[[pre' v'] post']|] eqn:Ef; [|discriminate].
      apply nth_z_split in En. destruct En as (l1 & l2 & -> & ->). rewrite Nat2Z.id in H.
      replace (firstn (length l1) (l1 ++ e :: l2)) with l1 in H.
      2:{ rewrite firstn_app, Nat.sub_diag, firstn_all. cbn [firstn]. rewrite app_nil_r. reflexivity. }
      replace (skipn (S (length l1)) (l1 ++ e :: l2)) with l2 in H.
      2:{ clear. induction l1; cbn; [reflexivity|exact IHl1]. }
      remember (arr_pre w l1 e) as A eqn:EA. remember (arr_post e l2) as B eqn:EB. injection H as <- <- <-. subst A B.
      constructor; [exact Ex|]. apply IH. exact Ef.
    + destruct (split_key x ms) as [[[l1 m] l2]|] eqn:Es; [|discriminate].
      destruct (focus_at (m_val m) p) as [[[pre' v'] post']|] eqn:Ef; [|discriminate]. remember (obj_pre w l1 m) as A eqn:EA. remember (obj_post m l2) as B eqn:EB. injection H as <- <- <-. subst A B.
      apply split_key_sound in Es. destruct Es as (-> & <- & Hn). constructor; [exact Hn|]. apply IH. exact Ef.
Qed.

Fixpoint prefix_b (s t : bytes) : bool :=
  match s, t with
  | [], _ => true
  | a :: s', c :: t' => (a =? c) && prefix_b s' t'
  | _, _ => false
  end.
Fixpoint occurs_b (s t : bytes) : bool :=
  prefix_b s t || match t with [] => false | _ :: t' => occurs_b s t' end.
Lemma prefix_b_app s t : prefix_b s (s ++ t) = true.
Proof. induction s; cbn; [reflexivity|]. rewrite N.eqb_refl. exact IHs. Qed.
Lemma occurs_b_complete s t : occurs_b s t = false -> ~ occurs s t.
Proof.
  intros H (a & c & ->). induction a as [|x a IH]; cbn [app] in H.
  - assert (E : prefix_b s (s ++ c) = true) by apply prefix_b_app. destruct (s ++ c) eqn:Es; cbn in H; rewrite E in H; discriminate.
  - cbn in H. apply orb_false_iff in H. destruct H as [_ H]. exact (IH H).
Qed.

(** [seen_absent] can be computed. *)
Definition seen_absent_b (d : doc) (q : list bytes) (x : bytes) : bool :=
  match lookup (d_val d) q with
  | Some (JObj w ms) =>
      match find_mem x ms with
      | None => match stray_at (d_val d) q x with Nowhere => true | _ => false end ||
                (negb (bytes_eqb x []) && negb (occurs_b (quoted x) (text d)) && negb (prefix_b (x ++ [34]) (text d)))
      | Some _ => false
      end
  | _ => false
  end.
Lemma seen_absent_b_sound d q x : seen_absent_b d q x = true -> seen_absent d q x.
Proof.
  unfold seen_absent_b. destruct (lookup (d_val d) q) as [[s|s|w els|w ms]|] eqn:E; try discriminate.
  destruct (find_mem x ms) eqn:Ef; [discriminate|]. intro H. exists w, ms. split; [exact E|]. split; [exact Ef|].
  apply orb_true_iff in H. destruct H as [H|H].
  - left. destruct (stray_at (d_val d) q x); [reflexivity|discriminate|discriminate].
  - apply andb_true_iff in H. destruct H as [H H3]. apply andb_true_iff in H. destruct H as [H1 H2].
    apply negb_true_iff in H1, H2, H3. right. split; [apply bytes_eqb_neq; exact H1|].
    split; [apply occurs_b_complete; exact H2|]. intros t Ht. rewrite Ht in H3.
    replace (x ++ 34 :: t) with ((x ++ [34]) ++ t) in H3 by (rewrite <- app_assoc; reflexivity).
    rewrite prefix_b_app in H3. discriminate.
Qed.

(** ** Results of updates: [d'] is [d] with the content changed to [c'], same blanks around it. *)
Definition matches (d d' : doc) (c' : jd) : Prop :=
  wf_doc d' = true /\ d_pre d' = d_pre d /\ d_post d' = d_post d /\ content (d_val d') = c'.

(** The value AddKeyValue stores: null for a nil slice. *)
Definition value_text (value : option jv) : jv := match value with None => JScalar (b "null") | Some v => v end.
