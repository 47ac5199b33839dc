(** The methods of Parser called in turn, the histories of calls that the theorems about it speak of, and what its answers have to
    be on a document. *)
From Coq Require Import String.
From Verif Require Import GoStd Json Spec Focus Domains Errors Core Api Ops Iter SpecParser Parser.

Local Open Scope N_scope.

(** The method for an operation (there is no Parser.Store). *)
Definition p_call (o : op) (p : parser) : pres :=
  match o with
  | OSet q v => P_Set p (render v) q
  | ODelete q x => P_Delete p (q ++ [x])
  | OAdd q v => P_Add p (render v) q
  | OAddKV q k v => P_AddKeyValue p k (render v) q
  | OInsert q z v => P_Insert p z (render v) q
  | OSetKey q x k => P_SetKey p k (q ++ [x])
  | OStore _ _ _ => PRet p (Some ENullPath)
  end.

(** The label is not used by a child of the value. *)
Definition label_free (u : jv) (k : bytes) : Prop :=
  match u with
  | JObj _ ms => nokey k ms
  | JArr _ els => forall i, (i < length els)%nat -> itoa (Z.of_nat i) <> k
  | _ => True
  end.

(** At the root Add and AddKeyValue look for the brackets at the ends of the text and always put a comma. *)
Definition root_ready (d : doc) : Prop := d_pre d = [] /\ d_post d = [] /\ hollow (d_val d) = false.

(** Operations after which the tree follows the document. *)
Definition p_legal (d : doc) (o : op) : Prop :=
  match o with
  | OSet q v => leaf v = true /\ straight (d_val d) q = true /\
      exists old, lookup (d_val d) q = Some old /\ hollow old = true
  | ODelete q x => straight (d_val d) (q ++ [x]) = true /\
      ((exists w l1 m l2, lookup (d_val d) q = Some (JObj w (l1 ++ m :: l2)) /\ m_key m = x /\ nokey x l1 /\ nokey x l2) \/
       (exists w l1 e, lookup (d_val d) q = Some (JArr w (l1 ++ [e])) /\ atoi x = Some (Z.of_nat (length l1))))
  | OAdd q v => leaf v = true /\ straight (d_val d) q = true /\ (q = [] -> root_ready d) /\
      exists w els, lookup (d_val d) q = Some (JArr w els) /\ lonely (JArr w els) = false
  | OAddKV q k v => leaf v = true /\ straight (d_val d) q = true /\ k <> [] /\ (q = [] -> root_ready d) /\
      (forall q0 x u, q = q0 ++ [x] -> lookup (d_val d) q0 = Some u -> label_free u k)
  | OSetKey q x k => straight (d_val d) (q ++ [x]) = true /\
      exists w l1 m l2, lookup (d_val d) q = Some (JObj w (l1 ++ m :: l2)) /\ m_key m = x /\ nokey x l1 /\ nokey x l2
  | OInsert _ _ _ | OStore _ _ _ => False
  end.

(** Insert: not at the root of a text with blanks around it, and not into an array of one scalar or string. *)
Definition p_insertable (d : doc) (q : list bytes) (v : jv) : Prop :=
  leaf v = true /\ straight (d_val d) q = true /\ (q = [] -> d_pre d = [] /\ d_post d = []) /\
  forall w els, lookup (d_val d) q = Some (JArr w els) -> lonely (JArr w els) = false.

(** Calls in turn, all of them successful. *)
Fixpoint p_run (ops : list op) (p : parser) : option parser :=
  match ops with
  | [] => Some p
  | o :: ops => match p_call o p with PRet p' None => p_run ops p' | _ => None end
  end.

(** Every operation, when it is called, applies and is in the domain of the theorems; at most one of them is an Insert
    ([true]: none so far). *)
Inductive p_lawful : bool -> doc -> list op -> jd -> Prop :=
| PL_nil i d : p_lawful i d [] (content (d_val d))
| PL_do i d o ops c1 c2 : legal d o -> p_legal d o -> meaning o (content (d_val d)) = Some c1 ->
    (forall d', wf_doc d' = true -> call o (text d) = Done (text d') -> content (d_val d') = c1 -> p_lawful i d' ops c2) ->
    p_lawful i d (o :: ops) c2
| PL_insert d q z v ops c1 c2 : legal d (OInsert q z v) -> p_insertable d q v ->
    meaning (OInsert q z v) (content (d_val d)) = Some c1 ->
    (forall d', wf_doc d' = true -> call (OInsert q z v) (text d) = Done (text d') -> content (d_val d') = c1 -> p_lawful false d' ops c2) ->
    p_lawful true d (OInsert q z v :: ops) c2.

(** The parser holds the text of [d], and Get answers as the document says: with the value where a path resolves (for
    [straight] paths), and never with anything else. *)
Definition answers (p : parser) (d : doc) : Prop :=
  p_json p = text d /\
  (forall q v, lookup (d_val d) q = Some v -> q <> [] -> straight (d_val d) q = true -> P_Get p q = Ok (bare v) /\ Get (text d) q = Ok (bare v)) /\
  (forall q t, fits (text d) -> P_Get p q = Ok t -> lookup (d_val d) q <> None /\ Get (text d) q = Ok t) /\
  (forall q, fits (text d) -> (exists t, P_Get p q = Ok t) \/
     exists q0 x r, q = q0 ++ x :: r /\ P_Get p q = Err (EKeyNotFound x) /\ lookup (d_val d) q0 <> None /\
       (straight (d_val d) q = true -> lookup (d_val d) (q0 ++ [x]) = None)).

(** ** The text a parser holds *)

(** The text after a call of the package's function that answered [r], when its error is ignored. *)
Definition kept (t : bytes) (r : upd) : option bytes := match r with Done out => Some out | Fail _ _ => Some t | UPanic => None end.

(** When Parser.Add and Parser.AddKeyValue write no comma. *)
Definition two_open (t : bytes) : bool := (2 <=? length t)%nat && opens t.
Definition kv_open (k v : bytes) : bool := (2 <=? length k)%nat && opens v.

(** The calls that write the text of the parser themselves, and those that ignore an error. *)
Definition at_root (o : op) : bool := match o with OAdd [] _ | OAddKV [] _ _ => true | _ => false end.
Definition silent (o : op) : bool := match o with OSet _ _ | OSetKey _ _ _ => true | _ => false end.

(** Calls in turn whatever they return; None when one panics. *)
Fixpoint p_run_on (ops : list op) (p : parser) : option parser :=
  match ops with
  | [] => Some p
  | o :: ops => match p_call o p with PRet p' _ => p_run_on ops p' | PPanic => None end
  end.

(** [l'] is [l] with some of its members left out. *)
Inductive some_of {A} : list A -> list A -> Prop :=
| So_nil : some_of [] []
| So_keep a l' l : some_of l' l -> some_of (a :: l') (a :: l)
| So_skip a l' l : some_of l' l -> some_of l' (a :: l).

(** At the root nothing is put into an empty container, but for a container put into one written with nothing
    between its brackets. *)
Definition root_open (d : doc) (o : op) : Prop :=
  match o with
  | OAdd [] v => hollow (d_val d) = false \/ (d_val d = JArr [] [] /\ leaf v = false)
  | OAddKV [] k v => hollow (d_val d) = false \/ (d_val d = JObj [] [] /\ leaf v = false /\ (2 <= length k)%nat)
  | _ => True
  end.

(** Every operation, when it is called, applies and keeps to [root_open]. *)
Inductive t_lawful : doc -> list op -> jd -> Prop :=
| TL_nil d : t_lawful d [] (content (d_val d))
| TL_do d o ops c1 c2 : legal d o -> root_open d o -> meaning o (content (d_val d)) = Some c1 ->
    (forall d', wf_doc d' = true -> call o (text d) = Done (text d') -> content (d_val d') = c1 -> t_lawful d' ops c2) ->
    t_lawful d (o :: ops) c2.
