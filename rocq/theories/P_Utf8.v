(** Property C75: UTF-8 in, UTF-8 out. *)
From Coq Require Import String.
From Verif Require Import GoStd Core Errors Api Iter Typed Format Parser GoLang SpecUtf8 Utf8Proofs Utf8More Utf8Calls ParserTypedGo SpecUtf8Calls Make Walk Utf8Walk.
From Verif Require JO SpecPtr SpecScan AsWritten TypedGo ParserGo Pointers Utf8Parser.

Local Open Scope N_scope.

(** ** C75

    Any text in UTF-8 ([utf8], RFC 3629), JSON or not, and any path: paths need not be UTF-8.  Where a theorem speaks of an update, the new
    keys and values are UTF-8. *)

(** Updates, one call *)
Theorem C75_set : forall json new path out, utf8 json -> utf8 new -> Set_ json new path = Done out -> utf8 out.
Proof. exact set_utf8. Qed.
Print Assumptions C75_set.
Theorem C75_set_key : forall json newKey path out, utf8 json -> utf8 newKey -> SetKey json newKey path = Done out -> utf8 out.
Proof. exact setkey_utf8. Qed.
Print Assumptions C75_set_key.
Theorem C75_delete : forall json path out, utf8 json -> Delete json path = Done out -> utf8 out.
Proof. exact delete_utf8. Qed.
Print Assumptions C75_delete.
Theorem C75_add : forall json value path out, utf8 json -> utf8 value -> Add_ json value path = Done out -> utf8 out.
Proof. exact add_utf8. Qed.
Print Assumptions C75_add.
Theorem C75_add_key_value : forall json key value path out, utf8 json -> utf8 key -> (forall v, value = Some v -> utf8 v) ->
  AddKeyValue json key value path = Done out -> utf8 out.
Proof. exact addkv_utf8. Qed.
Print Assumptions C75_add_key_value.
Theorem C75_insert : forall json index value path out, utf8 json -> utf8 value -> Insert json index value path = Done out -> utf8 out.
Proof. exact insert_utf8. Qed.
Print Assumptions C75_insert.
Theorem C75_store : forall json key value path out, utf8 json -> utf8 key -> (forall v, value = Some v -> utf8 v) ->
  Store json key value path = Done out -> utf8 out.
Proof. exact store_utf8. Qed.
Print Assumptions C75_store.

(** Reading *)
Theorem C75_get : forall json path v, utf8 json -> Get json path = Ok v -> utf8 v.
Proof. exact get_utf8. Qed.
Print Assumptions C75_get.
Theorem C75_get_keys : forall json path l, utf8 json -> GetKeys json path = Ok l -> Forall utf8 l.
Proof. exact get_keys_utf8. Qed.
Print Assumptions C75_get_keys.
Theorem C75_get_values : forall json path l, utf8 json -> GetValues json path = Ok l -> Forall utf8 l.
Proof. exact get_values_utf8. Qed.
Print Assumptions C75_get_values.
Theorem C75_get_keys_values : forall json path ks vs, utf8 json -> GetKeysValues json path = Ok (ks, vs) -> Forall utf8 ks /\ Forall utf8 vs.
Proof. exact get_kvs_utf8. Qed.
Print Assumptions C75_get_keys_values.
Theorem C75_get_map : forall json path m, utf8 json -> GetMap json path = Ok (Some m) -> Forall (fun kv => utf8 (fst kv) /\ utf8 (snd kv)) m.
Proof. exact get_map_utf8. Qed.
Print Assumptions C75_get_map.
Theorem C75_get_all : forall json path, utf8 json -> forall keys l, GetAll json keys path = Ok l -> Forall utf8 l.
Proof. exact get_all_utf8. Qed.
Print Assumptions C75_get_all.
Theorem C75_get_string_array : forall json path l, utf8 json -> GetStringArray json path = Ok l -> Forall utf8 l.
Proof. exact string_array_utf8. Qed.
Print Assumptions C75_get_string_array.
Theorem C75_parse_array : forall arr l, utf8 arr -> ParseArray arr = Ok (Some l) -> Forall utf8 l.
Proof. exact parse_array_utf8. Qed.
Print Assumptions C75_parse_array.

(** Iterating: an invariant of the callback that needs its arguments to be UTF-8 holds at the end, however it ends. *)
Theorem C75_iterate_array : forall (St : Type) (P : St -> Prop) json cb path s, utf8 json ->
  (forall s v, P s -> utf8 v -> P (fst (cb s v))) -> P s ->
  match IterateArray json cb path s with IDone s' _ => P s' | IPanic => True end.
Proof. exact (@iterate_array_utf8). Qed.
Print Assumptions C75_iterate_array.
Theorem C75_iterate_key_value : forall (St : Type) (P : St -> Prop) json cb, utf8 json ->
  (forall s k v, P s -> utf8 k -> utf8 v -> P (fst (cb s k v))) -> forall path s, P s ->
  match IterateKeyValue json cb path s with IDone s' _ => P s' | IPanic => True end.
Proof. exact (@iterate_kv_utf8). Qed.
Print Assumptions C75_iterate_key_value.

(** Walk: names, values and paths handed to the callback *)
Theorem C75_walk : forall (St : Type) (P : St -> Prop) pf json cb s, utf8 json ->
  (forall s k v path, P s -> utf8 k -> utf8 v -> Forall utf8 path -> P (fst (cb s k v path))) -> P s ->
  match Walk pf json cb s with WDone s' _ => P s' | _ => True end.
Proof. exact (fun St P pf json cb s Hu Hcb => walk_utf8 P pf json cb Hu Hcb _ [] s (Forall_nil _)). Qed.
Print Assumptions C75_walk.

(** Make and Scheme *)
Theorem C75_make_arrays : forall pf l, Forall utf8 l ->
  utf8 (MakeArray pf (Some l)) /\ utf8 (MakeArrayString pf (Some l)) /\ utf8 (MakeArrayBytes (Some l)).
Proof. exact make_arrays_utf8. Qed.
Print Assumptions C75_make_arrays.
Theorem C75_make_json : forall pf ks vs out, Forall utf8 ks -> Forall utf8 vs ->
  MakeJson pf (Some ks) (Some vs) = Some out \/ MakeJsonString pf (Some ks) (Some vs) = Some out -> utf8 out.
Proof. exact make_json_utf8. Qed.
Print Assumptions C75_make_json.
Theorem C75_make_map : forall pf ps, Forall (fun kv => utf8 (fst kv) /\ utf8 (snd kv)) ps -> utf8 (MakeJsonWithMap pf (Some ps)).
Proof. exact make_map_utf8. Qed.
Print Assumptions C75_make_map.
Theorem C75_mutations : forall pf ks json, utf8 json -> Forall utf8 ks ->
  (forall out, MutateJsonAbs pf ks json = Ok out -> utf8 out) /\ (forall out, MutateJson pf ks json = Ok (Some out) -> utf8 out).
Proof. exact mutations_utf8. Qed.
Print Assumptions C75_mutations.

(** Layout *)
Theorem C75_flatten : forall json, utf8 json -> utf8 (Flatten json).
Proof. exact flatten_utf8. Qed.
Print Assumptions C75_flatten.
Theorem C75_indent : forall json out, utf8 json -> Indent json = Ok out -> utf8 out.
Proof. exact indent_utf8. Qed.
Print Assumptions C75_indent.

(** Histories: failed calls are part of them *)
Theorem C75_jo : forall pf cs body body' es, utf8 body -> Forall jcall_utf8 cs -> JO.jo_run pf body cs = Some (body', es) -> utf8 body'.
Proof. exact jo_utf8. Qed.
Print Assumptions C75_jo.
Theorem C75_parser : forall pf t cs p p' es, utf8 t -> Parse t = Ok p -> Forall tcall_utf8 cs -> t_calls pf cs p = Some (p', es) ->
  utf8 (p_json p') /\ forall path v, P_Get p' path = Ok v -> utf8 v.
Proof. exact Utf8Parser.parser_utf8. Qed.
Print Assumptions C75_parser.
Theorem C75_get_new : forall t p path v, utf8 t -> SpecScan.balanced (SpecScan.skeleton t) -> Parse t = Ok p -> P_GetNew p path = Ok v -> utf8 v.
Proof. exact Utf8Parser.get_new_utf8. Qed.
Print Assumptions C75_get_new.

(** As written in Go *)
Theorem C75_jo_written : forall pf cs body, utf8 body -> Forall jcall_utf8 cs ->
  (exists body' es, utf8 body' /\ AsWritten.eventually (fun fuel => TypedGo.calls_j fuel pf cs body = Ret (body', es))) \/
  AsWritten.eventually (fun fuel => TypedGo.calls_j fuel pf cs body = Pan).
Proof. exact Utf8Parser.jo_written_utf8. Qed.
Print Assumptions C75_jo_written.
Theorem C75_parser_written : forall pf t cs, utf8 t -> Forall tcall_utf8 cs -> (exists p, Parse t = Ok p) ->
  exists q, AsWritten.eventually (fun fuel => ParserGo.Parse_go (ParserGo.as_written fuel) t = Ret (Some q, None)) /\
    ((exists q' es, AsWritten.eventually (fun fuel => calls_t (ParserGo.as_written fuel) pf cs q = Ret (q', es)) /\ utf8 (Pointers.q_json q') /\
      forall path, (exists v e, utf8 v /\ AsWritten.eventually (fun fuel => ParserGo.Get_p (ParserGo.as_written fuel) q' path = Ret (v, e))) \/
                   AsWritten.eventually (fun fuel => ParserGo.Get_p (ParserGo.as_written fuel) q' path = Pan)) \/
     AsWritten.eventually (fun fuel => calls_t (ParserGo.as_written fuel) pf cs q = Pan)).
Proof. exact Utf8Parser.parser_written_utf8. Qed.
Print Assumptions C75_parser_written.

(** GetNew after an update is not among them: a node whose value was set to a text that is no container keeps its children (Parser.Set), and
    GetNew then writes the first byte of the value, commas, and that byte plus two.  Here the first byte of [é] is left alone. *)
Theorem C75_get_new_refuted :
  exists t v p p' e out, utf8 t /\ utf8 v /\ Parse t = Ok p /\ P_Set p v [b "a"] = PRet p' e /\ P_GetNew p' [b "a"] = Ok out /\ ~ utf8 out.
Proof.
  exists (b "{""a"":{""b"":1}}"), [195; 169]. do 4 eexists.
  split; [apply utf8_all_low; repeat constructor; lia|]. split; [exists [233]; split; [repeat constructor; unfold scalar_value; lia|reflexivity]|].
  split; [vm_compute; reflexivity|]. split; [vm_compute; reflexivity|]. split; [vm_compute; reflexivity|].
  intro H. apply utf8_follow in H; lia.
Qed.
Print Assumptions C75_get_new_refuted.

(** A name and a value beyond ASCII, and a text that is not JSON *)
Definition ex75 : bytes := flat_map encode [123; 34; 233; 34; 58; 91; 34; 252; 8364; 34; 44; 32; 119070; 93; 125].
Definition ex75' : bytes := flat_map encode [8364; 91; 233; 58; 123; 34; 252; 44; 119070].
Example C75_example :
  utf8 ex75 /\ utf8 ex75' /\ ~ utf8 [195] /\ ~ utf8 [233; 34] /\
  ex75 = b "{""" ++ [195; 169] ++ b """:[""" ++ [195; 188; 226; 130; 172] ++ b """, " ++ [240; 157; 132; 158] ++ b "]}" /\
  Get ex75 [[195; 169]; b "1"] = Ok (flat_map encode [119070]) /\ Get ex75 [[195; 169]; b "0"] = Ok (flat_map encode [252; 8364]) /\
  GetKeys ex75 [] = Ok [flat_map encode [233]] /\
  Insert ex75 0 (flat_map encode [233]) [[195; 169]] = Done (flat_map encode [123; 34; 233; 34; 58; 91; 233; 44; 34; 252; 8364; 34; 44; 32; 119070; 93; 125]) /\
  Delete ex75 [[195; 169]; b "1"] = Done (flat_map encode [123; 34; 233; 34; 58; 91; 34; 252; 8364; 34; 93; 125]) /\
  Forall jcall_utf8 [JO.CSetString (flat_map encode [8364]) [[195; 169]; b "0"]; JO.CAddKeyValueInt (flat_map encode [252]) 7 []; JO.CDelete [[195]]] /\
  Forall tcall_utf8 [TSetString (flat_map encode [8364]) [[195; 169]; b "0"]; TCall (SpecPtr.CDelete [[195]])].
Proof.
  assert (U : forall cs, forallb (fun c => (c <? 55296) || ((57344 <=? c) && (c <? 1114112)))%bool cs = true -> utf8 (flat_map encode cs)).
  { intros cs H. exists cs. split; [|reflexivity]. apply Forall_forall. intros c Hc. rewrite forallb_forall in H. specialize (H c Hc).
    apply orb_true_iff in H. destruct H as [H|H]; [left; apply N.ltb_lt, H|right; apply andb_true_iff in H; destruct H; split; [apply N.leb_le|apply N.ltb_lt]; assumption]. }
  split; [apply U; reflexivity|]. split; [apply U; reflexivity|]. split; [intro H; apply utf8_lone in H; lia|]. split; [intro H; apply utf8_follow in H; lia|].
  do 6 (split; [vm_compute; reflexivity|]). split; repeat constructor; cbn [jcall_utf8 tcall_utf8]; apply U; reflexivity.
Qed.
Example C75_more_example :
  Walk (fun _ => false) ex75 (fun l k v p => (l ++ [(k, v, p)], (true, None))) [] =
    WDone [(b "0", flat_map encode [252; 8364], [[195; 169]; b "0"]); (b "1", flat_map encode [119070], [[195; 169]; b "1"])] None /\
  MakeJsonString (fun _ => false) (Some [[195; 169]]) (Some [flat_map encode [8364]]) = Some (flat_map encode [123; 34; 233; 34; 58; 34; 8364; 34; 125]) /\
  MutateJsonAbs (fun _ => false) [[195; 169]] ex75 = Ok (flat_map encode [123; 34; 233; 34; 58; 91; 34; 252; 8364; 34; 44; 32; 119070; 93; 125]).
Proof. repeat split; vm_compute; reflexivity. Qed.
