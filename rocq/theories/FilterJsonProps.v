(** C08, C72, C73: filters as configuration text. *)
From Verif Require Import Base DataModel FilterModel Base58Model JsonModel JsonSpec JsonProofs FilterJsonModel FilterJsonSpec FilterJsonProofs.
From Coq Require String.
Import String.StringSyntax.
#[local] Delimit Scope string_scope with string.
#[local] Open Scope N_scope.

(** ** C08: filters survive JSON serialization *)
Theorem C08_round_trip f : filter_ok f -> filter_from_str (filter_to_string f) = Done (Some f).
Proof. apply round_trip. Qed.
Theorem C08_round_trip_list fs : Forall filter_ok fs -> filters_from_str (filters_to_string fs) = Done (Some fs).
Proof. apply round_trip_list. Qed.
(** Whatever the layout of the text, the order of the entries, the escapes and the entries besides: a text that describes a filter is read as it. *)
Theorem C08_reads_config v t f w w' : describes v f -> json_text v t -> (nesting v <= 127)%nat -> ws w -> ws w' -> filter_from_str (w ++ t ++ w') = Done (Some f).
Proof. apply reads_filter. Qed.
Theorem C08_reads_config_list vs t fs w w' : Forall2 describes vs fs -> json_text (JArr vs) t -> (nesting (JArr vs) <= 127)%nat -> ws w -> ws w' ->
  filters_from_str (w ++ t ++ w') = Done (Some fs).
Proof. apply reads_filters. Qed.
(** What is written is JSON, and describes the filter. *)
Theorem C08_writes_json f : filter_ok f -> exists v, describes v f /\ json_text v (filter_to_string f).
Proof. intros H. exists (filter_json f). split; [by apply written_describes|apply print_text; by apply written_writable]. Qed.

Definition ex_filter : afilter :=
  AFilter [5; 2 ^ 255] (Some 77) (Some [Datasize 165; MemcmpC (Memcmp 32 (MBytes [n2b 0; n2b 255])); MemcmpC (Memcmp 0 (MBase58 (txt "2g""\")))]).
Example C08_example_hyps : Forall filter_ok [ex_filter; AFilter [] None None] /\ length (filters_to_string [ex_filter; AFilter [] None None]) = 290%nat.
Proof.
  split; [|by vm_compute]. repeat constructor; try done; simpl; lia.
Qed.
(** A hand-written text: line breaks, another order, an escape, an entry the reader does not know. *)
Definition ex_text : bytes := txt "{ ""filters"" : null,
  ""comment"": [1, {}],
  ""programId"": ""11111111111111111111111111111111"" }".
Definition ex_json : json := JObj [(txt "filters", JNull); (txt "comment", JArr [JNat 1; JObj []]); (txt "programId", JStr (txt "11111111111111111111111111111111"))].
Example C08_example_config : describes ex_json (AFilter [] (Some 0) None) /\ (nesting ex_json <= 127)%nat /\ json_from_str ex_text = Some ex_json /\
  filter_from_str ex_text = Done (Some (AFilter [] (Some 0) None)).
Proof.
  split; [|split; [simpl; lia|by vm_compute]]. eexists. split; [done|]. split; [left; split; [done|]; by apply absent_spec|]. split; [|right; by apply has_spec].
  eexists. split; [by apply has_spec|]. split; [by vm_compute|done].
Qed.
Example C08_example_text : exists t, json_text ex_json t.
Proof. exists (print_json ex_json). apply print_text. repeat (constructor; try done); by apply (bool_decide_unpack _). Qed.

(** ** C72: malformed configuration is reported *)
(** False: a key that is none, a condition that is none end the program. *)
Theorem C72_refuted : exists t v, json_from_str t = Some v /\ ~ (exists f, describes v f) /\ filter_from_str t = Panic.
Proof.
  exists (txt "{""programId"":""x""}"), (JObj [(txt "programId", JStr (txt "x"))]). split; [by vm_compute|]. split; [|by vm_compute].
  intros [f H]. apply described in H. by vm_compute in H.
Qed.
(** Also in the middle of a list, and for [null] as a program. *)
Theorem C72_null_refuted : filters_from_str (txt "[{},{""programId"":null}]") = Panic /\ filter_from_str (txt "{""filters"":[{""datasize"":-1}]}") = Panic.
Proof. by vm_compute. Qed.
(** What holds: text without a JSON value is an error, and so is text behind one; the program ends exactly on a value that does not pass. *)
Theorem C72_exact_partial b :
  match read_json b with
  | None => filter_from_str b = Done None
  | Some (v, r) =>
      (forall f, passes v f -> filter_from_str b = Done (if decide (ws r) then Some f else None)) /\
      (filter_from_str b = Panic <-> ~ exists f, passes v f)
  end.
Proof.
  unfold filter_from_str. destruct (read_json b) as [[v r]|]; [|done]. split.
  - intros f H%passes_spec. rewrite H. simpl. f_equal. destruct (decide (ws r)) as [Hw|Hw]; [by rewrite skip_ws_all|].
    destruct (skip_ws r) as [|c l] eqn:E; [|done]. exfalso. apply Hw. clear -E. induction r as [|c r IH]; [constructor|]. simpl in E.
    destruct (is_ws c) eqn:Ec; [|done]. constructor; [by apply white_is|by apply IH].
  - destruct (filter_of_json v) as [f|] eqn:E.
    + split; [done|]. intros H. exfalso. apply H. exists f. by apply passes_spec.
    + split; [|done]. intros _ [f H%passes_spec]. by rewrite E in H.
Qed.
Example C72_example_hyps : read_json (txt "[,") = None /\ filter_from_str (txt "[,") = Done None /\
  read_json (txt "{} x") = Some (JObj [], txt " x") /\ filter_from_str (txt "{} x") = Done None /\ passes (JObj []) (AFilter [] None None).
Proof. do 4 (split; [by vm_compute|]). by apply passes_spec. Qed.

(** ** C73: what is configured takes effect *)
(** False: accounts given as one text instead of an array, an entry with the name of the field in the code, something that is no object, all are accepted and select nothing. *)
Theorem C73_refuted : exists t v pk, json_from_str t = Some v /\ (exists x, v = JObj [(txt "accounts", x)] /\ key_json x pk) /\
  filter_from_str t = Done (Some (AFilter [] None None)).
Proof.
  exists (txt "{""accounts"":""11111111111111111111111111111111""}"), (JObj [(txt "accounts", JStr (txt "11111111111111111111111111111111"))]), 0.
  split; [by vm_compute|]. split; [|by vm_compute]. eexists. split; [done|]. split; [by vm_compute|done].
Qed.
Theorem C73_unknown_refuted :
  filters_from_str (txt "[{""program_id"":""11111111111111111111111111111111""}, 42, ""accounts"", []]") = Done (Some (replicate 4 (AFilter [] None None))).
Proof. by vm_compute. Qed.
(** What holds: a value is accepted exactly as the filter it describes, but for the two ways above, when the part, or everything, is taken as absent. *)
Theorem C73_accepts_partial b v r f : read_json b = Some (v, r) -> ws r ->
  filter_from_str b = Done (Some f) <->
  describes v f \/ ~ is_object v /\ f = AFilter [] None None \/
  exists es x, v = JObj es /\ has "accounts" x es /\ ~ is_array x /\ f_accounts f = [] /\ describes (JObj (filter (fun e => e.1 <> txt "accounts") es)) f.
Proof.
  intros Hb Hr. unfold filter_from_str. rewrite Hb. change (_ \/ _) with (passes v f). rewrite <- passes_spec, skip_ws_all by done.
  destruct (filter_of_json v) as [g|]; simpl; split; try done; by intros [= ->].
Qed.
Example C73_example_hyps : read_json ex_text = Some (ex_json, []) /\ ws [].
Proof. split; [by vm_compute|constructor]. Qed.

Print Assumptions C08_round_trip.
Print Assumptions C08_round_trip_list.
Print Assumptions C08_reads_config.
Print Assumptions C08_reads_config_list.
Print Assumptions C08_writes_json.
Print Assumptions C72_refuted.
Print Assumptions C72_null_refuted.
Print Assumptions C72_exact_partial.
Print Assumptions C73_refuted.
Print Assumptions C73_unknown_refuted.
Print Assumptions C73_accepts_partial.
