(** Property theorems C01-C07 (account filters). *)
From Verif Require Import Base DataModel FilterModel FilterSpec FilterProofs.

(** Sample externals for the examples: text "decodes" to itself unless empty. *)
Definition ext_sample : ext := {|
  x_b58 s := if decide (s = []) then None else Some s;
  x_b64 s := if decide (s = []) then None else Some s;
  x_lz4c _ d := Some d; x_lz4d b := Some b; x_zstdc _ d := Some d; x_zstdd b := Some b |}.
Definition mk_acct (pk own : pubkey) (lam : N) (d : bytes) (s wv : N) : acct :=
  Acct pk (Account lam (DRaw d) own false 0) s wv.
Definition bs (l : list N) : bytes := map n2b l.
Definition flt_size (p n : N) : afilter := AFilter [] (Some p) (Some [Datasize n]).
Definition flt_mem (p off : N) (d : memcmp_data) : afilter :=
  AFilter [] (Some p) (Some [MemcmpC (Memcmp off d)]).

(** C01: an account is admitted iff one of the added filters selects it. *)
Theorem C01_admission_is_union : forall (E : ext) (fs : list afilter) (a : acct) (d : bytes),
  Forall (decodable E) fs -> plain E a d ->
  exists st b, add_filters E fstore_empty fs = Done st /\ satisfies E st a = Done b /\
    (b = true <-> any_selects E fs a).
Proof. exact satisfies_correct. Qed.
Print Assumptions C01_admission_is_union.
Definition ex_filters : list afilter :=
  [flt_size 7 3; flt_mem 7 1 (MBase58 (bs [8;9])); AFilter [42] None None; flt_mem 9 0 (MBytes (bs [1]))].
Example C01_example_hyps : Forall (decodable ext_sample) ex_filters /\
  plain ext_sample (mk_acct 5 7 1 (bs [1;8;9;4]) 10 0) (bs [1;8;9;4]) /\
  any_selects ext_sample ex_filters (mk_acct 5 7 1 (bs [1;8;9;4]) 10 0).
Proof.
  split_and!.
  - unfold ex_filters. rewrite !Forall_cons. split_and!; [..|by constructor];
      intros l Hl; simplify_eq/=; repeat constructor; simpl; eauto.
  - done.
  - exists (flt_mem 7 1 (MBase58 (bs [8;9]))). split; [right; left|]. right. split; [done|].
    intros l [= <-]. exists (bs [1;8;9;4]). split; [done|].
    intros c Hc%elem_of_list_singleton. subst c. simpl. exists (bs [8;9]), (bs [1]), (bs [4]). done.
Qed.

(** C02: a query reported as contained is covered. *)
Theorem C02_contained_query_is_covered : forall (E : ext) fs st q a d,
  Forall (decodable E) fs -> add_filters E fstore_empty fs = Done st -> plain E a d ->
  contains_filter st q = true -> selects E q a -> satisfies E st a = Done true.
Proof. exact contains_sound. Qed.
Print Assumptions C02_contained_query_is_covered.
Example C02_example_hyps : exists st,
  add_filters ext_sample fstore_empty ex_filters = Done st /\
  contains_filter st (AFilter [42] (Some 9) (Some [MemcmpC (Memcmp 3 (MBytes (bs [5]))); MemcmpC (Memcmp 0 (MBytes (bs [1])))])) = true.
Proof. eexists. split; [by vm_compute|]. by vm_compute. Qed.

(** C02, converse direction (would be: every covered query is reported).  False: the check
    compares with a prefix of the sorted query, so adding a condition that sorts before the
    stored ones hides the coverage.  (Missed answers are safe, but force re-subscription.) *)
Theorem C02_converse_refuted : forall E, exists fs st q,
  add_filters E fstore_empty fs = Done st /\
  (forall a, selects E q a -> exists f, f ∈ fs /\ selects E f a) /\
  contains_filter st q = false.
Proof.
  intros E. exists [flt_mem 7 0 (MBytes (bs [1]))]. eexists.
  exists (AFilter [] (Some 7) (Some [Datasize 5; MemcmpC (Memcmp 0 (MBytes (bs [1])))])).
  split; [done|]. split.
  - intros a [Hpk|[Hp Hc]]; [by apply elem_of_nil in Hpk|].
    eexists. split; [left|]. right. split; [done|]. intros l Hl. injection Hl as <-.
    destruct (Hc _ eq_refl) as (d & Hd & Hh). exists d. split; [done|].
    intros c Hc1%elem_of_list_singleton. subst c. apply Hh. right. left.
  - by vm_compute.
Qed.
Print Assumptions C02_converse_refuted.

(** C03: adding filters never withdraws admission or coverage. *)
Theorem C03_adding_filters_is_monotone : forall (E : ext) st fs st',
  add_filters E st fs = Done st' ->
  (forall a, satisfies E st a = Done true -> satisfies E st' a = Done true) /\
  (forall q, contains_filter st q = true -> contains_filter st' q = true) /\
  (forall pk, contains_account st pk = true -> contains_account st' pk = true).
Proof.
  exact (fun E st fs st' H => conj (fun a => satisfies_mono E st fs st' a H)
    (conj (fun q => contains_filter_mono E st fs st' q H)
          (fun pk => contains_account_mono E st fs st' pk H))).
Qed.
Print Assumptions C03_adding_filters_is_monotone.
Example C03_example_hyps : exists st st',
  add_filters ext_sample fstore_empty ex_filters = Done st /\
  satisfies ext_sample st (mk_acct 5 7 1 (bs [1;8;9;4]) 10 0) = Done true /\
  add_filters ext_sample st [AFilter [] (Some 7) None; flt_size 9 1] = Done st'.
Proof. do 2 eexists. split; [by vm_compute|]. split; by vm_compute. Qed.

(** C04, full statement: [forall E st f st', add_filter E st f = Done st' -> contains_filter st' f = true].
    False: the first filter of a program is stored with its text pattern decoded, the query is not. *)
Theorem C04_added_filter_contained_refuted : forall E p off s b,
  x_b58 E s = Some b ->
  exists st', add_filter E fstore_empty (flt_mem p off (MBase58 s)) = Done st' /\
    contains_filter st' (flt_mem p off (MBase58 s)) = false.
Proof.
  intros E p off s b Hs. unfold add_filter. cbn [flt_mem f_program f_filters fs_programs fstore_empty].
  rewrite lookup_empty. unfold map_r, normalize, memcmp_bytes. cbn [m_data m_offset]. rewrite Hs.
  eexists. split; [done|]. unfold contains_filter. cbn [flt_mem f_program f_filters fs_programs f_accounts].
  rewrite lookup_insert. cbn. rewrite bool_decide_false; [done|]. congruence.
Qed.
Print Assumptions C04_added_filter_contained_refuted.
Example C04_refuted_example : x_b58 ext_sample (bs [65]) = Some (bs [65]).
Proof. by vm_compute. Qed.
(** Proved part: raw byte patterns; missing: base58/base64 patterns in the first filter of a program. *)
Theorem C04_added_raw_filter_contained_partial : forall E st f st',
  raw_filter f -> add_filter E st f = Done st' -> contains_filter st' f = true.
Proof. exact contains_self_raw. Qed.
Print Assumptions C04_added_raw_filter_contained_partial.
(** Proved part: any filter, once it has been added twice. *)
Theorem C04_filter_added_twice_contained_partial : forall E st f st1 st2,
  add_filter E st f = Done st1 -> add_filter E st1 f = Done st2 -> contains_filter st2 f = true.
Proof. exact contains_self_twice. Qed.
Print Assumptions C04_filter_added_twice_contained_partial.
Example C04_example_hyps : raw_filter (flt_mem 7 1 (MBytes (bs [8]))) /\
  exists st st2, add_filter ext_sample fstore_empty (flt_mem 7 1 (MBytes (bs [8]))) = Done st /\
   add_filter ext_sample st (flt_mem 7 1 (MBytes (bs [8]))) = Done st2.
Proof.
  split; [intros l [= <-]; repeat constructor; simpl; eauto|]. do 2 eexists. split; by vm_compute.
Qed.

(** C05: meaning of a condition, and independence of the encoding. *)
Theorem C05_condition_meaning : forall E c d, decodable_cond E c ->
  exists b, allows E c d = Done b /\ (b = true <-> holds E c d).
Proof. exact allows_spec. Qed.
Print Assumptions C05_condition_meaning.
Theorem C05_encoding_independent : forall E o d1 d2 p data,
  pattern E d1 = Some p -> pattern E d2 = Some p ->
  bytes_match E (Memcmp o d1) data = bytes_match E (Memcmp o d2) data /\
  bytes_match E (Memcmp o d1) data <> Panic.
Proof. exact encodings_agree. Qed.
Print Assumptions C05_encoding_independent.
Example C05_example_hyps : decodable_cond ext_sample (MemcmpC (Memcmp 18446744073709551615 (MBase64 (bs [3])))) /\
  pattern ext_sample (MBase64 (bs [3])) = pattern ext_sample (MBytes (bs [3])) /\
  allows ext_sample (MemcmpC (Memcmp 18446744073709551615 (MBase64 (bs [3])))) (bs [3;3]) = Done false.
Proof. split; [simpl; eauto|]. split; by vm_compute. Qed.
(** C05, for undecodable text: evaluating the filter panics instead of reporting an error. *)
Theorem C05_undecodable_pattern_panics_refuted : forall E s, x_b58 E s = None -> forall o d p,
  allows E (MemcmpC (Memcmp o (MBase58 s))) d = Panic /\
  add_filter E fstore_empty (flt_mem p o (MBase58 s)) = Panic.
Proof.
  intros E s Hs o d p. split.
  - unfold allows. rewrite bytes_match_unfold. cbn. by rewrite Hs.
  - unfold add_filter. cbn [flt_mem f_program f_filters fs_programs fstore_empty].
    rewrite lookup_empty. unfold map_r, normalize, memcmp_bytes. cbn [m_data m_offset]. by rewrite Hs.
Qed.
Print Assumptions C05_undecodable_pattern_panics_refuted.

(** C06: the exclusion store is the exact complement. *)
Theorem C06_exclusion_is_complement : forall E fs a d,
  Forall (decodable E) fs -> plain E a d ->
  exists st b, add_filters E fstore_empty fs = Done st /\ except_satisfies E st a = Done b /\
    (b = true <-> ~ any_selects E fs a).
Proof. exact except_complement. Qed.
Print Assumptions C06_exclusion_is_complement.
(** C06, coverage, full statement: as C02 for the exclusion store.  False when an exclusion is
    narrower than the query. *)
Theorem C06_exclusion_coverage_refuted : forall E, exists fs st q a,
  add_filters E fstore_empty fs = Done st /\ except_contains st q = true /\
  selects E q a /\ except_satisfies E st a = Done false.
Proof.
  intros E. exists [flt_size 7 2]. eexists. exists (AFilter [] (Some 7) None), (mk_acct 5 7 1 (bs [1;2]) 10 0).
  split; [done|]. split; [by vm_compute|]. split; [|by vm_compute]. right. by split.
Qed.
Print Assumptions C06_exclusion_coverage_refuted.
(** Proved part: all exclusions name whole programs and the query names a program. *)
Theorem C06_whole_program_exclusion_coverage_partial : forall E fs st q p a,
  Forall whole_program fs -> add_filters E fstore_empty fs = Done st ->
  f_accounts q = [] -> f_program q = Some p ->
  except_contains st q = true -> selects E q a -> except_satisfies E st a = Done true.
Proof. exact except_coverage_whole. Qed.
Print Assumptions C06_whole_program_exclusion_coverage_partial.
Example C06_example_hyps : Forall whole_program [AFilter [] (Some 7) None; AFilter [] (Some 9) None] /\
  exists st, add_filters ext_sample fstore_empty [AFilter [] (Some 7) None; AFilter [] (Some 9) None] = Done st /\
  except_contains st (flt_size 8 3) = true /\ except_contains st (flt_size 7 3) = false.
Proof. split; [by repeat constructor|]. eexists. split; [done|]. split; by vm_compute. Qed.

(** C07: the RPC form means the same, directly and after conversion back. *)
Theorem C07_rpc_filter_same_meaning : forall E c a d,
  plain E a d -> data_len (d_data a) = lenN d -> decodable_cond E c ->
  acct_allows E a (to_rpc c) = allows E c d.
Proof. exact rpc_direct. Qed.
Print Assumptions C07_rpc_filter_same_meaning.
Theorem C07_rpc_filter_roundtrip : forall E c, decodable_cond E c ->
  exists c', from_rpc E (to_rpc c) = Done c' /\ forall data, allows E c' data = allows E c data.
Proof. exact rpc_roundtrip. Qed.
Print Assumptions C07_rpc_filter_roundtrip.
Example C07_example_hyps : decodable_cond ext_sample (MemcmpC (Memcmp 2 (MBase58 (bs [3])))) /\
  plain ext_sample (mk_acct 1 2 3 (bs [1;2;3]) 0 0) (bs [1;2;3]) /\
  acct_allows ext_sample (mk_acct 1 2 3 (bs [1;2;3]) 0 0) (to_rpc (MemcmpC (Memcmp 2 (MBase58 (bs [3]))))) = Done true.
Proof. split; [simpl; eauto|]. split; by vm_compute. Qed.
(** C07, RPC patterns that do not decode: the RPC form rejects everything, the converted
    condition (through [unwrap_or_default]) accepts everything long enough. *)
Theorem C07_undecodable_rpc_pattern_refuted : forall E s, x_b58 E s = None -> forall a d, plain E a d ->
  acct_allows E a (RMemcmp 0 (MBase58 s)) = Done false /\
  exists c, from_rpc E (RMemcmp 0 (MBase58 s)) = Done c /\ allows E c d = Done true.
Proof.
  intros E s Hs a d Hd. unfold plain in Hd. cbn. rewrite Hd. cbn. unfold rpc_bytes_match. cbn. rewrite Hs.
  split; [done|]. eexists. split; [done|]. cbn. f_equal. apply slice_match_spec. by exists [], d.
Qed.
Print Assumptions C07_undecodable_rpc_pattern_refuted.
