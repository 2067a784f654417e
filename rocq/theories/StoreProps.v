(** Theorems about the account store (C15-C28). *)
From Verif Require Import Base SMap DataModel FilterModel FilterSpec FilterProofs FilterProps BincodeModel
  ByCommitModel ByCommitSpec ByCommitProofs StoreModel StoreSpec StoreProofs StoreSlot StoreViews StoreHist StoreEffects.

(** Shorthands for the examples. *)
Definition upd (a : acct) (c : commitment) : filt * op := (admit_all, OUpdate a c).
Definition slt (s p : N) (c : commitment) : filt * op := (admit_all, OSlot (SlotInfo s p 0) c).
Definition acc5 (s w : N) : acct := mk_acct 5 7 1 (bs [1;8]) s w.
Definition closed5 (s w : N) : acct := mk_acct 5 0 0 [] s w.
(** The store after a history, and after an operation. *)
Definition final (h : list (filt * op)) : store :=
  match run ext_sample store_empty h with Done st => st | Panic => store_empty end.
Definition after {A} (r : res (store * A)) : store := match r with Done (st, _) => st | Panic => store_empty end.
Definition result_of {A B} (d : B) (r : res (A * B)) : B := match r with Done (_, b) => b | Panic => d end.
Ltac crunch := match goal with |- ?x = ?y => vm_cast_no_check (eq_refl y) end.
(** A history with two accounts, forks, a close and a compressed account. *)
Definition ex_store : list (filt * op) :=
  [ slt 10 9 Processed; upd (acc5 10 1) Processed; upd (mk_acct 6 8 4 (bs [2]) 10 2) Processed;
    slt 11 10 Processed; upd (acc5 11 3) Processed; slt 12 10 Processed; upd (acc5 12 4) Processed;
    upd (Acct 4 (Account 3 (DZstd (bs [1;8;9]) 3) 7 false 0) 12 5) Processed;
    slt 12 10 Confirmed; (admit_all, OGpa 7 (Some [MemcmpC (Memcmp 1 (MBase58 (bs [8])))]) Confirmed);
    slt 10 9 Finalized ].

(** C15: no history of operations on usable inputs (data that can be uncompressed, patterns that
    are well-formed text) panics.  Filters may answer differently at every step. *)
Theorem C15_store_never_panics : forall (E : ext) (h : list (filt * op)),
  (forall F o, (F, o) ∈ h -> op_ok E o) -> exists st, run E store_empty h = Done st.
Proof.
  intros E h Hh. apply run_total; [apply st_ok_empty| |done]. intros i b. simpl. by rewrite lookup_nil.
Qed.
Print Assumptions C15_store_never_panics.
Lemma ex_store_ok : forall F o, (F, o) ∈ ex_store -> op_ok ext_sample o.
Proof.
  intros F o H. unfold ex_store, upd, slt in H. rewrite !elem_of_cons, elem_of_nil in H.
  destruct_or?; simplify_eq; simpl; try done; try (by eexists).
  repeat constructor; simpl; eauto.
Qed.
Example C15_example_hyps : forall F o, (F, o) ∈ ex_store -> op_ok ext_sample o.
Proof. exact ex_store_ok. Qed.
(** Without the assumption on patterns a program query panics as soon as it meets an account. *)
Theorem C15_malformed_pattern_panics_refuted : exists E h, run E store_empty h = Panic.
Proof.
  exists ext_sample, [upd (acc5 10 1) Processed; (admit_all, OGpa 7 (Some [MemcmpC (Memcmp 0 (MBase58 []))]) Processed)].
  crunch.
Qed.
Print Assumptions C15_malformed_pattern_panics_refuted.

(** C16: a read at a weaker commitment is of the same or a later slot. *)
Theorem C16_reads_form_a_ladder : forall E st pk c c' y,
  reachable E st -> get_account st pk c = Done (ROk (Some y)) -> at_least c' c ->
  exists x, version_at st pk c' = Some x /\ d_slot y <= d_slot x /\
    get_account st pk c' = Done (ROk (if 0 <? d_lamports x then Some x else None)).
Proof.
  intros E st pk c c' y Hr Hg Hle. pose proof (reachable_ok _ _ Hr) as Hok.
  rewrite get_account_total in Hg by done. rewrite get_account_total by done.
  destruct (version_at st pk c) as [y0|] eqn:Hy; simpl in Hg; [|done].
  destruct (0 <? d_lamports y0); [|done]. injection Hg as ->.
  assert (exists x, version_at st pk c' = Some x /\ d_slot y <= d_slot x) as (x & Hx & Hs).
  { destruct (store_ladder st pk Hok) as [H1 H2]. unfold at_least in Hle.
    destruct c, c'; simpl in Hle; try lia; eauto.
    - destruct (H1 _ Hy) as (x & Hx & ?). destruct (H2 _ Hx) as (p & ? & ?). exists p. split; [done|lia]. }
  exists x. rewrite Hx. done.
Qed.
Print Assumptions C16_reads_form_a_ladder.
Example C16_example_hyps : exists st, run ext_sample store_empty ex_store = Done st /\
  get_account st 5 Confirmed = Done (ROk (Some (acc5 12 4))) /\ get_account st 5 Finalized = Done (ROk (Some (acc5 10 1))).
Proof. exists (final ex_store). split_and!; crunch. Qed.

(** C17: while an account stays tracked, its version at each commitment never goes back. *)
Theorem C17_step_never_goes_back : forall E F st o st' r pk c x,
  reachable E st -> step E F st o = Done (st', r) -> (forall p b, o <> OLoad p b) ->
  tracked st' pk -> version_at st pk c = Some x ->
  exists x', version_at st' pk c = Some x' /\ version_le x x'.
Proof.
  intros E F st o st' r pk c x Hr Hs Hl Ht Hx. pose proof (reachable_ok _ _ Hr) as Hok.
  destruct o as [a k|a|q k|p fl k|si k|p|p b]; simpl in Hs.
  - destruct (update_account F st a k) as [[st1 r1]|] eqn:H; simpl in Hs; [|done]. injection Hs as <- <-. by eapply update_mono.
  - unfold init_account in Hs. destruct (update_account F st a Finalized) as [[st1 r1]|] eqn:H; simpl in Hs; [|done].
    injection Hs as <- <-. by eapply update_mono.
  - destruct (get_account st q k); simpl in Hs; [|done]. injection Hs as <- <-. eauto using version_le_refl.
  - destruct (get_program_accounts E F st p fl k); simpl in Hs; [|done]. injection Hs as <- <-. eauto using version_le_refl.
  - destruct (process_slot F st si k) as [[st1 l]|] eqn:H; simpl in Hs; [|done]. injection Hs as <- <-. by eapply slot_mono.
  - destruct (create_snapshot E F st p); simpl in Hs; [|done]. injection Hs as <- <-. eauto using version_le_refl.
  - by destruct (Hl p b).
Qed.
Print Assumptions C17_step_never_goes_back.
(** A snapshot load is a sequence of initialisations, so the step theorem covers it piecewise. *)
Theorem C17_load_is_initialisations : forall E F st p b l,
  unbincode_accounts b = Some l ->
  run E st [(F, OLoad p b)] = run E st (map (fun a => (F, OInit a)) l).
Proof.
  intros E F st p b l Hl. simpl. unfold load_from_snapshot. rewrite Hl. clear Hl.
  revert st. induction l as [|a l IH]; intros st; simpl; [done|].
  destruct (init_account F st a) as [st1|]; simpl; [|done]. apply IH.
Qed.
Print Assumptions C17_load_is_initialisations.
Theorem C17_reads_never_go_back : forall E st h st' pk c x,
  reachable E st -> run E st h = Done st' -> (forall F p b, (F, OLoad p b) ∉ h) ->
  tracked_during E st h pk -> version_at st pk c = Some x ->
  exists x', version_at st' pk c = Some x' /\ version_le x x'.
Proof.
  intros E st h. revert st. induction h as [|[F o] h IH]; intros st st' pk c x Hr Hrun Hno Htr Hx; simpl in Hrun.
  { injection Hrun as <-. eauto using version_le_refl. }
  destruct (step E F st o) as [[st1 r]|] eqn:Hs; simpl in Hrun; [|done].
  destruct (C17_step_never_goes_back E F st o st1 r pk c x Hr Hs) as (x1 & Hx1 & Hle1).
  { intros p b ->. eapply Hno. left. }
  { apply (Htr [(F, o)] h); [done|]. simpl. by rewrite Hs. }
  { done. }
  destruct (IH st1 st' pk c x1) as (x2 & Hx2 & Hle2).
  - by eapply reachable_step.
  - done.
  - intros F0 p b Hin. eapply Hno. right. exact Hin.
  - intros h1 h2 st2 -> H2. apply (Htr ((F, o) :: h1) h2); [done|]. simpl. by rewrite Hs.
  - done.
  - exists x2. split; [done|]. by eapply version_le_trans.
Qed.
Print Assumptions C17_reads_never_go_back.
Lemma prefix_states E st h pk (P : bool) :
  (fix go st h := bool_decide (is_Some (st_index st !! pk)) &&
     match h with [] => true | (F, o) :: h' => match step E F st o with Done (st', _) => go st' h' | Panic => true end end) st h = true ->
  tracked_during E st h pk.
Proof.
  revert st. induction h as [|[F o] h IH]; intros st Hgo h1 h2 st1 Heq Hrun.
  - destruct h1; [|done]. simpl in Hrun. injection Hrun as <-. apply andb_true_iff in Hgo as [Hgo _]. by apply bool_decide_eq_true in Hgo.
  - apply andb_true_iff in Hgo as [Ht Hgo]. destruct h1 as [|x h1]; simpl in Hrun.
    + injection Hrun as <-. by apply bool_decide_eq_true in Ht.
    + injection Heq as <- ->. destruct (step E F st o) as [[st' r]|] eqn:Hs; simpl in Hrun; [|done].
      by eapply IH.
Qed.
Example C17_example_hyps : exists st st', run ext_sample store_empty (take 2 ex_store) = Done st /\
  run ext_sample st (drop 2 ex_store) = Done st' /\ tracked_during ext_sample st (drop 2 ex_store) 5 /\
  version_at st 5 Processed = Some (acc5 10 1) /\ version_at st' 5 Processed = Some (acc5 12 4).
Proof.
  exists (final (take 2 ex_store)), (final ex_store). split; [crunch|]. split; [crunch|]. split.
  - apply (prefix_states _ _ _ _ true). crunch.
  - split; crunch.
Qed.

(** C18: an update changes nothing about other accounts. *)
Theorem C18_accounts_do_not_interfere : forall E F st a c st' r,
  reachable E st -> update_account F st a c = Done (st', r) ->
  (forall pk k, pk <> d_pubkey a -> version_at st' pk k = version_at st pk k /\
     get_account st' pk k = get_account st pk k) /\
  (forall F' p fl k l l' b,
     get_program_accounts E F' st p fl k = Done (ROk l) -> get_program_accounts E F' st' p fl k = Done (ROk l') ->
     d_pubkey b <> d_pubkey a -> b ∈ l <-> b ∈ l').
Proof.
  intros E F st a c st' r Hr H. pose proof (reachable_ok _ _ Hr) as Hok. pose proof (update_ok _ _ _ _ _ _ Hok H) as Hok'. split.
  - intros pk k Hne. assert (version_at st' pk k = version_at st pk k) as Hv by (by eapply update_other).
    split; [done|]. rewrite !get_account_total by done. by rewrite Hv.
  - intros F' p fl k l l' b H1 H2 Hne. exact (update_gpa_other E F F' st a c st' r p fl k l l' b Hok H H1 H2 Hne).
Qed.
Print Assumptions C18_accounts_do_not_interfere.
Example C18_example_hyps : exists st st', run ext_sample store_empty ex_store = Done st /\
  update_account admit_all st (acc5 13 9) Confirmed = Done (st', true) /\
  get_account st' 6 Finalized = Done (ROk (Some (mk_acct 6 8 4 (bs [2]) 10 2))).
Proof. exists (final ex_store), (after (update_account admit_all (final ex_store) (acc5 13 9) Confirmed)). split_and!; crunch. Qed.

(** C19: unwanted accounts are refused; wanted ones are accepted and readable. *)
Theorem C19_unwanted_leave_no_trace : forall E F st a c,
  reachable E st -> ~ tracked st (d_pubkey a) -> fl_sat F a = false ->
  update_account F st a c = Done (st, false).
Proof.
  intros E F st a c _ Ht Hs. apply update_refused; [|done]. apply eq_None_not_Some. exact Ht.
Qed.
Print Assumptions C19_unwanted_leave_no_trace.
Theorem C19_wanted_are_readable : forall E F st a c,
  reachable E st -> ~ tracked st (d_pubkey a) -> fl_sat F a = true ->
  exists st', update_account F st a c = Done (st', true) /\ 
    forall k, version_at st' (d_pubkey a) k = if rank k <=? rank c then Some a else None.
Proof.
  intros E F st a c Hr Ht Hs. pose proof (reachable_ok _ _ Hr) as Hok.
  destruct (update_account_cases F st a c Hok) as (st' & r & H & _).
  destruct (update_self F st a c st' r Hok H) as (_ & _ & H3). destruct (H3 Ht) as (-> & H4 & _). rewrite Hs in *.
  exists st'. split; [done|]. intros k. rewrite (H4 eq_refl). by destruct c, k.
Qed.
Print Assumptions C19_wanted_are_readable.
Example C19_example_hyps : exists st, run ext_sample store_empty ex_store = Done st /\ st_index st !! 77 = None /\
  fl_sat (Filt (fun a => d_owner a =? 7) (fun _ => true)) (mk_acct 77 8 4 (bs [2]) 10 2) = false /\
  fl_sat (Filt (fun a => d_owner a =? 8) (fun _ => true)) (mk_acct 77 8 4 (bs [2]) 10 2) = true.
Proof. exists (final ex_store). split_and!; crunch. Qed.

(** C20: program queries return only versions of the queried commitment, of the program,
    that satisfy all conditions. *)
Theorem C20_program_query_sound : forall E F st p fl c l b,
  reachable E st -> get_program_accounts E F st p fl c = Done (ROk l) -> b ∈ l ->
  exists a, version_at st (d_pubkey b) c = Some a /\ same_account E b a /\ d_owner b = p /\ meets E fl a.
Proof.
  intros E F st p fl c l b Hr Hl Hin. destruct (gpa_sound E F st p fl c l b (reachable_ok _ _ Hr) Hl Hin) as (a & H1 & H2 & H3 & H4 & _).
  exists a. split_and!; try done. destruct H2 as (_ & _ & -> & _). done.
Qed.
Print Assumptions C20_program_query_sound.
Definition ex_query : option (list cond) := Some [MemcmpC (Memcmp 1 (MBase58 (bs [8])))].
Definition ex_answer : list acct := [acc5 12 4; Acct 4 (Account 3 (DRaw (bs [1;8;9])) 7 false 0) 12 5].
Example C20_example_hyps : exists st l, run ext_sample store_empty ex_store = Done st /\
  get_program_accounts ext_sample admit_all st 7 ex_query Confirmed = Done (ROk l) /\ length l = 2%nat /\
  acc5 12 4 ∈ l.
Proof.
  exists (final ex_store), ex_answer. split_and!; [crunch..|]. left.
Qed.

(** C21: no pubkey appears twice. *)
Theorem C21_program_query_no_duplicates : forall E F st p fl c l,
  reachable E st -> get_program_accounts E F st p fl c = Done (ROk l) -> NoDup (map d_pubkey l).
Proof. intros E F st p fl c l Hr. apply gpa_nodup. by eapply reachable_ok. Qed.
Print Assumptions C21_program_query_no_duplicates.
Example C21_example_hyps : exists st l, run ext_sample store_empty ex_store = Done st /\
  get_program_accounts ext_sample admit_all st 7 ex_query Confirmed = Done (ROk l) /\ map d_pubkey l = [5; 4].
Proof. exists (final ex_store), ex_answer. split_and!; crunch. Qed.

(** C22, full statement: every tracked live account owned by the program and meeting the
    conditions is in the answer.  False: an account first seen as processed under another owner
    is not indexed when its new owner arrives as confirmed. *)
Theorem C22_program_query_complete_refuted : exists E h st a,
  run E store_empty h = Done st /\ get_account st (d_pubkey a) Confirmed = Done (ROk (Some a)) /\
  d_owner a = 8 /\ get_program_accounts E admit_all st 8 None Confirmed = Done (ROk []).
Proof.
  set (h := [upd (mk_acct 5 7 1 [] 10 1) Processed; upd (mk_acct 5 8 1 [] 11 1) Confirmed]).
  exists ext_sample, h, (final h), (mk_acct 5 8 1 [] 11 1). split_and!; crunch.
Qed.
Print Assumptions C22_program_query_complete_refuted.
(** Proved part: complete if in the whole history the live versions of an account have one owner
    and closed versions are not admitted by the filters; missing: accounts that change owner. *)
Theorem C22_program_query_complete_partial : forall E h st (own_of : pubkey -> pubkey) F p fl c l a,
  run E store_empty h = Done st ->
  (forall F o a, (F, o) ∈ h -> delivers o a ->
     (alive a -> d_owner a = own_of (d_pubkey a)) /\ (~ alive a -> fl_sat F a = false) /\ honest E a) ->
  get_program_accounts E F st p fl c = Done (ROk l) ->
  version_at st (d_pubkey a) c = Some a -> alive a -> d_owner a = p -> meets E fl a ->
  exists b, b ∈ l /\ same_account E b a.
Proof.
  intros E h st own_of F p fl c l a Hrun Hh Hl Hv Hal Ho Hm.
  assert (st_ok st) as Hok by (eapply run_ok; [apply st_ok_empty|done]).
  destruct (owner_run E own_of h store_empty st st_ok_empty) as [HI HA]; [| |done|].
  { split; [intros pk i Hi; simpl in Hi; by rewrite lookup_empty in Hi|]. intros i b. simpl. by rewrite lookup_nil. }
  { intros F0 o a0 Hin Hd. destruct (Hh F0 o a0 Hin Hd) as (? & ? & _). done. }
  assert (st_all (honest E) st) as HH.
  { eapply st_all_run; [apply st_ok_empty| | |exact Hrun].
    - intros i b. simpl. by rewrite lookup_nil.
    - intros F0 o a0 Hin Hd. destruct (Hh F0 o a0 Hin Hd) as (_ & _ & ?). done. }
  apply version_at_inv in Hv as (i & b & Hi & Hb & Hg). apply gpa_inv in Hl as (_ & Hl & Hdef).
  assert (i ∈ own (st_owners st) p) as Hown.
  { rewrite <- Ho. pose proof (bc_all_get _ b c a (so_bc _ Hok _ _ Hb) (HA _ _ Hb) Hg) as Hoo. simpl in Hoo.
    rewrite (Hoo Hal). by apply HI. }
  destruct (Hdef _ Hown) as (b' & l' & Hb' & Hl'). rewrite Hb in Hb'. injection Hb' as <-.
  destruct (gpa_entry_complete _ _ _ _ _ _ _ Hl' Hg Ho Hm) as (x & -> & Hs).
  - exact (bc_all_get _ b c a (so_bc _ Hok _ _ Hb) (HH _ _ Hb) Hg).
  - done.
  - exists x. split; [|done]. apply Hl. exists i, b, [x]. split_and!; try done. left.
Qed.
Print Assumptions C22_program_query_complete_partial.
Example C22_example_hyps : exists st, run ext_sample store_empty ex_store = Done st /\
  (forall F o a, (F, o) ∈ ex_store -> delivers o a ->
     (alive a -> d_owner a = (fun pk => if pk =? 6 then 8 else 7) (d_pubkey a)) /\ (~ alive a -> fl_sat F a = false) /\ honest ext_sample a) /\
  version_at st 5 Confirmed = Some (acc5 12 4) /\ meets ext_sample ex_query (acc5 12 4).
Proof.
  exists (final ex_store). split; [crunch|]. split_and!; [|crunch|].
  - intros F o a H Hd. unfold ex_store, upd, slt in H. rewrite !elem_of_cons, elem_of_nil in H.
    destruct_or?; simplify_eq; simpl in Hd; try done; subst a;
      (split; [by intros _|]; split; [by intros []; vm_compute|eexists; split; [reflexivity|crunch]]).
  - intros l x [= <-] ->%elem_of_list_singleton. exists (bs [1;8]). split; [done|]. exists (bs [8]), (bs [1]), []. by vm_compute.
Qed.

(** C23: closed versions are not served by account reads and by queries with conditions. *)
Theorem C23_reads_never_serve_closed_partial : forall E F st pk p fl c,
  reachable E st ->
  (forall a, get_account st pk c = Done (ROk (Some a)) -> alive a /\ version_at st pk c = Some a) /\
  (forall l b, get_program_accounts E F st p (Some fl) c = Done (ROk l) -> b ∈ l -> alive b).
Proof.
  intros E F st pk p fl c Hr. pose proof (reachable_ok _ _ Hr) as Hok. split.
  - intros a. rewrite get_account_total by done. destruct (version_at st pk c) as [x|]; simpl; [|done].
    destruct (0 <? d_lamports x) eqn:Hl; [|done]. intros [= ->]. apply N.ltb_lt in Hl. done.
  - intros l b Hl Hin. destruct (gpa_sound _ _ _ _ _ _ _ _ Hok Hl Hin) as (a & _ & (_ & Hlam & _) & _ & _ & Hal).
    unfold alive. rewrite Hlam. by apply Hal.
Qed.
Print Assumptions C23_reads_never_serve_closed_partial.
Example C23_example_hyps : exists st, run ext_sample store_empty [upd (acc5 10 1) Finalized; upd (mk_acct 5 7 0 [] 11 1) Processed] = Done st /\
  get_account st 5 Processed = Done (ROk None) /\
  get_program_accounts ext_sample admit_all st 7 (Some []) Processed = Done (ROk []).
Proof. exists (final [upd (acc5 10 1) Finalized; upd (mk_acct 5 7 0 [] 11 1) Processed]). split_and!; crunch. Qed.
(** Missing part is false: queries without conditions serve closed versions. *)
Theorem C23_unfiltered_query_serves_closed_refuted : exists E h st a,
  run E store_empty h = Done st /\ get_program_accounts E admit_all st 7 None Processed = Done (ROk [a]) /\ ~ alive a.
Proof.
  set (h := [upd (acc5 10 1) Finalized; upd (mk_acct 5 7 0 [] 11 1) Processed]).
  exists ext_sample, h, (final h), (mk_acct 5 7 0 [] 11 1). split; [crunch|]. split; [crunch|]. unfold alive. simpl. lia.
Qed.
Print Assumptions C23_unfiltered_query_serves_closed_refuted.

(** C24, full statement: with parent links as announced, every write of a committed slot or an
    uncommitted ancestor is served at the commitment afterwards.  False: the parent announced for
    a slot is dropped when an update of that slot arrived before its announcement. *)
Theorem C24_ancestors_committed_refuted : exists E h st a,
  run E store_empty h = Done st /\ last h = Some (slt 12 11 Confirmed) /\ (admit_all, OUpdate a Processed) ∈ h /\
  ancestor h 12 (d_slot a) /\ version_at st (d_pubkey a) Processed = Some a /\ version_at st (d_pubkey a) Confirmed = None.
Proof.
  set (h := [upd (acc5 10 1) Processed; upd (mk_acct 6 7 1 [] 11 1) Processed; slt 10 9 Processed;
             slt 11 10 Processed; slt 12 11 Processed; slt 12 11 Confirmed]).
  exists ext_sample, h, (final h), (acc5 10 1). split; [crunch|]. split; [done|]. split; [left|]. split.
  - assert (forall F si c, (F, OSlot si c) ∈ h -> announced h (si_slot si) (si_parent si)) as Hann by (intros F si c; by exists F, si, c).
    apply rtc_l with 11; [apply (Hann admit_all (SlotInfo 12 11 0) Processed); do 4 right; left|].
    apply rtc_l with 10; [apply (Hann admit_all (SlotInfo 11 10 0) Processed); do 3 right; left|apply rtc_refl].
  - split; crunch.
Qed.
Print Assumptions C24_ancestors_committed_refuted.
(** Proved part: for parent links as recorded by the store ([on_chain]), an accepted update is
    recorded, stays recorded while the account is tracked and no later slot is finalized, and is
    served (or something newer) once its slot is committed; missing: links the store dropped. *)
Theorem C24_recorded_ancestors_committed_partial : forall E F0 st0 a c0 st1 r h st2 F si c st3 out,
  reachable E st0 -> update_account F0 st0 a c0 = Done (st1, r) -> c0 <> Finalized ->
  run E st1 h = Done st2 -> (forall F p b, (F, OLoad p b) ∉ h) -> tracked_during E st1 h (d_pubkey a) ->
  (forall F si', (F, OSlot si' Finalized) ∈ h -> si_slot si' <= d_slot a) ->
  process_slot F st2 si c = Done (st3, out) -> c <> Processed ->
  on_chain (st_slots st2) si c (d_slot a) ->
  ~ tracked st3 (d_pubkey a) \/
  exists t x, on_chain (st_slots st2) si c t /\ wrote st2 t (d_pubkey a) /\
    version_at st3 (d_pubkey a) c = Some x /\ t <= d_slot x /\
    (descending (st_slots st2) si c -> d_slot a <= d_slot x).
Proof.
  intros E F0 st0 a c0 st1 r h st2 F si c st3 out Hr Hu Hc0 Hrun Hno Htr Hfin Hs Hc Hch.
  pose proof (reachable_ok _ _ Hr) as Hok0. pose proof (update_ok _ _ _ _ _ _ Hok0 Hu) as Hok1.
  assert (st_kept st1) as HK1. { eapply kept_upd; [exact Hok0|by eapply reachable_kept|exact Hu]. }
  assert (st_ok st2) as Hok2 by (exact (run_ok E h st1 st2 Hok1 Hrun)). assert (st_kept st2) as HK2 by (exact (kept_run E h st1 st2 Hok1 HK1 Hrun)).
  assert (wrote st1 (d_slot a) (d_pubkey a)) as Hw1.
  { eapply update_wrote; [exact Hok0|exact Hu|done|]. by apply (Htr [] h). }
  assert (wrote st2 (d_slot a) (d_pubkey a)) as Hw2.
  { clear - Hok1 Hw1 Hrun Hno Htr Hfin. revert st1 Hok1 Hw1 Hrun Htr.
    induction h as [|[F o] h IH]; intros st1 Hok1 Hw1 Hrun Htr; simpl in Hrun; [by injection Hrun as <-|].
    destruct (step E F st1 o) as [[st r]|] eqn:Hs; simpl in Hrun; [|done].
    assert (tracked st (d_pubkey a)) as Ht. { apply (Htr [(F, o)] h); [done|]. simpl. by rewrite Hs. }
    apply (IH) with st; [| | | |done|].
    - intros F0 p b Hin. eapply Hno. right. exact Hin.
    - intros F0 si' Hin. eapply Hfin. right. exact Hin.
    - by eapply step_ok.
    - destruct o as [x k|x|q k|p fl k|si k|p|p b]; simpl in Hs.
      + destruct (update_account F st1 x k) as [[s1 r1]|] eqn:H; simpl in Hs; [|done]. injection Hs as <- <-. by eapply wrote_upd.
      + unfold init_account in Hs. destruct (update_account F st1 x Finalized) as [[s1 r1]|] eqn:H; simpl in Hs; [|done].
        injection Hs as <- <-. by eapply wrote_upd.
      + destruct (get_account st1 q k); simpl in Hs; [|done]. by injection Hs as <- <-.
      + destruct (get_program_accounts E F st1 p fl k); simpl in Hs; [|done]. by injection Hs as <- <-.
      + destruct (process_slot F st1 si k) as [[s1 l]|] eqn:H; simpl in Hs; [|done]. injection Hs as <- <-.
        eapply wrote_slot; [exact Hok1|exact H|done| |done]. intros ->. eapply Hfin. left.
      + destruct (create_snapshot E F st1 p); simpl in Hs; [|done]. by injection Hs as <- <-.
      + exfalso. eapply Hno. left.
    - intros h1 h2 st' -> H2. apply (Htr ((F, o) :: h1) h2); [done|]. simpl. by rewrite Hs. }
  destruct (commit_recorded F st2 si c st3 out (d_slot a) (d_pubkey a) Hok2 HK2 Hs Hc Hch Hw2) as [?|(t & x & ? & ? & ? & ? & ?)];
    [by left|right]. exists t, x. done.
Qed.
Print Assumptions C24_recorded_ancestors_committed_partial.
Example C24_example_hyps : exists st0 st1 st2 st3,
  run ext_sample store_empty (take 1 ex_store) = Done st0 /\
  update_account admit_all st0 (acc5 10 1) Processed = Done (st1, true) /\
  run ext_sample st1 [slt 11 10 Processed; slt 12 11 Processed] = Done st2 /\
  tracked_during ext_sample st1 [slt 11 10 Processed; slt 12 11 Processed] 5 /\
  process_slot admit_all st2 (SlotInfo 12 11 0) Confirmed = Done (st3, [acc5 10 1]) /\
  on_chain (st_slots st2) (SlotInfo 12 11 0) Confirmed 10 /\ version_at st3 5 Confirmed = Some (acc5 10 1).
Proof.
  set (h0 := take 1 ex_store). set (h2 := take 2 ex_store ++ [slt 11 10 Processed; slt 12 11 Processed]).
  exists (final h0), (final (take 2 ex_store)), (final h2), (after (process_slot admit_all (final h2) (SlotInfo 12 11 0) Confirmed)).
  split; [crunch|]. split; [crunch|]. split; [crunch|]. split.
  { apply (prefix_states _ _ _ _ true). crunch. }
  split; [crunch|]. split; [|crunch].
  set (ss := fun t => default (Status Processed ∅ None) (st_slots (final h2) !! t)).
  apply (chain_up _ _ _ 11 10 (ss 10)); [|done|crunch|crunch|by intros H; vm_compute in H].
  apply (chain_up _ _ _ 12 11 (ss 11)); [|done|crunch|crunch|by intros H; vm_compute in H].
  apply (chain_start _ (SlotInfo 12 11 0) _ (ss 12)); [crunch|by intros H; vm_compute in H].
Qed.

(** C25, full statement: a version changed at a commitment was written in an announced ancestor.
    False: a missing ancestor is recorded with the parent of the announced slot, so a later
    finalization of a sibling climbs into the abandoned branch. *)
Theorem C25_forks_not_committed_refuted : exists E h st a,
  run E store_empty h = Done st /\ last h = Some (slt 13 10 Finalized) /\
  version_at st (d_pubkey a) Finalized = Some a /\ (forall st0, run E store_empty (removelast h) = Done st0 -> version_at st0 (d_pubkey a) Finalized = None) /\
  ~ ancestor h 13 (d_slot a).
Proof.
  set (h := [slt 11 10 Processed; upd (acc5 11 1) Processed; slt 12 11 Processed; slt 12 11 Confirmed; slt 13 10 Processed; slt 13 10 Finalized]).
  exists ext_sample, h, (final h), (acc5 11 1). split; [crunch|]. split; [done|]. split; [crunch|]. split.
  - assert (run ext_sample store_empty (removelast h) = Done (final (removelast h))) as -> by crunch.
    intros st0 [= <-]. crunch.
  - intros Hanc. assert (forall x y, rtc (announced h) x y -> x = 13 \/ x = 10 -> y = 13 \/ y = 10) as Hinv.
    { induction 1 as [x|x y z Hxy _ IH]; [done|]. intros Hx. apply IH.
      destruct Hxy as (F & si & c & Hin & <- & <-). unfold h, slt, upd in Hin. rewrite !elem_of_cons, elem_of_nil in Hin.
      destruct_or?; simplify_eq; simpl in *; auto; lia. }
    destruct (Hinv _ _ Hanc) as [H|H]; [by left|done|done].
Qed.
Print Assumptions C25_forks_not_committed_refuted.
(** Proved part: only slots on the chain recorded by the store are committed. *)
Theorem C25_only_recorded_chain_committed_partial : forall E F st si c st' out pk k a,
  reachable E st -> process_slot F st si c = Done (st', out) ->
  version_at st' pk k = Some a -> version_at st pk k <> Some a ->
  on_chain (st_slots st) si c (d_slot a) /\ wrote st (d_slot a) pk /\ k <> Processed /\ at_least k c.
Proof. intros E F st si c st' out pk k a Hr. apply slot_changes. by eapply reachable_ok. Qed.
Print Assumptions C25_only_recorded_chain_committed_partial.
Example C25_example_hyps : exists st st' out, run ext_sample store_empty (take 8 ex_store) = Done st /\
  process_slot admit_all st (SlotInfo 12 10 0) Confirmed = Done (st', out) /\
  version_at st' 5 Confirmed = Some (acc5 12 4) /\ version_at st 5 Confirmed = None.
Proof.
  exists (final (take 8 ex_store)), (final (take 9 ex_store)),
    (result_of [] (process_slot admit_all (final (take 8 ex_store)) (SlotInfo 12 10 0) Confirmed)). split_and!; crunch.
Qed.

(** C26, slot notifications: always harmless. *)
Theorem C26_slot_redelivery_harmless : forall E F F' st si c st1 out,
  reachable E st -> process_slot F st si c = Done (st1, out) -> process_slot F' st1 si c = Done (st1, []).
Proof. intros E F F' st si c st1 out Hr. apply slot_again. by eapply reachable_ok. Qed.
Print Assumptions C26_slot_redelivery_harmless.
(** C26, updates.  Proved part: the account was tracked, or the commitment recorded for its slot is
    the delivered one; and it is still tracked or no longer wanted. *)
Theorem C26_update_redelivery_harmless_partial : forall E F F' st a c st1 r,
  reachable E st -> update_account F st a c = Done (st1, r) ->
  (tracked st (d_pubkey a) \/ c = Finalized \/ forall k, slot_commit st (d_slot a) = Some k -> k = c) ->
  (tracked st1 (d_pubkey a) \/ fl_sat F' a = false) ->
  update_account F' st1 a c = Done (st1, false).
Proof.
  intros E F F' st a c st1 r Hr Hu H1 H2. eapply redeliver; [by eapply reachable_ok|exact Hu|done|].
  destruct H1 as [?|[-> |Hk]]; [by left|by right|right]. unfold effective, slot_commit in *.
  destruct c; [|  |done]; (destruct (st_slots st !! d_slot a) as [ss|]; [by apply Hk|done]).
Qed.
Print Assumptions C26_update_redelivery_harmless_partial.
Example C26_example_hyps : exists st st1, run ext_sample store_empty ex_store = Done st /\
  st_index st !! 5 = Some 0%nat /\ update_account admit_all st (acc5 13 9) Processed = Done (st1, true) /\
  st_index st1 !! 5 = Some 0%nat.
Proof. exists (final ex_store), (after (update_account admit_all (final ex_store) (acc5 13 9) Processed)). split_and!; crunch. Qed.
(** Missing part is false: redelivery of a new account for a slot already confirmed publishes it;
    redelivery of a close inserts the closed account again. *)
Theorem C26_update_redelivery_refuted : exists E F st a c st1 st2,
  reachable E st /\ update_account F st a c = Done (st1, true) /\ update_account F st1 a c = Done (st2, true) /\
  version_at st1 (d_pubkey a) Confirmed = None /\ version_at st2 (d_pubkey a) Confirmed = Some a.
Proof.
  set (h := [slt 10 9 Processed; slt 10 9 Confirmed]).
  exists ext_sample, admit_all, (final h), (acc5 10 1), Processed, (final (h ++ [upd (acc5 10 1) Processed])),
    (final (h ++ [upd (acc5 10 1) Processed; upd (acc5 10 1) Processed])).
  split; [exists h; crunch|]. split_and!; crunch.
Qed.
Print Assumptions C26_update_redelivery_refuted.
Theorem C26_close_redelivery_refuted : exists E F st a st1 st2,
  reachable E st /\ update_account F st a Finalized = Done (st1, true) /\ update_account F st1 a Finalized = Done (st2, true) /\
  ~ tracked st1 (d_pubkey a) /\ version_at st2 (d_pubkey a) Finalized = Some a /\ ~ alive a.
Proof.
  set (h := [upd (acc5 10 1) Finalized]).
  exists ext_sample, admit_all, (final h), (closed5 11 1), (final (h ++ [upd (closed5 11 1) Finalized])),
    (final (h ++ [upd (closed5 11 1) Finalized; upd (closed5 11 1) Finalized])).
  split; [exists h; crunch|]. split; [crunch|]. split; [crunch|]. split; [|split; [crunch|unfold alive; simpl; lia]].
  intros [x Hx]. vm_compute in Hx. done.
Qed.
Print Assumptions C26_close_redelivery_refuted.

(** C27: reports are exactly the changes, once each. *)
Theorem C27_reports_exact : forall E F st si c st' out,
  reachable E st -> process_slot F st si c = Done (st', out) ->
  NoDup (map d_pubkey out) /\
  (forall a, a ∈ out -> tracked st (d_pubkey a) /\
     (version_at st' (d_pubkey a) c = Some a \/
       (~ tracked st' (d_pubkey a) /\ c = Finalized /\ (~ alive a \/ fl_sat F a = false))) /\
     forall x, version_at st (d_pubkey a) c = Some x -> d_slot x < d_slot a) /\
  (forall pk, version_at st' pk c <> version_at st pk c ->
     exists a, a ∈ out /\ d_pubkey a = pk /\ (version_at st' pk c = Some a \/ ~ tracked st' pk)).
Proof. intros E F st si c st' out Hr. apply slot_reports. by eapply reachable_ok. Qed.
Print Assumptions C27_reports_exact.
Example C27_example_hyps : exists st st' out, run ext_sample store_empty (take 8 ex_store) = Done st /\
  process_slot admit_all st (SlotInfo 12 10 0) Confirmed = Done (st', out) /\ map d_pubkey out = [5; 6; 4].
Proof.
  exists (final (take 8 ex_store)), (final (take 9 ex_store)),
    (result_of [] (process_slot admit_all (final (take 8 ex_store)) (SlotInfo 12 10 0) Confirmed)). split_and!; crunch.
Qed.

(** C28: the walk over ancestors ends for every parent graph: more steps change nothing. *)
Theorem C28_slot_processing_terminates : forall (sl : gmap N status) (si : slot_info) (c : commitment),
  exists r, forall fuel, (S (size sl) <= fuel)%nat ->
    slot_walk fuel sl ∅ (si_slot si) (Some (si_parent si)) (si_parent si) c = Some r.
Proof.
  intros sl si c.
  destruct (slot_walk_total (S (size sl)) sl ∅ (si_slot si) (Some (si_parent si)) (si_parent si) c) as [r Hr].
  { pose proof (below_size sl c). lia. }
  exists r. intros fuel Hf. replace fuel with (S (size sl) + (fuel - S (size sl)))%nat by lia. by apply slot_walk_more.
Qed.
Print Assumptions C28_slot_processing_terminates.
(** A parent graph with a cycle. *)
Example C28_example_hyps :
  let sl := <[10 := Status Processed ∅ (Some 11)]> (<[11 := Status Processed ∅ (Some 10)]> ∅) : gmap N status in
  match slot_walk (S (size sl)) sl ∅ 10 (Some 11) 11 Confirmed with
  | Some (sl', _) => option_map ss_commit (sl' !! 10) = Some Confirmed /\ option_map ss_commit (sl' !! 11) = Some Confirmed
  | None => False end.
Proof. by vm_compute. Qed.
Theorem C28_no_bookkeeping_below_finalized : forall E F st si st' out t,
  reachable E st -> process_slot F st si Finalized = Done (st', out) -> t < si_slot si -> st_slots st' !! t = None.
Proof.
  intros E F st si st' out t Hr H Ht. destruct (process_slot_spec F st si Finalized (reachable_ok _ _ Hr)) as (st1 & sl & wa & H1 & Hph & Hsl & _).
  rewrite H1 in H. injection H as <- <-. rewrite Hsl. destruct (slot_phase_spec _ _ _ _ _ Hph) as (_ & _ & _ & _ & Hg). by apply Hg.
Qed.
Print Assumptions C28_no_bookkeeping_below_finalized.
Example C28_example_pruned : exists st st' out, run ext_sample store_empty ex_store = Done st /\
  process_slot admit_all st (SlotInfo 12 10 0) Finalized = Done (st', out) /\
  is_Some (st_slots st !! 11) /\ st_slots st' !! 11 = None.
Proof.
  exists (final ex_store), (final (ex_store ++ [slt 12 10 Finalized])),
    (result_of [] (process_slot admit_all (final ex_store) (SlotInfo 12 10 0) Finalized)).
  split; [crunch|]. split; [crunch|]. split; [eexists; by vm_compute|crunch].
Qed.
