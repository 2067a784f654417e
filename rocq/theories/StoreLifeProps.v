(** Theorems about closing, late and repeated writes in the account store (C30-C35). *)
From Verif Require Import Base SMap DataModel FilterModel FilterSpec FilterProofs FilterProps BincodeModel
  ByCommitModel ByCommitSpec ByCommitProofs StoreModel StoreSpec StoreProofs StoreSlot StoreViews StoreHist StoreEffects
  StoreProps.

(** C30, first half: finalizing a close (or an account leaving the filters) that changes the owner
    removes the account at every commitment and from every program query. *)
Theorem C30_finalized_close_removes : forall E F st si st' out a prev,
  reachable E st -> process_slot F st si Finalized = Done (st', out) -> a ∈ out ->
  version_at st (d_pubkey a) Finalized = Some prev -> d_owner prev <> d_owner a -> (~ alive a \/ fl_sat F a = false) ->
  forall k, get_account st' (d_pubkey a) k = Done (ROk None) /\
    forall E' F' p fl l b, get_program_accounts E' F' st' p fl k = Done (ROk l) -> b ∈ l -> d_pubkey b <> d_pubkey a.
Proof.
  intros E F st si st' out a prev Hr H Hin Hprev Ho Hd k. pose proof (reachable_ok _ _ Hr) as Hok.
  assert (~ tracked st' (d_pubkey a)) as Hn by (by eapply slot_close).
  assert (st_ok st') as Hok'. { destruct (process_slot_spec F st si Finalized Hok) as (st1 & ? & ? & H1 & _ & _ & Hse).
    rewrite H1 in H. injection H as <- <-. apply (se_ok _ _ _ _ _ _ Hse). }
  split; [|intros E' F' p fl l b].
  - apply (untracked_gone st' E F 0 None k _ [] a Hok' Hn).
  - apply (untracked_gone st' E' F' p fl k _ l b Hok' Hn).
Qed.
Print Assumptions C30_finalized_close_removes.
Definition ex_close : list (filt * op) :=
  [upd (acc5 10 1) Finalized; slt 11 10 Processed; upd (closed5 11 1) Processed].
Example C30_example_hyps : exists st st' out, run ext_sample store_empty ex_close = Done st /\
  process_slot admit_all st (SlotInfo 11 10 0) Finalized = Done (st', out) /\ out = [closed5 11 1] /\
  version_at st 5 Finalized = Some (acc5 10 1) /\ d_owner (acc5 10 1) <> d_owner (closed5 11 1) /\ ~ alive (closed5 11 1).
Proof.
  exists (final ex_close), (final (ex_close ++ [slt 11 10 Finalized])), [closed5 11 1].
  split; [crunch|]. split; [crunch|]. split; [done|]. split; [crunch|]. split; [done|]. unfold alive. simpl. lia.
Qed.
(** The same for a close delivered directly as finalized (or for a slot known as finalized). *)
Theorem C30_finalized_close_update_removes : forall E F st a c st' r prev,
  reachable E st -> update_account F st a c = Done (st', r) ->
  (c = Finalized \/ slot_commit st (d_slot a) = Some Finalized) ->
  version_at st (d_pubkey a) Finalized = Some prev -> d_slot prev < d_slot a ->
  d_owner prev <> d_owner a -> (~ alive a \/ fl_sat F a = false) ->
  forall k, get_account st' (d_pubkey a) k = Done (ROk None).
Proof.
  intros E F st a c st' r prev Hr H Hc Hprev Hlt Ho Hd k. pose proof (reachable_ok _ _ Hr) as Hok.
  rewrite get_account_total by (by eapply update_ok). rewrite version_at_untracked; [done|].
  eapply update_close; [done|done| |done..]. unfold effective. destruct Hc as [-> |Hc]; [done|].
  unfold slot_commit in Hc. destruct (st_slots st !! d_slot a); [|done]. simpl in Hc. by destruct c; congruence.
Qed.
Print Assumptions C30_finalized_close_update_removes.
Example C30_example_update_hyps : exists st st', run ext_sample store_empty (take 1 ex_close) = Done st /\
  update_account admit_all st (closed5 11 1) Finalized = Done (st', true) /\ version_at st 5 Finalized = Some (acc5 10 1).
Proof. exists (final (take 1 ex_close)), (final (take 1 ex_close ++ [upd (closed5 11 1) Finalized])). split_and!; crunch. Qed.
(** C30, second half ("an account re-created before the close is finalized is not lost"): false. *)
Theorem C30_recreated_account_lost_refuted : exists E h F st si st' out a,
  run E store_empty h = Done st /\ version_at st (d_pubkey a) Processed = Some a /\ alive a /\ si_slot si < d_slot a /\
  process_slot F st si Finalized = Done (st', out) /\ forall k, get_account st' (d_pubkey a) k = Done (ROk None).
Proof.
  set (h := ex_close ++ [slt 12 11 Processed; upd (acc5 12 1) Processed]).
  exists ext_sample, h, admit_all, (final h), (SlotInfo 11 10 0), (final (h ++ [slt 11 10 Finalized])), [closed5 11 1], (acc5 12 1).
  split; [crunch|]. split; [crunch|]. split; [unfold alive; simpl; lia|]. split; [simpl; lia|]. split; [crunch|].
  intros []; crunch.
Qed.
Print Assumptions C30_recreated_account_lost_refuted.
(** What survives: if the close does not change the owner, nothing newer is lost. *)
Theorem C30_same_owner_close_keeps_newer_partial : forall E F st si st' out a prev x,
  reachable E st -> process_slot F st si Finalized = Done (st', out) -> a ∈ out ->
  version_at st (d_pubkey a) Finalized = Some prev -> d_owner prev = d_owner a ->
  version_at st (d_pubkey a) Processed = Some x -> version_at st' (d_pubkey a) Processed = Some x.
Proof.
  intros E F st si st' out a prev x Hr H Hin Hprev Ho Hx. pose proof (reachable_ok _ _ Hr) as Hok.
  assert (tracked st (d_pubkey a)) as Ht by (apply tracked_processed; [done|by rewrite Hx]).
  destruct (slot_view F st si Finalized st' out _ Hok H Ht) as (i & b & wa & sl & Hi & Hb & Hbc & _ & _ & Hv & Hcase).
  rewrite Hv in Hx. destruct Hcase as [(_ & _ & Hv')|[(s & _ & _ & Hv')|(s & a' & prev' & Hs & Hn & Hrep & _ & Hd & Hin')]].
  - by rewrite Hv'.
  - rewrite Hv'. destruct (bc_promote b s Finalized) as [b2 r2] eqn:Hpr.
    destruct (promotion_report b s Finalized b2 r2 Hbc Hpr) as [Hp2 _]. cbn [fst]. by rewrite Hp2.
  - exfalso. destruct (slot_reports F st si Finalized st' out Hok H) as (_ & _ & _).
    pose proof (promote_report_in _ _ _ _ _ Hrep) as (Hg & Hprev' & _).
    rewrite Hv in Hprev. rewrite Hprev in Hprev'. injection Hprev' as <-.
    apply drops_true in Hd as (_ & Hne & _).
    assert (a = a') as ->; [|done].
    assert (d_pubkey a' = d_pubkey a) as Hpk. { destruct (so_pk _ Hok _ _ _ Hi Hb) as [[Hall _] _]. by eapply Hall. }
    destruct (slot_reports F st si Finalized st' out Hok H) as (Hnd & _ & _). clear - Hnd Hin Hin' Hpk.
    induction out as [|y out IH]; [by apply elem_of_nil in Hin|]. apply NoDup_cons in Hnd as [Hy Hnd].
    apply elem_of_cons in Hin as [->|Hin], Hin' as [->|Hin']; [done| | |by apply IH].
    + exfalso. apply Hy. rewrite <- Hpk. apply elem_of_list_fmap. by exists a'.
    + exfalso. apply Hy. rewrite Hpk. apply elem_of_list_fmap. by exists a.
Qed.
Print Assumptions C30_same_owner_close_keeps_newer_partial.
Definition ex_close_same : list (filt * op) :=
  [upd (acc5 10 1) Finalized; slt 11 10 Processed; upd (mk_acct 5 7 0 [] 11 1) Processed; upd (acc5 12 1) Processed].
Example C30_example_same_owner : exists st st', run ext_sample store_empty ex_close_same = Done st /\
  process_slot admit_all st (SlotInfo 11 10 0) Finalized = Done (st', [mk_acct 5 7 0 [] 11 1]) /\
  version_at st 5 Finalized = Some (acc5 10 1) /\ version_at st 5 Processed = Some (acc5 12 1).
Proof. exists (final ex_close_same), (final (ex_close_same ++ [slt 11 10 Finalized])). split_and!; crunch. Qed.

(** C31, full statement false: a stale finalized delivery with another owner hides the account
    from program queries, or removes it when it is closed. *)
Theorem C31_stale_delivery_hides_refuted : exists E F st a y st' r,
  reachable E st /\ version_at st (d_pubkey a) Finalized = Some y /\ d_slot a < d_slot y /\
  update_account F st a Finalized = Done (st', r) /\
  get_program_accounts E F st (d_owner y) None Finalized = Done (ROk [y]) /\
  get_program_accounts E F st' (d_owner y) None Finalized = Done (ROk []) /\ version_at st' (d_pubkey a) Finalized = Some y.
Proof.
  set (h := [upd (acc5 10 1) Finalized]).
  exists ext_sample, admit_all, (final h), (mk_acct 5 8 1 [] 9 1), (acc5 10 1), (final (h ++ [upd (mk_acct 5 8 1 [] 9 1) Finalized])), true.
  split; [exists h; crunch|]. split; [crunch|]. split; [simpl; lia|]. split_and!; crunch.
Qed.
Print Assumptions C31_stale_delivery_hides_refuted.
Theorem C31_stale_close_removes_refuted : exists E F st a y st' r,
  reachable E st /\ version_at st (d_pubkey a) Finalized = Some y /\ alive y /\ d_slot a < d_slot y /\
  update_account F st a Finalized = Done (st', r) /\ forall k, get_account st' (d_pubkey a) k = Done (ROk None).
Proof.
  set (h := [upd (acc5 10 1) Finalized]).
  exists ext_sample, admit_all, (final h), (closed5 9 1), (acc5 10 1), (final (h ++ [upd (closed5 9 1) Finalized])), true.
  split; [exists h; crunch|]. split; [crunch|]. split; [unfold alive; simpl; lia|]. split; [simpl; lia|]. split; [crunch|].
  intros []; crunch.
Qed.
Print Assumptions C31_stale_close_removes_refuted.
(** Proved part: same owner as the finalized version, or not applied as finalized. *)
Theorem C31_stale_delivery_harmless_partial : forall E F st a c st' r y,
  reachable E st -> update_account F st a c = Done (st', r) ->
  version_at st (d_pubkey a) Finalized = Some y -> d_slot a < d_slot y ->
  (d_owner a = d_owner y \/ (c <> Finalized /\ slot_commit st (d_slot a) <> Some Finalized)) ->
  (forall pk k, version_at st' pk k = version_at st pk k /\ get_account st' pk k = get_account st pk k) /\
  (forall F' p fl k l l' b,
     get_program_accounts E F' st p fl k = Done (ROk l) -> get_program_accounts E F' st' p fl k = Done (ROk l') ->
     b ∈ l -> b ∈ l').
Proof.
  intros E F st a c st' r y Hr H Hy Hlt Ho. pose proof (reachable_ok _ _ Hr) as Hok.
  pose proof (update_ok _ _ _ _ _ _ Hok H) as Hok'.
  destruct (stale_update F st a c st' r y Hok H Hy Hlt) as (Hv & Hown & Hacc & _).
  { destruct Ho as [?|[Hc Hs]]; [by left|right]. unfold effective, slot_commit in *.
    destruct c; [| |done]; (destruct (st_slots st !! d_slot a); [simpl in Hs; congruence|done]). }
  split.
  - intros pk k. split; [done|]. rewrite !get_account_total by done. by rewrite Hv.
  - intros F' p fl k l l' b Hl Hl' Hin. apply gpa_inv in Hl as (_ & Hl & _). apply gpa_inv in Hl' as (_ & Hl' & _).
    apply Hl in Hin as (i & bi & li & Hi & Hbi & Hli & Hin). apply Hl'.
    destruct (Hacc _ _ Hbi) as (b' & Hb' & Hg). exists i, b', li. split_and!; [auto|done| |done].
    by rewrite (gpa_entry_ext E bi b').
Qed.
Print Assumptions C31_stale_delivery_harmless_partial.
Example C31_example_hyps : exists st st', run ext_sample store_empty [upd (acc5 10 1) Finalized] = Done st /\
  update_account admit_all st (acc5 9 1) Finalized = Done (st', true) /\ version_at st 5 Finalized = Some (acc5 10 1).
Proof. exists (final [upd (acc5 10 1) Finalized]), (final [upd (acc5 10 1) Finalized; upd (acc5 9 1) Finalized]). split_and!; crunch. Qed.

(** C32, tracked accounts: a write for a slot with a recorded commitment is served at it.
    (Missing part: accounts not tracked before, refuted below.) *)
Theorem C32_late_write_served_partial : forall E F st a c st' r k,
  reachable E st -> update_account F st a c = Done (st', r) -> c <> Finalized ->
  slot_commit st (d_slot a) = Some k -> tracked st (d_pubkey a) -> tracked st' (d_pubkey a) ->
  exists x, version_at st' (d_pubkey a) k = Some x /\ (k <> Processed -> version_le a x) /\ d_slot a <= d_slot x.
Proof.
  intros E F st a c st' r k Hr H Hc Hk Ht Ht'. eapply update_reads; [by eapply reachable_ok|exact H|done| |done].
  intros _. unfold slot_commit in Hk. unfold effective, at_least. destruct (st_slots st !! d_slot a); [|done].
  simpl in Hk. injection Hk as ->. destruct c; [| |done]; lia.
Qed.
Print Assumptions C32_late_write_served_partial.
Definition ex_late : list (filt * op) := [upd (acc5 9 1) Processed; slt 10 9 Processed; slt 10 9 Confirmed].
Example C32_example_hyps : exists st st', run ext_sample store_empty ex_late = Done st /\
  update_account admit_all st (acc5 10 2) Processed = Done (st', true) /\ slot_commit st 10 = Some Confirmed /\
  version_at st' 5 Confirmed = Some (acc5 10 2).
Proof. exists (final ex_late), (final (ex_late ++ [upd (acc5 10 2) Processed])). split_and!; crunch. Qed.
Theorem C32_late_write_new_account_refuted : exists E F st a st',
  reachable E st /\ slot_commit st (d_slot a) = Some Confirmed /\ update_account F st a Processed = Done (st', true) /\
  version_at st' (d_pubkey a) Confirmed = None.
Proof.
  set (h := [slt 10 9 Processed; slt 10 9 Confirmed]).
  exists ext_sample, admit_all, (final h), (acc5 10 2), (final (h ++ [upd (acc5 10 2) Processed])).
  split; [exists h; crunch|]. split_and!; crunch.
Qed.
Print Assumptions C32_late_write_new_account_refuted.

(** C33: finalized deliveries; deliveries of new accounts; deliveries for a slot not recorded or
    recorded at the same or a stronger commitment.  (Missing: slots recorded at a weaker one.) *)
Theorem C33_delivery_served_partial : forall E F st a c st' r,
  reachable E st -> update_account F st a c = Done (st', r) -> c <> Processed -> tracked st' (d_pubkey a) ->
  (c = Finalized \/ ~ tracked st (d_pubkey a) \/ forall k, slot_commit st (d_slot a) = Some k -> at_least c k) ->
  exists x, version_at st' (d_pubkey a) c = Some x /\ version_le a x.
Proof.
  intros E F st a c st' r Hr H Hc Ht' Hcase.
  destruct (update_reads F st a c st' r c (reachable_ok _ _ Hr) H Ht') as (x & Hx & Hle & _).
  - intros Ht. unfold effective, at_least. destruct Hcase as [-> |[?|Hk]]; [done|done|].
    unfold slot_commit in Hk. destruct (st_slots st !! d_slot a) as [ss|]; simpl in Hk.
    + specialize (Hk _ eq_refl). unfold at_least in Hk. by destruct c.
    + destruct c; simpl; lia.
  - intros _. unfold at_least. lia.
  - exists x. auto.
Qed.
Print Assumptions C33_delivery_served_partial.
Example C33_example_hyps : exists st st', run ext_sample store_empty ex_late = Done st /\
  update_account admit_all st (acc5 10 2) Confirmed = Done (st', true) /\ slot_commit st 10 = Some Confirmed /\ slot_commit st 11 = None.
Proof. exists (final ex_late), (final (ex_late ++ [upd (acc5 10 2) Confirmed])). split_and!; crunch. Qed.
(** A delivery that removes its account was finalized and replaced a version of another owner. *)
Theorem C33_dropped_only_when_finalized : forall E F st a c st' r,
  reachable E st -> update_account F st a c = Done (st', r) -> tracked st (d_pubkey a) -> ~ tracked st' (d_pubkey a) ->
  (~ alive a \/ fl_sat F a = false) /\ (c = Finalized \/ slot_commit st (d_slot a) = Some Finalized) /\
  exists prev, version_at st (d_pubkey a) Finalized = Some prev /\ d_owner prev <> d_owner a.
Proof.
  intros E F st a c st' r Hr H Ht Ht'. destruct (update_self F st a c st' r (reachable_ok _ _ Hr) H) as (_ & H2 & _).
  destruct (H2 Ht Ht') as (_ & He & prev & Hprev & Hd). apply drops_true in Hd as (_ & Ho & Hd). split_and!.
  - destruct Hd as [Hd|Hd]; [left|by right]. intros Hal. apply is_deleted_alive in Hal. congruence.
  - unfold effective, slot_commit in *. destruct c; [right|right|by left]; (destruct (st_slots st !! d_slot a); [simpl; congruence|done]).
  - eauto.
Qed.
Print Assumptions C33_dropped_only_when_finalized.
Example C33_example_dropped : exists st st', run ext_sample store_empty (take 1 ex_close) = Done st /\
  update_account admit_all st (closed5 11 1) Finalized = Done (st', true) /\ st_index st !! 5 = Some 0%nat /\ st_index st' !! 5 = None.
Proof. exists (final (take 1 ex_close)), (final (take 1 ex_close ++ [upd (closed5 11 1) Finalized])). split_and!; crunch. Qed.
Theorem C33_confirmed_delivery_not_served_refuted : exists E F st a st',
  reachable E st /\ update_account F st a Confirmed = Done (st', true) /\ version_at st' (d_pubkey a) Confirmed = None.
Proof.
  set (h := [upd (acc5 10 1) Processed]).
  exists ext_sample, admit_all, (final h), (acc5 10 2), (final (h ++ [upd (acc5 10 2) Confirmed])).
  split; [exists h; crunch|]. split_and!; crunch.
Qed.
Print Assumptions C33_confirmed_delivery_not_served_refuted.

(** C34, full statement false: a slot whose version was already published at the commitment keeps
    it although a later write of the slot is known. *)
Theorem C34_last_write_of_slot_refuted : exists E h st a,
  run E store_empty h = Done st /\ last h = Some (slt (d_slot a) 9 Confirmed) /\ (admit_all, OUpdate a Processed) ∈ h /\
  exists x, version_at st (d_pubkey a) Confirmed = Some x /\ d_slot x = d_slot a /\ d_wv x < d_wv a.
Proof.
  set (h := [slt 10 9 Processed; upd (acc5 10 1) Confirmed; upd (acc5 10 2) Processed; slt 10 9 Confirmed]).
  exists ext_sample, h, (final h), (acc5 10 2). split; [crunch|]. split; [done|]. split; [do 2 right; left|].
  exists (acc5 10 1). split; [crunch|]. simpl. lia.
Qed.
Print Assumptions C34_last_write_of_slot_refuted.
(** Proved part: when committing newly publishes a version of slot [s], it has the greatest write
    version of all deliveries for [s] since the account is tracked.  (Missing: a version of [s]
    was already published at the commitment.) *)
Theorem C34_last_write_of_slot_wins_partial : forall E st0 F0 a c0 st1 r h st2 F si c st3 out x,
  reachable E st0 -> update_account F0 st0 a c0 = Done (st1, r) ->
  run E st1 h = Done st2 -> (forall F p b, (F, OLoad p b) ∉ h) -> tracked_during E st1 h (d_pubkey a) ->
  process_slot F st2 si c = Done (st3, out) ->
  version_at st3 (d_pubkey a) c = Some x -> d_slot x = d_slot a ->
  (forall y, version_at st2 (d_pubkey a) c = Some y -> d_slot y < d_slot a) ->
  d_wv a <= d_wv x.
Proof.
  intros E st0 F0 a c0 st1 r h st2 F si c st3 out x Hr Hu Hrun Hno Htr Hs Hx Hxs Hold.
  pose proof (reachable_ok _ _ Hr) as Hok0. pose proof (update_ok _ _ _ _ _ _ Hok0 Hu) as Hok1.
  assert (st_kept st1) as HK1. { eapply kept_upd; [exact Hok0|by eapply reachable_kept|exact Hu]. }
  assert (entry_has (has_write (d_slot a) (d_wv a)) st1 (d_pubkey a)) as HW1.
  { assert (tracked st1 (d_pubkey a)) as Ht by (by apply (Htr [] h)). intros i b Hi Hb.
    apply update_account_inv in Hu; [|done].
    destruct Hu as [Hi0 Hs0|sl' cx Hi0 Hs0 Hadd|j bj sl' c' b' u ow' Hj Hbj Hadd Hu Hud Hud0|j bj sl' c' b' prev ow' Hj Hbj Hadd Hu Hprev Hud];
      simpl in *.
    - congruence.
    - rewrite lookup_insert in Hi. injection Hi as <-. rewrite lookup_app_r, Nat.sub_diag in Hb by lia. injection Hb as <-.
      rewrite bc_new_update. apply has_write_self.
    - rewrite Hj in Hi. injection Hi as <-. assert (j < length (st_accounts st0))%nat by (by eapply so_bound).
      rewrite list_lookup_insert in Hb by done. injection Hb as <-.
      assert (b' = (bc_update bj a c').1) as -> by (by rewrite Hu). apply has_write_self.
    - by rewrite lookup_delete in Hi. }
  assert (st_ok st2 /\ st_kept st2 /\ entry_has (has_write (d_slot a) (d_wv a)) st2 (d_pubkey a)) as (Hok2 & HK2 & HW2).
  { clear - Hok1 HK1 HW1 Hrun Hno Htr. revert st1 Hok1 HK1 HW1 Hrun Htr.
    induction h as [|[F o] h IH]; intros st1 Hok1 HK1 HW1 Hrun Htr; simpl in Hrun; [by injection Hrun as <-|].
    destruct (step E F st1 o) as [[st r]|] eqn:Hs; simpl in Hrun; [|done].
    assert (tracked st1 (d_pubkey a)) as Ht1 by (by apply (Htr [] ((F, o) :: h))).
    assert (tracked st (d_pubkey a)) as Ht. { apply (Htr [(F, o)] h); [done|]. simpl. by rewrite Hs. }
    apply (IH) with st; [| | | |done|].
    - intros F0 p b Hin. eapply Hno. right. exact Hin.
    - by eapply step_ok.
    - eapply (kept_run E [(F, o)] st1); [done|done|]. simpl. by rewrite Hs.
    - destruct o as [y k|y|q k|p fl k|si k|p|p b]; simpl in Hs.
      + destruct (update_account F st1 y k) as [[s1 r1]|] eqn:H; simpl in Hs; [|done]. injection Hs as <- <-. by eapply has_write_upd_store.
      + unfold init_account in Hs. destruct (update_account F st1 y Finalized) as [[s1 r1]|] eqn:H; simpl in Hs; [|done].
        injection Hs as <- <-. by eapply has_write_upd_store.
      + destruct (get_account st1 q k); simpl in Hs; [|done]. by injection Hs as <- <-.
      + destruct (get_program_accounts E F st1 p fl k); simpl in Hs; [|done]. by injection Hs as <- <-.
      + destruct (process_slot F st1 si k) as [[s1 l]|] eqn:H; simpl in Hs; [|done]. injection Hs as <- <-.
        by eapply has_write_slot_store.
      + destruct (create_snapshot E F st1 p); simpl in Hs; [|done]. by injection Hs as <- <-.
      + exfalso. eapply Hno. left.
    - intros h1 h2 st' -> H2. apply (Htr ((F, o) :: h1) h2); [done|]. simpl. by rewrite Hs. }
  assert (tracked st2 (d_pubkey a)) as Ht2 by (apply (Htr h []); [by rewrite app_nil_r|done]).
  destruct (slot_view F st2 si c st3 out _ Hok2 Hs Ht2) as (i & b & wa & sl & Hi & Hb & Hbc & _ & _ & Hv & Hcase).
  assert (forall y, bc_get b c = Some y -> d_slot y < d_slot a) as Hold'. { intros y Hy. apply Hold. by rewrite Hv. }
  destruct Hcase as [(_ & _ & Hv')|[(s & _ & _ & Hv')|(s & a' & prev' & Hs' & Hn & _)]].
  - rewrite Hv' in Hx. specialize (Hold' _ Hx). lia.
  - rewrite Hv' in Hx. destruct (bc_promote b s c) as [b2 r2] eqn:Hpr.
    destruct (promotion_report b s c b2 r2 Hbc Hpr) as (_ & Hrep & _). simpl in Hx.
    destruct r2 as [[y prev]|]; cycle 1.
    { rewrite Hrep in Hx. specialize (Hold' _ Hx). lia. }
    destruct Hrep as (Hg & _). rewrite Hg in Hx. injection Hx as ->.
    assert ((bc_promote b s c).2 = Some (x, prev)) as Hr2 by (by rewrite Hpr).
    apply promote_report_in in Hr2 as (Hpx & _ & Hc). pose proof (ok_key _ Hbc _ _ Hpx) as Hkey.
    destruct (HW2 i b Hi Hb) as [(p & Hp & Hw)|(y & Hy & Hlt)].
    + rewrite <- Hxs, Hkey, Hpx in Hp. by injection Hp as ->.
    + exfalso. destruct (bc_ladder b Hbc) as [H1 _]. destruct (H1 _ Hy) as (xc & Hxc & Hle).
      destruct c; [done| |].
      * specialize (Hold' _ Hxc). lia.
      * specialize (Hold' _ Hy). lia.
  - rewrite (version_at_untracked _ _ _ Hn) in Hx. done.
Qed.
Print Assumptions C34_last_write_of_slot_wins_partial.
Definition ex_writes : list (filt * op) := [upd (acc5 11 4) Processed; upd (acc5 11 2) Processed; upd (acc5 9 9) Confirmed].
Example C34_example_hyps : exists st0 st1 st2 st3, run ext_sample store_empty [slt 11 10 Processed] = Done st0 /\
  update_account admit_all st0 (acc5 11 3) Processed = Done (st1, true) /\
  run ext_sample st1 ex_writes = Done st2 /\ tracked_during ext_sample st1 ex_writes 5 /\
  process_slot admit_all st2 (SlotInfo 11 10 0) Confirmed = Done (st3, [acc5 11 4]) /\
  version_at st3 5 Confirmed = Some (acc5 11 4) /\ version_at st2 5 Confirmed = Some (acc5 9 9).
Proof.
  set (h1 := [slt 11 10 Processed; upd (acc5 11 3) Processed]). set (h2 := h1 ++ ex_writes).
  exists (final (take 1 h1)), (final h1), (final h2), (final (h2 ++ [slt 11 10 Confirmed])).
  split; [crunch|]. split; [crunch|]. split; [crunch|]. split.
  { apply (prefix_states _ _ _ _ true). crunch. }
  split_and!; crunch.
Qed.

(** C35, full statement false: the processed view keeps showing a dead fork. *)
Theorem C35_dead_fork_leaves_processed_view_refuted : exists E h st a,
  run E store_empty h = Done st /\ last h = Some (slt 12 10 Finalized) /\ d_slot a <= 12 /\ ~ ancestor h 12 (d_slot a) /\
  get_account st (d_pubkey a) Processed = Done (ROk (Some a)).
Proof.
  set (h := [slt 10 9 Processed; upd (acc5 10 1) Processed; slt 11 10 Processed; upd (acc5 11 1) Processed;
             slt 12 10 Processed; slt 12 10 Finalized]).
  exists ext_sample, h, (final h), (acc5 11 1). split; [crunch|]. split; [done|]. split; [simpl; lia|]. split; [|crunch].
  intros Hanc. assert (forall x y, rtc (announced h) x y -> x = 12 \/ x = 10 \/ x = 9 -> y = 12 \/ y = 10 \/ y = 9) as Hinv.
  { induction 1 as [x|x y z Hxy _ IH]; [done|]. intros Hx. apply IH.
    destruct Hxy as (F & si & c & Hin & <- & <-). unfold h, slt, upd in Hin. rewrite !elem_of_cons, elem_of_nil in Hin.
    destruct_or?; simplify_eq; simpl in *; auto; lia. }
  destruct (Hinv _ _ Hanc) as [H|[H|H]]; [by left|done..].
Qed.
Print Assumptions C35_dead_fork_leaves_processed_view_refuted.
(** Proved part: the next write from a later slot replaces the fork's version.  (Missing: that
    finalization alone removes it.) *)
Theorem C35_later_write_replaces_fork_partial : forall E F st a c st' r y,
  reachable E st -> update_account F st a c = Done (st', r) -> tracked st' (d_pubkey a) ->
  version_at st (d_pubkey a) Processed = Some y -> d_slot y < d_slot a ->
  version_at st' (d_pubkey a) Processed = Some a.
Proof.
  intros E F st a c st' r y Hr H Ht' Hy Hlt. pose proof (reachable_ok _ _ Hr) as Hok.
  assert (tracked st (d_pubkey a)) as Ht by (apply tracked_processed; [done|by rewrite Hy]).
  destruct (update_self F st a c st' r Hok H) as (H1 & _). destruct (H1 Ht Ht') as (b & Hbc & _ & Hv & Hv' & _).
  rewrite Hv'. rewrite Hv in Hy. set (k := effective st a c). rewrite bc_update_unfold. unfold bc_get in *. simpl.
  destruct (last (bc_proc b)) as [[kl p]|] eqn:Hl.
  - injection Hy as ->. apply sm_last_spec in Hl as [Hg Hmax]; [|by apply ok_sorted].
    pose proof (ok_key _ Hbc _ _ Hg) as Hky.
    assert (sm_get (d_slot a) (bc_proc b) = None) as Hn.
    { destruct (sm_get (d_slot a) (bc_proc b)) as [q|] eqn:Hq; [|done]. specialize (Hmax _ _ Hq). lia. }
    assert (last (upd_proc b a) = Some (d_slot a, a)) as ->; [|done].
    apply sm_last_spec; [by apply upd_proc_sorted|]. unfold upd_proc. rewrite Hn. split.
    + apply sm_get_put. 
    + intros k' v Hk'. destruct (decide (k' = d_slot a)) as [->|Hne]; [lia|].
      rewrite sm_get_put_ne in Hk' by done. specialize (Hmax _ _ Hk'). lia.
  - destruct (ok_conf _ Hbc _ Hy) as (? & ? & ? & _). congruence.
Qed.
Print Assumptions C35_later_write_replaces_fork_partial.
Example C35_example_hyps : exists st st', run ext_sample store_empty [upd (acc5 11 1) Processed] = Done st /\
  update_account admit_all st (acc5 13 1) Processed = Done (st', true) /\ version_at st 5 Processed = Some (acc5 11 1).
Proof. exists (final [upd (acc5 11 1) Processed]), (final [upd (acc5 11 1) Processed; upd (acc5 13 1) Processed]). split_and!; crunch. Qed.
