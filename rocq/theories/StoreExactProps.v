(** What a delivery and a slot notification change in the reads of an account, exactly (C32-C35). *)
From Verif Require Import Base SMap DataModel FilterModel FilterSpec FilterProofs FilterProps BincodeModel
  ByCommitModel ByCommitSpec ByCommitProofs StoreModel StoreSpec StoreProofs StoreSlot StoreViews StoreHist StoreEffects
  StoreProps StoreLifeProps.

(** A delivery of [a] as [c] counts as delivered at [k]: finalized ones as finalized, the others at the commitment recorded for
    their slot, and as [c] if there is none. *)
Definition counts_as (st : store) (a : acct) (c k : commitment) : Prop :=
  (c = Finalized -> k = Finalized) /\ (c <> Finalized -> k = default c (slot_commit st (d_slot a))).
(** [old] shows a version at least as new as [a]. *)
Definition shows (old : option acct) (a : acct) : Prop := exists x, old = Some x /\ version_le a x.

Lemma counts_as_effective st a c k : counts_as st a c k -> k = effective st a c.
Proof.
  intros [H1 H2]. unfold effective, slot_commit in *. destruct c; [rewrite H2 by done|rewrite H2 by done|by apply H1]; by destruct (st_slots st !! d_slot a).
Qed.
Lemma newer_shows old a : newer old a = false <-> shows old a.
Proof.
  unfold shows, newer, version_le. destruct old as [x|]; [|split; [done|by intros (? & ? & ?)]].
  rewrite orb_false_iff, andb_false_iff, N.ltb_ge, N.eqb_neq, N.ltb_ge. split; [intros; exists x; split; [done|lia]|intros (y & [= <-] & ?); lia].
Qed.
(** The reads of one entry after an update. *)
Lemma upd_get b a k j : bc_ok b -> bc_proc b <> [] -> bc_get (bc_update b a k).1 j = if (rank j <=? rank k) && newer (bc_get b j) a then Some a else bc_get b j.
Proof.
  intros Hok Hne. assert (bc_get (bc_update b a k).1 Processed = if newer (bc_get b Processed) a then Some a else bc_get b Processed) as Hp.
  { rewrite bc_update_unfold. unfold bc_get. simpl. destruct (sm_last_nonempty _ Hne) as (kl & p & Hl). rewrite Hl. simpl.
    pose proof Hl as Hl'. apply sm_last_spec in Hl' as [Hg Hmax]; [|by apply ok_sorted]. pose proof (ok_key _ Hok _ _ Hg) as Hkp.
    assert (sm_sorted (upd_proc b a)) as Hs' by (by apply upd_proc_sorted).
    assert (last (upd_proc b a) = if (d_slot p <? d_slot a) || ((d_slot p =? d_slot a) && (d_wv p <? d_wv a)) then Some (d_slot a, a) else Some (kl, p)) as ->;
      [|by destruct ((d_slot p <? d_slot a) || _)].
    unfold upd_proc in *. destruct (N.lt_trichotomy (d_slot p) (d_slot a)) as [Hlt|[Heq|Hlt]].
    - assert (d_slot p <? d_slot a = true) as -> by (by apply N.ltb_lt). simpl.
      assert (sm_get (d_slot a) (bc_proc b) = None) as Hn by (destruct (sm_get (d_slot a) (bc_proc b)) as [q|] eqn:Hq; [specialize (Hmax _ _ Hq); lia|done]).
      rewrite Hn in *. apply sm_last_spec; [done|]. split; [apply sm_get_put|]. intros k' v Hk'. destruct (decide (k' = d_slot a)) as [->|Hd]; [lia|].
      rewrite sm_get_put_ne in Hk' by done. specialize (Hmax _ _ Hk'). lia.
    - assert (d_slot p <? d_slot a = false) as -> by (apply N.ltb_ge; lia). rewrite Heq, N.eqb_refl. simpl.
      assert (sm_get (d_slot a) (bc_proc b) = Some p) as Hgp by (rewrite <- Heq, Hkp; done). rewrite Hgp in *. destruct (d_wv p <? d_wv a); [|done].
      apply sm_last_spec; [done|]. split; [apply sm_get_put|]. intros k' v Hk'. destruct (decide (k' = d_slot a)) as [->|Hd]; [lia|].
      rewrite sm_get_put_ne in Hk' by done. specialize (Hmax _ _ Hk'). lia.
    - assert (d_slot p <? d_slot a = false) as -> by (apply N.ltb_ge; lia). assert (d_slot p =? d_slot a = false) as -> by (apply N.eqb_neq; lia). simpl.
      destruct (sm_get (d_slot a) (bc_proc b)) as [q|] eqn:Hq; [destruct (d_wv q <? d_wv a)|]; try done;
        (apply sm_last_spec; [done|]; split; [rewrite sm_get_put_ne by lia; done|]; intros k' v Hk'; destruct (decide (k' = d_slot a)) as [->|Hd]; [lia|];
         rewrite sm_get_put_ne in Hk' by done; by eapply Hmax). }
  destruct j; [rewrite Hp; by destruct k| |]; rewrite bc_update_unfold; unfold bc_get; simpl; by destruct k.
Qed.
Lemma read_nonempty b x : bc_ok b -> bc_get b Processed = Some x -> bc_proc b <> [].
Proof. intros Hok H Hn. unfold bc_get in H. rewrite Hn in H. simpl in H. destruct (ok_conf _ Hok _ H) as (? & ? & Hl & _). by rewrite Hn in Hl. Qed.

(** C33: what a delivery changes, exactly.  An account that is tracked before and after shows the delivered version at the
    commitments the delivery counts for, unless it shows this or a newer one already; nothing else changes. *)
Theorem C33_delivery_exact : forall E F st a c st' r k j,
  reachable E st -> update_account F st a c = Done (st', r) -> tracked st (d_pubkey a) -> tracked st' (d_pubkey a) -> counts_as st a c k ->
  (at_least j k -> ~ shows (version_at st (d_pubkey a) j) a -> version_at st' (d_pubkey a) j = Some a) /\
  (~ at_least j k \/ shows (version_at st (d_pubkey a) j) a -> version_at st' (d_pubkey a) j = version_at st (d_pubkey a) j).
Proof.
  intros E F st a c st' r k j Hr H Ht Ht' ->%counts_as_effective. pose proof (reachable_ok _ _ Hr) as Hok.
  destruct (update_self F st a c st' r Hok H) as (H1 & _). destruct (H1 Ht Ht') as (b & Hbc & _ & Hv & Hv' & _).
  assert (bc_proc b <> []) as Hne. { apply tracked_processed in Ht as [x Hx]; [|done]. rewrite Hv in Hx. by eapply read_nonempty. }
  rewrite Hv, Hv', upd_get by done. unfold at_least. split.
  - intros Hle Hn. rewrite <- newer_shows in Hn. destruct (newer (bc_get b j) a); [|done]. assert (rank j <=? rank (effective st a c) = true) as -> by (by apply N.leb_le). done.
  - intros [Hn|Hs%newer_shows]; [|rewrite Hs; by rewrite andb_false_r]. assert (rank j <=? rank (effective st a c) = false) as -> by (apply N.leb_gt; lia). done.
Qed.
Print Assumptions C33_delivery_exact.
Example C33_exact_example : exists st st', run ext_sample store_empty ex_late = Done st /\ update_account admit_all st (acc5 10 2) Processed = Done (st', true) /\
  counts_as st (acc5 10 2) Processed Confirmed /\ tracked st 5 /\ tracked st' 5 /\ version_at st 5 Confirmed <> Some (acc5 10 2) /\ version_at st' 5 Confirmed = Some (acc5 10 2).
Proof.
  exists (final ex_late), (final (ex_late ++ [upd (acc5 10 2) Processed])). split_and!; [crunch|crunch| | | | |crunch].
  - split; [done|]. intros _. by vm_compute.
  - exists 0%nat. crunch.
  - exists 0%nat. crunch.
  - vm_compute. done.
Qed.
(** The same for an account that was not tracked. *)
Theorem C33_new_account_exact : forall E F st a c st' r j,
  reachable E st -> update_account F st a c = Done (st', r) -> ~ tracked st (d_pubkey a) ->
  r = fl_sat F a /\ (fl_sat F a = true -> at_least j c -> version_at st' (d_pubkey a) j = Some a) /\
  (fl_sat F a = false \/ ~ at_least j c -> version_at st' (d_pubkey a) j = None).
Proof.
  intros E F st a c st' r j Hr H Ht. pose proof (reachable_ok _ _ Hr) as Hok. destruct (update_self F st a c st' r Hok H) as (_ & _ & H3).
  destruct (H3 Ht) as (Hrr & Hs & Hn). split; [done|]. unfold at_least. split.
  - intros Hsat Hj. rewrite (Hs Hsat). destruct c, j; simpl in *; try done; lia.
  - intros [Hsat|Hj].
    + rewrite (Hn Hsat). unfold version_at. destruct (st_index st !! d_pubkey a) eqn:Hi; [destruct Ht; by eexists|done].
    + destruct (fl_sat F a) eqn:Hsat; [rewrite (Hs eq_refl); destruct c, j; simpl in *; try done; lia|].
      rewrite (Hn eq_refl). unfold version_at. destruct (st_index st !! d_pubkey a) eqn:Hi; [destruct Ht; by eexists|done].
Qed.
Print Assumptions C33_new_account_exact.
Example C33_new_example : exists st st', run ext_sample store_empty [slt 10 9 Processed; slt 10 9 Confirmed] = Done st /\
  update_account admit_all st (acc5 10 2) Processed = Done (st', true) /\ ~ tracked st 5 /\ version_at st' 5 Processed = Some (acc5 10 2) /\ version_at st' 5 Confirmed = None.
Proof.
  exists (final [slt 10 9 Processed; slt 10 9 Confirmed]), (final [slt 10 9 Processed; slt 10 9 Confirmed; upd (acc5 10 2) Processed]).
  split_and!; [crunch|crunch| |crunch|crunch]. intros [i Hi]. vm_compute in Hi. done.
Qed.
(** C33, its statement: exactly when is a delivery served at its commitment? *)
Theorem C33_served_exactly_when : forall E F st a c st' r k,
  reachable E st -> update_account F st a c = Done (st', r) -> tracked st' (d_pubkey a) -> counts_as st a c k ->
  (shows (version_at st' (d_pubkey a) c) a <-> ~ tracked st (d_pubkey a) \/ at_least c k \/ shows (version_at st (d_pubkey a) c) a).
Proof.
  intros E F st a c st' r k Hr H Ht' Hk. destruct (decide (is_Some (st_index st !! d_pubkey a))) as [Ht|Ht].
  - destruct (C33_delivery_exact E F st a c st' r k c Hr H Ht Ht' Hk) as [H1 H2]. unfold at_least in *. split.
    + intros Hs. right. destruct (decide (rank c <= rank k)) as [?|Hn]; [by left|right]. by rewrite <- H2 by auto.
    + intros [?|Hs]; [done|]. destruct (newer (version_at st (d_pubkey a) c) a) eqn:Hnw.
      * assert (~ shows (version_at st (d_pubkey a) c) a) as Hns by (rewrite <- newer_shows; congruence). destruct Hs as [Hs|Hs]; [|done]. rewrite H1 by done.
        exists a. split; [done|]. right. lia.
      * apply newer_shows in Hnw. rewrite H2 by auto. done.
  - split; [by left|]. intros _. destruct (C33_new_account_exact E F st a c st' r c Hr H Ht) as (_ & H1 & H2).
    exists a. split; [|right; lia]. apply H1; [|unfold at_least; lia]. destruct (fl_sat F a) eqn:Hs; [done|]. exfalso.
    destruct (update_self F st a c st' r (reachable_ok _ _ Hr) H) as (_ & _ & H3). destruct (H3 Ht) as (_ & _ & Hn). rewrite (Hn Hs) in Ht'. done.
Qed.
Print Assumptions C33_served_exactly_when.
Example C33_exactly_when_example : exists st st', run ext_sample store_empty [upd (acc5 10 1) Processed] = Done st /\
  update_account admit_all st (acc5 10 2) Confirmed = Done (st', true) /\ tracked st' 5 /\ counts_as st (acc5 10 2) Confirmed Processed /\ version_at st' 5 Confirmed = None.
Proof.
  exists (final [upd (acc5 10 1) Processed]), (final [upd (acc5 10 1) Processed; upd (acc5 10 2) Confirmed]). split_and!; [crunch|crunch| | |crunch].
  - exists 0%nat. crunch.
  - split; [done|]. intros _. by vm_compute.
Qed.

(** C32, its statement: exactly when is a late write served at the commitment of its slot? *)
Theorem C32_served_exactly_when : forall E F st a c st' r k,
  reachable E st -> update_account F st a c = Done (st', r) -> c <> Finalized -> slot_commit st (d_slot a) = Some k -> tracked st' (d_pubkey a) ->
  (shows (version_at st' (d_pubkey a) k) a <-> tracked st (d_pubkey a) \/ at_least k c).
Proof.
  intros E F st a c st' r k Hr H Hc Hk Ht'. destruct (decide (is_Some (st_index st !! d_pubkey a))) as [Ht|Ht].
  - split; [by left|]. intros _. assert (counts_as st a c k) as Hca by (split; [done|]; by rewrite Hk).
    destruct (C33_delivery_exact E F st a c st' r k k Hr H Ht Ht' Hca) as [H1 H2]. destruct (newer (version_at st (d_pubkey a) k) a) eqn:Hn.
    + rewrite H1; [exists a; split; [done|right; lia]|unfold at_least; lia|rewrite <- newer_shows; congruence].
    + apply newer_shows in Hn. rewrite H2 by auto. done.
  - destruct (C33_new_account_exact E F st a c st' r k Hr H Ht) as (_ & H1 & H2).
    assert (fl_sat F a = true) as Hs.
    { destruct (fl_sat F a) eqn:Hs; [done|]. destruct (update_self F st a c st' r (reachable_ok _ _ Hr) H) as (_ & _ & H3). destruct (H3 Ht) as (_ & _ & Hn). rewrite (Hn Hs) in Ht'. done. }
    unfold at_least in *. split.
    + intros Hsh. right. destruct (decide (rank k <= rank c)) as [?|Hn]; [done|]. rewrite H2 in Hsh by auto. by destruct Hsh as (? & ? & _).
    + intros [?|Hle]; [done|]. rewrite H1 by done. exists a. split; [done|right; lia].
Qed.
Print Assumptions C32_served_exactly_when.
Example C32_exactly_when_example : exists st st', run ext_sample store_empty ex_late = Done st /\ update_account admit_all st (acc5 10 2) Processed = Done (st', true) /\
  slot_commit st 10 = Some Confirmed /\ tracked st' 5.
Proof. exists (final ex_late), (final (ex_late ++ [upd (acc5 10 2) Processed])). split_and!; [crunch|crunch|crunch|]. exists 0%nat. crunch. Qed.

(** What a slot notification does to the reads of one entry. *)
Lemma promote_processed b s c : bc_proc b <> [] -> bc_get (bc_promote b s c).1 Processed = bc_get b Processed.
Proof.
  intros Hne. assert (forall x y, bc_get (BC (bc_proc b) x y) Processed = bc_get b Processed) as H1.
  { intros x y. simpl. destruct (sm_last_nonempty _ Hne) as (? & ? & ->). done. }
  assert (forall x y, bc_get (BC (prune s (bc_proc b)) x y) Processed = bc_get b Processed) as H2.
  { intros x y. rewrite <- (H1 x y). simpl. by rewrite prune_last. }
  unfold bc_promote. destruct (sm_get s (bc_proc b)) as [a|].
  - destruct c; [done| |].
    { destruct (bc_conf b) as [q|]; [destruct (d_slot q <? d_slot a)|]; simpl fst; rewrite ?H1; done. }
    destruct (match bc_fin b with Some prev => _ | None => _ end) as [fin r0]. simpl fst. apply H2.
  - destruct c; [done|done|]. simpl fst. apply H2.
Qed.
Lemma promote_view b s c : bc_get (bc_promote b s c).1 c = bc_get b c \/
  (c <> Processed /\ exists x, sm_get s (bc_proc b) = Some x /\ bc_get (bc_promote b s c).1 c = Some x /\ (forall y, bc_get b c = Some y -> d_slot y < d_slot x)).
Proof.
  unfold bc_promote. destruct (sm_get s (bc_proc b)) as [a|] eqn:Hg.
  - destruct c; [by left| |].
    + simpl. destruct (bc_conf b) as [prev|] eqn:Hc; [destruct (N.ltb_spec (d_slot prev) (d_slot a))|]; simpl.
      * right. split; [done|]. exists a. split; [done|]. split; [done|]. by intros y [= <-].
      * by left.
      * right. split; [done|]. by exists a.
    + simpl. destruct (bc_fin b) as [prev|] eqn:Hc; [destruct (N.ltb_spec (d_slot prev) (d_slot a))|]; simpl.
      * right. split; [done|]. exists a. split; [done|]. split; [done|]. by intros y [= <-].
      * by left.
      * right. split; [done|]. by exists a.
  - left. destruct c; [done|done|]. done.
Qed.
(** C35, exactly: no slot notification, whatever it says, changes what an account that stays tracked shows at processed.  So the
    version of an abandoned fork stays there until the account is written again. *)
Theorem C35_slots_never_change_processed_view : forall E F st si c st' out pk,
  reachable E st -> process_slot F st si c = Done (st', out) -> tracked st' pk -> version_at st' pk Processed = version_at st pk Processed.
Proof.
  intros E F st si c st' out pk Hr H Ht'. pose proof (reachable_ok _ _ Hr) as Hok.
  destruct (st_index st !! pk) as [i0|] eqn:Hi0.
  - assert (tracked st pk) as Ht by (by eexists).
    destruct (slot_view F st si c st' out pk Hok H Ht) as (i & b & wa & sl & Hi & Hb & Hbc & _ & _ & Hv & [(_ & _ & Hv')|[(s & _ & _ & Hv')|(s & a & prev & _ & Hn & _)]]); [by rewrite Hv, Hv'| |done].
    destruct (so_entry _ _ _ Hok Hi) as (b' & Hb' & _ & _ & Hne). rewrite Hb in Hb'. injection Hb' as <-. rewrite Hv, Hv'. by apply promote_processed.
  - destruct (process_slot_spec F st si c Hok) as (st1 & sl & wa & H1 & _ & _ & Hse). rewrite H1 in H. injection H as <- _.
    destruct Ht' as [i Hi]. by rewrite (se_none _ _ _ _ _ _ Hse _ Hi0) in Hi.
Qed.
Print Assumptions C35_slots_never_change_processed_view.
Example C35_slots_example : exists st st' out, run ext_sample store_empty [slt 10 9 Processed; upd (acc5 10 1) Processed; slt 11 10 Processed; upd (acc5 11 1) Processed; slt 12 10 Processed] = Done st /\
  process_slot admit_all st (SlotInfo 12 10 0) Finalized = Done (st', out) /\ tracked st' 5 /\ version_at st 5 Processed = Some (acc5 11 1).
Proof.
  set (h := [slt 10 9 Processed; upd (acc5 10 1) Processed; slt 11 10 Processed; upd (acc5 11 1) Processed; slt 12 10 Processed]).
  exists (final h), (final (h ++ [slt 12 10 Finalized])), [acc5 10 1]. split_and!; [crunch|crunch| |crunch]. exists 0%nat. crunch.
Qed.

(** C34, the full case distinction: what an account written in a slot shows after a notification is the write of that slot with the greatest
    write version, or what it showed before. *)
Theorem C34_published_exactly : forall E st0 F0 a c0 st1 r h st2 F si c st3 out x,
  reachable E st0 -> update_account F0 st0 a c0 = Done (st1, r) ->
  run E st1 h = Done st2 -> (forall F p b, (F, OLoad p b) ∉ h) -> tracked_during E st1 h (d_pubkey a) ->
  process_slot F st2 si c = Done (st3, out) ->
  version_at st3 (d_pubkey a) c = Some x -> d_slot x = d_slot a ->
  d_wv a <= d_wv x \/ version_at st2 (d_pubkey a) c = Some x.
Proof.
  intros E st0 F0 a c0 st1 r h st2 F si c st3 out x Hr Hu Hrun Hno Htr Hs Hx Hxs.
  pose proof (reachable_ok _ _ Hr) as Hok0. pose proof (update_ok _ _ _ _ _ _ Hok0 Hu) as Hok1.
  assert (st_ok st2) as Hok2 by (by eapply run_ok). assert (tracked st2 (d_pubkey a)) as Ht by (apply (Htr h []); [by rewrite app_nil_r|done]).
  destruct (slot_view F st2 si c st3 out _ Hok2 Hs Ht) as (i & b & wa & sl & Hi & Hb & Hbc & _ & _ & Hv & [(_ & _ & Hv')|[(s & _ & _ & Hv')|(s & a' & prev & _ & Hn & _)]]).
  - right. by rewrite Hv, <- Hv'.
  - rewrite Hv' in Hx. destruct (promote_view b s c) as [Hsame|(_ & y & _ & Hy & Hold)]; [right; rewrite Hv; congruence|left].
    eapply (C34_last_write_of_slot_wins_partial E st0 F0 a c0 st1 r h st2 F si c st3 out x); try done; [by rewrite Hv'|].
    intros z Hz. rewrite Hv in Hz. rewrite Hx in Hy. injection Hy as <-. rewrite <- Hxs. by apply Hold.
  - exfalso. unfold version_at in Hx. destruct (st_index st3 !! d_pubkey a) eqn:Hi3; [|done]. destruct Hn. by eexists.
Qed.
Print Assumptions C34_published_exactly.
Example C34_exactly_example : exists st1 st2 st3 out x, update_account admit_all store_empty (acc5 10 1) Processed = Done (st1, true) /\
  run ext_sample st1 [slt 10 9 Processed; upd (acc5 10 4) Processed] = Done st2 /\ tracked_during ext_sample st1 [slt 10 9 Processed; upd (acc5 10 4) Processed] 5 /\
  process_slot admit_all st2 (SlotInfo 10 9 0) Confirmed = Done (st3, out) /\ version_at st3 5 Confirmed = Some x /\ d_slot x = 10 /\ d_wv x = 4.
Proof.
  exists (final [upd (acc5 10 1) Processed]), (final [upd (acc5 10 1) Processed; slt 10 9 Processed; upd (acc5 10 4) Processed]),
    (final [upd (acc5 10 1) Processed; slt 10 9 Processed; upd (acc5 10 4) Processed; slt 10 9 Confirmed]), [acc5 10 4], (acc5 10 4).
  split_and!; [crunch|crunch| |crunch|crunch|done|done]. intros h1 h2 st1 Hh Hr. exists 0%nat.
  destruct h1 as [|o1 h1]; [injection Hr as <-; crunch|]. injection Hh as <- Hh. destruct h1 as [|o2 h1]; [vm_compute in Hr; injection Hr as <-; crunch|]. injection Hh as <- Hh.
  destruct h1; [|done]. vm_compute in Hr. injection Hr as <-. crunch.
Qed.

(** C31, another way in which it fails: nothing is remembered of an account whose close was finalized, so an old version that is
    delivered late opens it again, at whatever commitment it is delivered, even as finalized. *)
Theorem C31_late_write_reopens_refuted : exists E h F st a b st',
  run E store_empty h = Done st /\ (F, OUpdate b Finalized) ∈ h /\ ~ alive b /\ d_pubkey a = d_pubkey b /\ d_slot a < d_slot b /\
  get_account st (d_pubkey a) Processed = Done (ROk None) /\
  update_account F st a Finalized = Done (st', true) /\ alive a /\ forall k, get_account st' (d_pubkey a) k = Done (ROk (Some a)).
Proof.
  set (h := [upd (acc5 10 1) Finalized; upd (closed5 12 1) Finalized]).
  exists ext_sample, h, admit_all, (final h), (acc5 11 1), (closed5 12 1), (final (h ++ [upd (acc5 11 1) Finalized])).
  split; [crunch|]. split; [right; left|]. split; [unfold alive; simpl; lia|]. split; [done|]. split; [vm_compute; reflexivity|]. split; [crunch|]. split; [crunch|].
  split; [unfold alive; simpl; lia|]. intros []; crunch.
Qed.
Print Assumptions C31_late_write_reopens_refuted.
