(** Theorems about concurrent calls (C36, C62).  Any number of calls of [update_account],
    [process_slot_data] and [get_account], interleaved at every lock operation. *)
From Verif Require Import Base SMap DataModel FilterModel FilterProps BincodeModel ByCommitModel ByCommitSpec ByCommitProofs
  StoreModel StoreSpec StoreProofs StoreSlot StoreViews StoreProps ConcModel ConcProofs ConcReads.

(** Executions during which [pk] stays in the store. *)
Inductive ctracked (pk : pubkey) : cstate -> cstate -> Prop :=
| ct_refl cs : tracked (cs_st cs) pk -> ctracked pk cs cs
| ct_step cs F j cs1 cs2 : tracked (cs_st cs) pk -> cstep cs F j (Done cs1) -> ctracked pk cs1 cs2 -> ctracked pk cs cs2.
Definition returned (t : thr) : bool := match t with TDone _ => true | _ => false end.
Definition all_returned (cs : cstate) : Prop := forallb returned (cs_thr cs) = true.

(** A schedule: start a call, or let thread [j] run one piece. *)
Definition move1 (cs : cstate) (m : thr + nat) : option cstate :=
  match m with
  | inl t => match t with
             | TUpd _ _ | TSlot _ _ | TGet _ _ => Some (CS (cs_st cs) (cs_pend cs) (cs_thr cs ++ [t]))
             | _ => None
             end
  | inr j => match cs_thr cs !! j with
             | Some t => match piece admit_all (cs_st cs) (cs_pend cs) t with
                         | Some (Done (st, pd, t')) => Some (CS st pd (<[j := t']> (cs_thr cs)))
                         | _ => None
                         end
             | None => None
             end
  end.
Fixpoint play (cs : cstate) (l : list (thr + nat)) : option cstate :=
  match l with [] => Some cs | m :: l => match move1 cs m with Some cs' => play cs' l | None => None end end.
Lemma move1_step cs m cs' : move1 cs m = Some cs' -> exists j, cstep cs admit_all j (Done cs').
Proof.
  destruct m as [t|j]; simpl.
  - intros H. exists (length (cs_thr cs)). destruct t; try done; injection H as <-;
      (apply cs_call; [by apply lookup_ge_None_2|done|done]).
  - destruct (cs_thr cs !! j) as [t|] eqn:Hj; [|done].
    destruct (piece _ _ _ t) as [[[[st pd] t']|]|] eqn:Hp; try done. intros [= <-]. exists j. by eapply cs_done.
Qed.
Lemma play_reach cs l cs' : play cs l = Some cs' -> creach cs cs'.
Proof.
  revert cs. induction l as [|m l IH]; simpl; intros cs.
  - intros [= <-]. constructor.
  - destruct (move1 cs m) as [cs1|] eqn:Hm; [|done]. intros H. destruct (move1_step _ _ _ Hm) as [j Hj].
    eapply creach_step; [exact Hj|]. by apply IH.
Qed.
Definition played (cs : cstate) (l : list (thr + nat)) : cstate := default cs_empty (play cs l).
Definition go (j n : nat) : list (thr + nat) := repeat (inr j) n.

(** C62: whatever the interleaving, no call panics, ... *)
Theorem C62_concurrent_calls_never_panic : forall cs F j, creach cs_empty cs -> ~ cstep cs F j Panic.
Proof.
  intros cs F j Hr Hp. pose proof (cok_reach _ _ Hr cok_empty) as Hc.
  destruct (cok_step _ _ _ _ Hc Hp) as (? & [=] & _).
Qed.
Print Assumptions C62_concurrent_calls_never_panic.
(** ... at every moment the views of an account are ordered by commitment, ... *)
Theorem C62_concurrent_ladder : forall cs pk, creach cs_empty cs ->
  (forall y, version_at (cs_st cs) pk Finalized = Some y ->
     exists x, version_at (cs_st cs) pk Confirmed = Some x /\ d_slot y <= d_slot x) /\
  (forall x, version_at (cs_st cs) pk Confirmed = Some x ->
     exists p, version_at (cs_st cs) pk Processed = Some p /\ d_slot x <= d_slot p) /\
  (forall k x, version_at (cs_st cs) pk k = Some x -> d_pubkey x = pk).
Proof.
  intros cs pk Hr. pose proof (cok_reach _ _ Hr cok_empty) as [Hv _ _ _]. pose proof (vo_ok _ _ Hv) as Hok.
  split_and!.
  - intros a (i & b & Hi & Hb & Hg)%version_at_inv. rewrite (version_at_entry _ _ _ _ _ Hi Hb).
    destruct (bc_ladder b (so_bc _ Hok _ _ Hb)) as [H1 H2]; auto.
  - intros a (i & b & Hi & Hb & Hg)%version_at_inv. rewrite (version_at_entry _ _ _ _ _ Hi Hb).
    destruct (bc_ladder b (so_bc _ Hok _ _ Hb)) as [H1 H2]; auto.
  - intros k x (i & b & Hi & Hb & Hg)%version_at_inv.
    destruct (so_pk _ Hok _ _ _ (virt_index_of _ (cs_pend cs) _ _ Hi) Hb) as [Hall _].
    exact (bc_pk_get pk b k x (so_bc _ Hok _ _ Hb) Hall Hg).
Qed.
Print Assumptions C62_concurrent_ladder.
(** ... and no view of an account that stays in the store ever goes back to an older version. *)
Theorem C62_concurrent_views_never_go_back : forall cs cs' pk k x,
  creach cs_empty cs -> ctracked pk cs cs' -> version_at (cs_st cs) pk k = Some x ->
  exists x', version_at (cs_st cs') pk k = Some x' /\ version_le x x'.
Proof.
  intros cs cs' pk k x Hr Hct. pose proof (cok_reach _ _ Hr cok_empty) as Hc. clear Hr. revert x.
  induction Hct as [cs Ht|cs F j cs1 cs2 Ht Hs Hct IH]; intros x Hx; [eauto using version_le_refl|].
  destruct (cok_step _ _ _ _ Hc Hs) as (? & [= <-] & Hc1 & Hm).
  destruct (Hm pk k x Hx) as (x1 & Hx1 & Hle1); [by destruct Hct|].
  destruct (IH Hc1 _ Hx1) as (x2 & Hx2 & Hle2). eauto using version_le_trans.
Qed.
Print Assumptions C62_concurrent_views_never_go_back.

(** ... and a concurrent read returns what the store showed at one moment between its call and its return. *)
Theorem C71_concurrent_reads : forall cs cs' j pk c r, creach cs_empty cs -> cs_thr cs !! j = Some (TGet pk c) ->
  creach cs cs' -> cs_thr cs' !! j = Some (TDone r) ->
  exists cs1 o, creach cs cs1 /\ creach cs1 cs' /\ r = RGet (ROk o) /\
    match o with
    | Some a => version_at (cs_st cs1) pk c = Some a /\ alive a
    | None => forall a, version_at (cs_st cs1) pk c = Some a -> ~ alive a
    end.
Proof.
  intros cs cs' j pk c r Hr Hj Hr' Hj'. pose proof (cok_reach _ _ Hr cok_empty) as Hc.
  destruct (reading_reach cs j pk c cs cs' Hc (creach_refl cs) (or_introl Hj) Hr') as [H|[(i & H & _)|(o & cs1 & H & H1 & H2 & Ha)]]; [congruence..|].
  rewrite H in Hj'. injection Hj' as <-. exists cs1, o. done.
Qed.
Print Assumptions C71_concurrent_reads.

(** Two writers of a new account and an announcement, overlapping. *)
Definition ex_conc : list (thr + nat) :=
  [inl (TUpd (acc5 10%N 1%N) Processed); inl (TUpd (acc5 11 1) Processed); inl (TSlot (SlotInfo 10%N 9%N 0%N) Confirmed);
   inr 0; inr 1; inr 0; inr 1; inr 0; inr 0; inr 2; inr 0; inr 0; inr 1; inr 2; inl (TGet 5%N Confirmed); inr 3; inr 3]%nat.
Example C71_example_hyps : exists cs cs' a, creach cs_empty cs /\ cs_thr cs !! 3%nat = Some (TGet 5 Processed) /\ creach cs cs' /\
  cs_thr cs' !! 3%nat = Some (TDone (RGet (ROk (Some a)))).
Proof.
  set (l := take 14 ex_conc ++ [inl (TGet 5%N Processed)]). exists (played cs_empty l), (played (played cs_empty l) (go 3 2)), (acc5 11%N 1%N).
  split; [apply (play_reach _ l); crunch|]. split; [crunch|]. split; [apply (play_reach _ (go 3 2)); crunch|crunch].
Qed.
Example C62_example_hyps : exists cs, creach cs_empty cs /\ is_Some (version_at (cs_st cs) 5 Processed) /\
  cs_thr cs !! 1%nat = Some (TDone (RUpdate true)) /\ cs_thr cs !! 3%nat = Some (TDone (RGet (ROk None))).
Proof.
  exists (played cs_empty ex_conc). split; [apply (play_reach _ ex_conc); crunch|].
  split; [exists (acc5 11%N 1%N); crunch|]. split; crunch.
Qed.

(** C36, refuted: the account is tracked (version of slot 9 finalized); a processed update of slot
    10 overlaps the announcement that slot 10 is confirmed.  The announcement runs between the
    update's note in the slot's list and its write of the entry; it finds no version of slot 10.  Both
    calls return, slot 10 is recorded as confirmed, and the confirmed view stays at slot 9: nothing
    will ever promote the version.  Run one after the other, in either order, the confirmed view
    would show it. *)
Definition ex_before : list (thr + nat) := inl (TUpd (acc5 9 1) Finalized) :: go 0 6.
Definition ex_race : list (thr + nat) :=
  [inl (TUpd (acc5 10%N 1%N) Processed); inl (TSlot (SlotInfo 10 9 0) Confirmed)] ++ go 1 3 ++ go 2 3 ++ go 1 1.
Definition ex_seq1 : list (thr + nat) :=
  [inl (TUpd (acc5 10%N 1%N) Processed); inl (TSlot (SlotInfo 10 9 0) Confirmed)] ++ go 1 4 ++ go 2 3.
Definition ex_seq2 : list (thr + nat) :=
  [inl (TUpd (acc5 10%N 1%N) Processed); inl (TSlot (SlotInfo 10 9 0) Confirmed)] ++ go 2 2 ++ go 1 4.
Theorem C36_promotion_lost_refuted : exists cs0 cs cs1 cs2 a,
  creach cs_empty cs0 /\ version_at (cs_st cs0) (d_pubkey a) Finalized = Some (acc5 9 1) /\
  creach cs0 cs /\ creach cs0 cs1 /\ creach cs0 cs2 /\
  (forall c, c ∈ [cs; cs1; cs2] -> all_returned c /\ cs_thr c !! 1%nat = Some (TDone (RUpdate true)) /\
     version_at (cs_st c) (d_pubkey a) Processed = Some a /\
     option_map ss_commit (st_slots (cs_st c) !! d_slot a) = Some Confirmed) /\
  version_at (cs_st cs1) (d_pubkey a) Confirmed = Some a /\
  version_at (cs_st cs2) (d_pubkey a) Confirmed = Some a /\
  version_at (cs_st cs) (d_pubkey a) Confirmed = Some (acc5 9 1) /\ d_slot (acc5 9 1) < d_slot a.
Proof.
  exists (played cs_empty ex_before), (played (played cs_empty ex_before) ex_race),
    (played (played cs_empty ex_before) ex_seq1), (played (played cs_empty ex_before) ex_seq2), (acc5 10%N 1%N).
  split; [apply (play_reach _ ex_before); crunch|]. split; [crunch|].
  split; [apply (play_reach _ ex_race); crunch|]. split; [apply (play_reach _ ex_seq1); crunch|].
  split; [apply (play_reach _ ex_seq2); crunch|].
  split; [|split_and!; [crunch..|done]].
  intros c Hc. rewrite !elem_of_cons, elem_of_nil in Hc.
  destruct_or?; subst; split_and!; unfold all_returned; crunch.
Qed.
Print Assumptions C36_promotion_lost_refuted.
(** C36, refuted even when the announcement starts after the update has returned: two first
    deliveries of one account race; the second to arrive found no entry when it looked for the slot's
    list and an existing one when it wrote, so its slot's list never mentions the account. *)
Definition ex_race2 : list (thr + nat) :=
  [inl (TUpd (acc5 10%N 1%N) Processed); inl (TUpd (acc5 11 1) Processed)] ++ go 0 2 ++ go 1 6 ++ go 0 1.
Definition ex_confirm : list (thr + nat) := inl (TSlot (SlotInfo 10 9 0) Confirmed) :: go 2 2.
Theorem C36_first_deliveries_race_refuted : exists cs1 cs2 a,
  creach cs_empty cs1 /\ all_returned cs1 /\ cs_thr cs1 !! 0%nat = Some (TDone (RUpdate true)) /\
  creach cs1 cs2 /\ all_returned cs2 /\ length (cs_thr cs2) = 3%nat /\
  option_map ss_commit (st_slots (cs_st cs2) !! d_slot a) = Some Confirmed /\
  version_at (cs_st cs2) (d_pubkey a) Confirmed = None /\
  (* one after the other *)
  (forall h, h ∈ [[upd (acc5 11%N 1%N) Processed; upd a Processed; slt 10 9 Confirmed];
                  [upd a Processed; upd (acc5 11%N 1%N) Processed; slt 10 9 Confirmed]] ->
     version_at (final h) (d_pubkey a) Confirmed = Some a).
Proof.
  exists (played cs_empty ex_race2), (played (played cs_empty ex_race2) ex_confirm), (acc5 10%N 1%N).
  split; [apply (play_reach _ ex_race2); crunch|].
  split; [unfold all_returned; crunch|].
  split; [crunch|]. split; [apply (play_reach _ ex_confirm); crunch|].
  split; [unfold all_returned; crunch|].
  split_and!; [crunch..|]. intros h Hh. rewrite !elem_of_cons, elem_of_nil in Hh. destruct_or?; subst; crunch.
Qed.
Print Assumptions C36_first_deliveries_race_refuted.
(** C36, proved part: a write is never lost for the processed view, nor for the commitment it was
    applied with; and a finished insertion shows exactly the inserted version.  (Missing: that a
    confirmation overlapping the write promotes it, which is false.) *)
Theorem C36_applied_write_never_lost_partial : forall cs0 F j cs1 cs2 a c r k,
  creach cs_empty cs0 -> cs_thr cs0 !! j = Some (TEntry a c) -> tracked (cs_st cs0) (d_pubkey a) ->
  cstep cs0 F j (Done cs1) -> cs_thr cs1 !! j = Some (TDone r) -> ctracked (d_pubkey a) cs1 cs2 ->
  at_least k c ->
  exists x, version_at (cs_st cs2) (d_pubkey a) k = Some x /\ d_slot a <= d_slot x.
Proof.
  intros cs0 F j cs1 cs2 a c r k Hr Hj [i Hi] Hs Hj' Hct Hk.
  pose proof (cok_reach _ _ Hr cok_empty) as Hc.
  destruct (cok_step _ _ _ _ Hc Hs) as (? & [= <-] & Hc1 & _).
  assert (exists x, version_at (cs_st cs1) (d_pubkey a) k = Some x /\ d_slot a <= d_slot x) as (x & Hx & Hle).
  { inversion Hs as [t st pd t' Hjt Hp| |? ? ? ? Hjt|? Hjt]; subst; try congruence.
    rewrite Hj in Hjt. injection Hjt as <-. simpl in Hp.
    destruct (cs_pend cs0 !! d_pubkey a) eqn:Hpd; [done|]. rewrite Hi in Hp.
    destruct Hc as [Hv _ _ _].
    destruct (occupied_vok F _ _ a c i Hv Hpd Hi) as (st1 & r1 & Ho & Hv1 & Hlen & _ & Hix & _ & Hac).
    rewrite Ho in Hp. simpl in Hp. injection Hp as <- <- <-. simpl in *.
    assert (tracked st1 (d_pubkey a)) as Ht by (by inversion Hct).
    assert (st_index st1 !! d_pubkey a = Some i) as Hi1 by (by rewrite Hix).
    destruct (so_entry _ _ _ (vo_ok _ _ Hv) (virt_index_of _ (cs_pend cs0) _ _ Hi)) as (b & Hb & Hbc & _).
    simpl in Hb. destruct (Hac _ _ _ Hi1 Hb) as (b' & Hb' & [[? ?]|[_ ->]]); [done|].
    rewrite (version_at_entry _ _ _ _ _ Hi1 Hb').
    pose proof (bc_ok_update b a c Hbc) as Hbc'. destruct (bc_ladder _ Hbc') as [Hl1 Hl2].
    assert (exists x, bc_get (bc_update b a c).1 c = Some x /\ d_slot a <= d_slot x) as (x & Hx & Hle).
    { rewrite bc_update_unfold. destruct c; simpl.
      - destruct (upd_proc_last' b a Hbc) as (k0 & p & Hl & Hle). rewrite Hl. exists p. split; [done|].
        apply sm_last_spec in Hl as [Hg _]; [|by apply upd_proc_sorted]. by rewrite (upd_proc_key b a _ _ Hbc Hg).
      - destruct (newer (bc_conf b) a) eqn:Hn; [eauto|]. destruct (newer_false _ _ Hn) as (x & -> & [?|[? _]]); exists x; (split; [done|lia]).
      - destruct (newer (bc_fin b) a) eqn:Hn; [eauto|]. destruct (newer_false _ _ Hn) as (x & -> & [?|[? _]]); exists x; (split; [done|lia]). }
    destruct k, c; unfold at_least in Hk; simpl in Hk; try lia; eauto.
    - destruct (Hl2 _ Hx) as (p & Hp & ?). exists p. split; [done|lia].
    - destruct (Hl1 _ Hx) as (y & Hy & ?). destruct (Hl2 _ Hy) as (p & Hp & ?). exists p. split; [done|lia].
    - destruct (Hl1 _ Hx) as (y & Hy & ?). exists y. split; [done|lia]. }
  assert (creach cs_empty cs1) as Hr1.
  { clear -Hr Hs. induction Hr; [eapply creach_step; [exact Hs|constructor]|eapply creach_step; eauto]. }
  destruct (C62_concurrent_views_never_go_back cs1 cs2 _ k x Hr1 Hct Hx) as (x' & Hx' & Hle').
  exists x'. split; [done|]. destruct Hle' as [?|[? _]]; lia.
Qed.
Print Assumptions C36_applied_write_never_lost_partial.
Example C36_example_hyps : exists cs0 cs1 cs2, creach cs_empty cs0 /\ cs_thr cs0 !! 1%nat = Some (TEntry (acc5 10 1) Processed) /\
  tracked (cs_st cs0) 5 /\ cstep cs0 admit_all 1 (Done cs1) /\ cs_thr cs1 !! 1%nat = Some (TDone (RUpdate true)) /\
  ctracked 5 cs1 cs2 /\ option_map d_slot (version_at (cs_st cs2) 5 Confirmed) = Some 9.
Proof.
  set (h0 := ex_before ++ [inl (TUpd (acc5 10 1) Processed); inl (TSlot (SlotInfo 10 9 0) Confirmed)] ++ go 1 3 ++ go 2 3).
  exists (played cs_empty h0), (played cs_empty (h0 ++ go 1 1)), (played cs_empty (h0 ++ go 1 1)).
  split; [apply (play_reach _ h0); crunch|]. split; [crunch|]. split; [exists 0%nat; crunch|].
  split.
  - replace (played cs_empty (h0 ++ go 1 1)) with
      (let cs := played cs_empty h0 in
       match piece admit_all (cs_st cs) (cs_pend cs) (TEntry (acc5 10 1) Processed) with
       | Some (Done (st, pd, t')) => CS st pd (<[1%nat := t']> (cs_thr cs)) | _ => cs end) by crunch.
    cbv zeta. destruct (piece admit_all _ _ _) as [[[[st pd] t']|]|] eqn:Hp.
    + eapply cs_done; [|exact Hp]. crunch.
    + exfalso. revert Hp. vm_compute. discriminate.
    + exfalso. revert Hp. vm_compute. discriminate.
  - split; [crunch|]. split; [|crunch]. constructor. exists 0%nat. crunch.
Qed.
Theorem C36_inserted_version_shown_partial : forall cs0 F j cs1 pk p r,
  creach cs_empty cs0 -> cs_thr cs0 !! j = Some (TIns pk) -> cs_pend cs0 !! pk = Some p ->
  cstep cs0 F j (Done cs1) -> cs_thr cs1 !! j = Some (TDone r) ->
  version_at (cs_st cs1) pk Processed = Some (pd_acct p) /\ r = RUpdate true.
Proof.
  intros cs0 F j cs1 pk p r Hr Hj Hp Hs Hj'. pose proof (cok_reach _ _ Hr cok_empty) as [Hv _ _ _].
  inversion Hs as [t st pd t' Hjt Hpc| |? ? ? ? Hjt|? Hjt]; subst; try congruence.
  rewrite Hj in Hjt. injection Hjt as <-. simpl in Hpc, Hj'. rewrite list_lookup_insert in Hj' by (by eapply lookup_lt_Some).
  injection Hj' as ->. rewrite Hp in Hpc. destruct p as [i a c n].
  destruct n as [|[|n]]; simpl in Hpc; [done..|]. injection Hpc as <- <- <-. split; [|done]. simpl.
  destruct (so_entry _ _ _ (vo_ok _ _ Hv) (virt_pend_of _ _ _ _ Hv Hp)) as (b & Hb & Hbc & _ & Hne). simpl in Hb.
  pose proof (vo_single _ _ Hv _ _ _ Hp Hb) as Hall. simpl in Hall.
  erewrite version_at_entry; [|apply lookup_insert|exact Hb].
  destruct (bc_get b Processed) as [x|] eqn:Hg; [|exfalso; revert Hg; simpl].
  - f_equal. exact (bc_all_get _ b Processed x Hbc Hall Hg).
  - destruct (last (bc_proc b)) as [[? ?]|] eqn:Hl; [done|]. by apply last_None in Hl.
Qed.
Print Assumptions C36_inserted_version_shown_partial.
Example C36_example_insert : exists cs0 p, creach cs_empty cs0 /\ cs_thr cs0 !! 0%nat = Some (TIns 5) /\
  cs_pend cs0 !! 5 = Some p /\ pd_stage p = 2%nat /\ st_index (cs_st cs0) !! 5 = None.
Proof.
  exists (played cs_empty (inl (TUpd (acc5 9 1) Processed) :: go 0 5)), (Pend 0 (acc5 9 1) Processed 2).
  split; [apply (play_reach _ (inl (TUpd (acc5 9 1) Processed) :: go 0 5)); crunch|]. split_and!; crunch.
Qed.
