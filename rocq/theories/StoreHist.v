(** Invariants over histories of the account store: kept slot writes, owner index, redelivery. *)
From Verif Require Import Base SMap DataModel FilterModel FilterSpec FilterProofs BincodeModel
  ByCommitModel ByCommitSpec ByCommitProofs StoreModel StoreSpec StoreProofs StoreSlot StoreViews.

Lemma load_inv (I : store -> Prop) F l st st' : st_ok st -> I st ->
  (forall st a st' r, st_ok st -> I st -> a ∈ l -> update_account F st a Finalized = Done (st', r) -> I st') ->
  load_accounts F st l = Done st' -> I st'.
Proof.
  intros Hok HI Hu. revert st Hok HI. induction l as [|a l IH]; intros st Hok HI; simpl; [by intros [= <-]|].
  unfold init_account. destruct (update_account F st a Finalized) as [[st1 r]|] eqn:H1; simpl; [|done].
  apply IH; [|by eapply update_ok|eapply Hu; eauto; left].
  intros st0 a0 st0' r0 ? ? ?. apply Hu; [done..|by right].
Qed.
(** Invariants preserved by updates and slot announcements hold along histories. *)
Lemma step_inv E (I : store -> Prop) F o st st' r : st_ok st -> I st ->
  (forall st a c st' r, st_ok st -> I st -> delivers o a -> update_account F st a c = Done (st', r) -> I st') ->
  (forall st si c st' out, st_ok st -> I st -> o = OSlot si c -> process_slot F st si c = Done (st', out) -> I st') ->
  step E F st o = Done (st', r) -> I st'.
Proof.
  intros Hok HI Hu Hs. destruct o as [a c|a|pk c|p fl c|si c|p|p b]; simpl in *.
  - destruct (update_account F st a c) as [[st1 r1]|] eqn:H; simpl; [|done]. intros [= <- <-]. by eapply Hu.
  - unfold init_account. destruct (update_account F st a Finalized) as [[st1 r1]|] eqn:H; simpl; [|done].
    intros [= <- <-]. by eapply Hu.
  - destruct (get_account st pk c); simpl; [|done]. by intros [= <- <-].
  - destruct (get_program_accounts E F st p fl c); simpl; [|done]. by intros [= <- <-].
  - destruct (process_slot F st si c) as [[st1 l]|] eqn:H; simpl; [|done]. intros [= <- <-]. by eapply Hs.
  - destruct (create_snapshot E F st p); simpl; [|done]. by intros [= <- <-].
  - unfold load_from_snapshot. destruct (unbincode_accounts b) as [l|] eqn:Hl; [|simpl; by intros [= <- <-]].
    destruct (load_accounts F st l) as [st1|] eqn:H; simpl; [|done]. intros [= <- <-].
    eapply (load_inv I F l); [exact Hok|exact HI| |exact H]. intros. eapply Hu; eauto.
Qed.
Lemma run_inv E (I : store -> Prop) h st st' : st_ok st -> I st ->
  (forall F o st a c st' r, (F, o) ∈ h -> st_ok st -> I st -> delivers o a ->
     update_account F st a c = Done (st', r) -> I st') ->
  (forall F st si c st' out, (F, OSlot si c) ∈ h -> st_ok st -> I st ->
     process_slot F st si c = Done (st', out) -> I st') ->
  run E st h = Done st' -> I st'.
Proof.
  revert st. induction h as [|[F o] h IH]; intros st Hok HI Hu Hs; simpl; [by intros [= <-]|].
  destruct (step E F st o) as [[st1 r]|] eqn:H1; simpl; [|done]. apply IH.
  - by eapply step_ok.
  - eapply (step_inv E I F o st st1 r); [exact Hok|exact HI| | |exact H1].
    + intros. eapply Hu; eauto. left.
    + intros ? si c ? ? ? ? -> ?. eapply Hs; eauto. left.
  - intros. eapply Hu; eauto. by right.
  - intros. eapply Hs; eauto. by right.
Qed.

(** ** Recorded slot writes are kept until finalized *)
Definition kept (b : bycom) (t : N) : Prop :=
  is_Some (sm_get t (bc_proc b)) \/ exists y, bc_fin b = Some y /\ t <= d_slot y.
Definition st_kept (st : store) : Prop := forall pk i b t ss, st_index st !! pk = Some i ->
  st_accounts st !! i = Some b -> st_slots st !! t = Some ss -> i ∈ ss_accounts ss -> kept b t.

Lemma kept_update b a c t : bc_ok b -> kept b t -> kept (bc_update b a c).1 t.
Proof.
  intros Hb [[p Hp]|(y & Hy & Ht)].
  - left. rewrite bc_update_unfold. simpl. destruct (upd_proc_mono b a t p Hb Hp) as (p' & -> & _). eauto.
  - right. destruct (bc_get_mono b (AUpdate a c) Finalized y Hb Hy) as (y' & Hy' & Hle). exists y'. split; [exact Hy'|].
    unfold version_le in Hle. lia.
Qed.
Lemma kept_update_self b a c : kept (bc_update b a c).1 (d_slot a).
Proof. left. rewrite bc_update_unfold. simpl. destruct (upd_proc_get b a) as (p & -> & _). eauto. Qed.
(** Promotion publishes the slot, or something from a later slot was finalized already. *)
Lemma promote_reaches b s c x : bc_ok b -> kept b s -> c <> Processed ->
  exists x', bc_get (bc_promote b s c).1 c = Some x' /\ s <= d_slot x' /\ 
    (x' = x -> bc_get b c <> Some x -> d_slot x = s /\ sm_get s (bc_proc b) = Some x).
Proof.
  intros Hb Hk Hc.
  assert (forall o, (o = bc_get b c) -> bc_get (bc_promote b s c).1 c = take_over b s o ->
    exists x', bc_get (bc_promote b s c).1 c = Some x' /\ s <= d_slot x' /\ 
    (x' = x -> bc_get b c <> Some x -> d_slot x = s /\ sm_get s (bc_proc b) = Some x)) as Hgen.
  { intros o -> Heq. rewrite Heq. unfold take_over. destruct (sm_get s (bc_proc b)) as [p|] eqn:Hp.
    - pose proof (ok_key _ Hb _ _ Hp) as Hs. destruct (promoted_cases (bc_get b c) p) as (x' & -> & Hor & Hle & _).
      exists x'. split; [done|]. split; [lia|]. intros -> Hne. destruct Hor as [->|]; [|done]. done.
    - destruct Hk as [[p' Hp']|(y & Hy & Hty)]; [congruence|].
      destruct (bc_ladder b Hb) as [H1 _]. destruct (H1 _ Hy) as (xc & Hxc & Hle).
      destruct c; [done| |].
      + exists xc. split; [exact Hxc|]. split; [lia|]. intros -> Hne. by destruct Hne.
      + exists y. split; [exact Hy|]. split; [lia|]. intros -> Hne. by destruct Hne. }
  destruct c; [done| |].
  - apply (Hgen (bc_conf b) eq_refl). simpl. by rewrite bc_promote_conf.
  - apply (Hgen (bc_fin b) eq_refl). simpl. by rewrite bc_promote_fin.
Qed.
Lemma kept_promote b s c t : bc_ok b -> kept b s -> kept b t -> kept (bc_promote b s c).1 t.
Proof.
  intros Hb Hs Ht.
  assert (c = Finalized -> t < s -> kept (bc_promote b s c).1 t) as Hlt.
  { intros -> Hlt. destruct (promote_reaches b s Finalized (Acct 0 (Account 0 (DRaw []) 0 false 0) 0 0) Hb Hs) as (x & Hx & Hsx & _); [done|].
    right. exists x. split; [exact Hx|lia]. }
  destruct Ht as [[p Hp]|(y & Hy & Hty)].
  - destruct (decide (c = Finalized /\ t < s)) as [[? ?]|Hn]; [by apply Hlt|].
    left. rewrite bc_promote_proc. destruct c; [eauto..|].
    rewrite prune_get; [eauto|by apply ok_sorted|]. destruct (N.lt_ge_cases t s); [|done]. by destruct Hn.
  - right. destruct (bc_get_mono b (APromote s c) Finalized y Hb Hy) as (y' & Hy' & Hle). exists y'.
    split; [exact Hy'|]. unfold version_le in Hle. lia.
Qed.

Lemma kept_upd F st a c st' r : st_ok st -> st_kept st -> update_account F st a c = Done (st', r) -> st_kept st'.
Proof.
  intros Hok HK H. apply update_account_inv in H; [|done].
  destruct H as [Hi Hs|sl' cx Hi Hs Hadd|i b sl' c' b' upd ow' Hi Hb Hadd Hu Hud Hud0|i b sl' c' b' prev ow' Hi Hb Hadd Hu Hprev Hud].
  - done.
  - apply add_to_status_spec in Hadd as (_ & Hne & ss' & Hss' & _ & _ & Hacc).
    intros pk j bj t ss; simpl. destruct (decide (pk = d_pubkey a)) as [->|Hpk].
    + rewrite lookup_insert. intros [= <-]. rewrite lookup_app_r by lia. rewrite Nat.sub_diag. intros [= <-] Ht Hin.
      rewrite bc_new_update. destruct (decide (t = d_slot a)) as [->|Hts].
      * apply kept_update_self.
      * rewrite Hne in Ht by done. exfalso. pose proof (so_slots _ Hok _ _ _ Ht Hin). lia.
    + rewrite lookup_insert_ne by done. intros Hj. pose proof (so_bound _ Hok _ _ Hj).
      rewrite lookup_app_l by done. intros Hbj Ht Hin. destruct (decide (t = d_slot a)) as [->|Hts].
      * rewrite Hss' in Ht. injection Ht as <-. apply Hacc in Hin as [(ss & Hss & Hin)|[-> _]]; [|lia].
        by eapply HK.
      * rewrite Hne in Ht by done. by eapply HK.
  - apply add_to_status_spec in Hadd as (_ & Hne & ss' & Hss' & _ & _ & Hacc).
    assert (i < length (st_accounts st))%nat by (by eapply so_bound).
    assert (b' = (bc_update b a c').1) as -> by (by rewrite Hu).
    intros pk j bj t ss; simpl. intros Hj. destruct (decide (j = i)) as [->|Hji].
    + rewrite list_lookup_insert by done. intros [= <-] Ht Hin. destruct (decide (t = d_slot a)) as [->|Hts].
      * apply kept_update_self.
      * rewrite Hne in Ht by done. apply kept_update; [by eapply so_bc|]. by eapply (HK pk i b t ss).
    + rewrite list_lookup_insert_ne by done. intros Hbj Ht Hin. destruct (decide (t = d_slot a)) as [->|Hts].
      * rewrite Hss' in Ht. injection Ht as <-. apply Hacc in Hin as [(ss & Hss & Hin)|[-> _]]; [|done].
        by eapply HK.
      * rewrite Hne in Ht by done. by eapply HK.
  - apply add_to_status_spec in Hadd as (_ & Hne & ss' & Hss' & _ & _ & Hacc).
    intros pk j bj t ss; simpl. destruct (decide (pk = d_pubkey a)) as [->|Hpk]; [by rewrite lookup_delete|].
    rewrite lookup_delete_ne by done. intros Hj.
    assert (j <> i) as Hji. { intros ->. apply Hpk. by eapply so_inj. }
    rewrite list_lookup_insert_ne by done. intros Hbj Ht Hin. destruct (decide (t = d_slot a)) as [->|Hts].
    + rewrite Hss' in Ht. injection Ht as <-. apply Hacc in Hin as [(ss & Hss & Hin)|[-> _]]; [|done].
      by eapply HK.
    + rewrite Hne in Ht by done. by eapply HK.
Qed.
(** Slot statuses after a slot announcement never list more accounts than before. *)
Lemma phase_accounts sl si c sl' wa t ss i : slot_phase sl si c = Some (sl', wa) -> sl' !! t = Some ss ->
  i ∈ ss_accounts ss -> exists ss0, sl !! t = Some ss0 /\ i ∈ ss_accounts ss0.
Proof.
  intros Hph Ht Hin. destruct (slot_phase_spec _ _ _ _ _ Hph) as (_ & _ & _ & Hst & Hgone).
  assert (c <> Finalized \/ si_slot si <= t) as Hcase.
  { destruct c; [by left..|]. right. destruct (N.lt_ge_cases t (si_slot si)) as [Hlt|]; [|done].
    rewrite (Hgone eq_refl t Hlt) in Ht. done. }
  destruct (Hst t Hcase) as [(_ & ss0 & Hss0 & Ht')|(_ & [Heq|(_ & _ & Ht')])].
  - rewrite Ht' in Ht. injection Ht as <-. eauto.
  - rewrite Heq in Ht. eauto.
  - rewrite Ht' in Ht. injection Ht as <-. set_solver.
Qed.
Lemma index_back F st si c wa st' pk i : st_ok st -> slot_effect F st si c wa st' -> st_index st' !! pk = Some i ->
  st_index st !! pk = Some i.
Proof.
  intros Hok Hse Hi. destruct (st_index st !! pk) as [j|] eqn:Hj.
  - destruct (so_entry _ _ _ Hok Hj) as (b & Hb & _).
    pose proof (slot_version F st si c wa st' pk j b Hok Hse Hj Hb) as Hv.
    destruct (wa !! j) as [s|].
    + destruct (prom_after F b s c) as [[b' del] rep]. destruct Hv as [Hv _]. destruct del; congruence.
    + destruct Hv as [Hv _]. congruence.
  - rewrite (se_none _ _ _ _ _ _ Hse _ Hj) in Hi. done.
Qed.
Lemma kept_slot F st si c st' out : st_ok st -> st_kept st -> process_slot F st si c = Done (st', out) -> st_kept st'.
Proof.
  intros Hok HK H. destruct (process_slot_spec F st si c Hok) as (st1 & sl & wa & H1 & Hph & Hsl & Hse).
  rewrite H1 in H. injection H as <- <-. intros pk i b' t ss Hi Hb' Ht Hin.
  pose proof (index_back _ _ _ _ _ _ _ _ Hok Hse Hi) as Hi0. destruct (so_entry _ _ _ Hok Hi0) as (b & Hb & Hbc & _).
  rewrite Hsl in Ht. destruct (phase_accounts _ _ _ _ _ _ _ _ Hph Ht Hin) as (ss0 & Ht0 & Hin0).
  pose proof (slot_version F st si c wa st1 pk i b Hok Hse Hi0 Hb) as Hv. destruct (wa !! i) as [s|] eqn:Hw.
  - destruct (prom_after F b s c) as [[b2 del] rep] eqn:Hp. destruct Hv as [Hv1 Hv2].
    destruct del; [congruence|]. apply prom_after_keep in Hp as [-> _]. rewrite Hb' in Hv2. injection Hv2 as ->.
    destruct (slot_phase_spec _ _ _ _ _ Hph) as (Hwa & _). destruct (Hwa _ _ Hw) as (_ & ss1 & Hss1 & Hin1).
    apply kept_promote; [done|by eapply (HK pk i b s ss1)|by eapply (HK pk i b t ss0)].
  - destruct Hv as [_ Hv]. rewrite Hb' in Hv. injection Hv as ->. by eapply (HK pk i b t ss0).
Qed.
Lemma kept_run E h st st' : st_ok st -> st_kept st -> run E st h = Done st' -> st_kept st'.
Proof.
  intros Hok HK. apply (run_inv E st_kept); [done|done|..]; intros.
  - by eapply kept_upd.
  - by eapply kept_slot.
Qed.
Lemma reachable_kept E st : reachable E st -> st_kept st.
Proof. intros [h H]. eapply kept_run; [apply st_ok_empty| |exact H]. intros pk i b t ss Hi. simpl in Hi. by rewrite lookup_empty in Hi. Qed.

(** ** Committing recorded writes *)
Lemma commit_recorded F st si c st' out t pk : st_ok st -> st_kept st -> process_slot F st si c = Done (st', out) ->
  c <> Processed -> on_chain (st_slots st) si c t -> wrote st t pk ->
  ~ tracked st' pk \/ exists t' a, on_chain (st_slots st) si c t' /\ wrote st t' pk /\
     version_at st' pk c = Some a /\ t' <= d_slot a /\ (descending (st_slots st) si c -> t <= d_slot a).
Proof.
  intros Hok HK H Hc Ht (i & ss & Hi & Hss & Hin).
  destruct (slot_view F st si c st' out pk Hok H) as (i' & b & wa & sl & Hi' & Hb & Hbc & Hph & Hsl & Hv & Hcase); [by exists i|].
  rewrite Hi in Hi'. injection Hi' as <-.
  destruct (slot_phase_spec _ _ _ _ _ Hph) as (Hwa & Hall & Hfirst & _).
  destruct (Hall _ _ _ Ht Hss Hin) as [t' Ht'].
  destruct Hcase as [(Hno & _)|[(s & Hs & Htr & Hv')|(s & a & prev & Hs & Hn & _)]]; [congruence| |by left].
  rewrite Ht' in Hs. injection Hs as <-. right. destruct (Hwa _ _ Ht') as (Hch & ss' & Hss' & Hin').
  destruct (promote_reaches b t' c (Acct 0 (Account 0 (DRaw []) 0 false 0) 0 0) Hbc) as (x & Hx & Hle & _); [|done|].
  { by eapply (HK pk i b t' ss'). }
  exists t', x. rewrite Hv'. split_and!; try done.
  - by exists i, ss'.
  - intros Hd. specialize (Hfirst Hd i t' t ss Ht' Ht Hss Hin). lia.
Qed.
Lemma update_wrote F st a c st' r : st_ok st -> update_account F st a c = Done (st', r) -> c <> Finalized ->
  tracked st' (d_pubkey a) -> wrote st' (d_slot a) (d_pubkey a).
Proof.
  intros Hok H Hc Ht. apply update_account_inv in H; [|done]. unfold tracked in Ht.
  destruct H as [Hi Hs|sl' cx Hi Hs Hadd|i b sl' c' b' upd ow' Hi Hb Hadd Hu Hud Hud0|i b sl' c' b' prev ow' Hi Hb Hadd Hu Hprev Hud];
   simpl in Ht.
  - rewrite Hi in Ht. by destruct Ht.
  - apply add_to_status_spec in Hadd as (_ & _ & ss' & Hss' & _ & _ & Hacc). exists (length (st_accounts st)), ss'. simpl.
    rewrite lookup_insert. split_and!; [done|done|]. apply Hacc. by right.
  - apply add_to_status_spec in Hadd as (_ & _ & ss' & Hss' & _ & _ & Hacc). exists i, ss'. simpl.
    split_and!; [done|done|]. apply Hacc. by right.
  - rewrite lookup_delete in Ht. by destruct Ht.
Qed.
Lemma wrote_upd F st a c st' r t pk : st_ok st -> update_account F st a c = Done (st', r) -> tracked st' pk ->
  wrote st t pk -> wrote st' t pk.
Proof.
  intros Hok H Htr (j & ss & Hj & Hss & Hin). apply update_account_inv in H; [|done]. unfold tracked in Htr.
  assert (forall i sl' c', add_to_status (st_slots st) (d_slot a) i c = (sl', c') ->
    exists ss', sl' !! t = Some ss' /\ j ∈ ss_accounts ss') as Hgen.
  { intros i sl' c' Hadd. apply add_to_status_spec in Hadd as (_ & Hne & ss' & Hss' & _ & _ & Hacc).
    destruct (decide (t = d_slot a)) as [->|Hts].
    - exists ss'. split; [done|]. apply Hacc. left. eauto.
    - exists ss. by rewrite Hne. }
  destruct H as [Hi Hs|sl' cx Hi Hs Hadd|i b sl' c' b' upd ow' Hi Hb Hadd Hu Hud Hud0|i b sl' c' b' prev ow' Hi Hb Hadd Hu Hprev Hud];
   simpl in Htr.
  - by exists j, ss.
  - destruct (Hgen _ _ _ Hadd) as (ss' & ? & ?). exists j, ss'. simpl. rewrite lookup_insert_ne; [done|congruence].
  - destruct (Hgen _ _ _ Hadd) as (ss' & ? & ?). by exists j, ss'.
  - destruct (Hgen _ _ _ Hadd) as (ss' & ? & ?). exists j, ss'. simpl.
    destruct (decide (pk = d_pubkey a)) as [->|]; [rewrite lookup_delete in Htr; by destruct Htr|].
    by rewrite lookup_delete_ne.
Qed.
Lemma wrote_slot F st si c st' out t pk : st_ok st -> process_slot F st si c = Done (st', out) -> tracked st' pk ->
  (c = Finalized -> si_slot si <= t) -> wrote st t pk -> wrote st' t pk.
Proof.
  intros Hok H [i Hi] Hfin (j & ss & Hj & Hss & Hin).
  destruct (process_slot_spec F st si c Hok) as (st1 & sl & wa & H1 & Hph & Hsl & Hse).
  rewrite H1 in H. injection H as <- <-.
  pose proof (index_back _ _ _ _ _ _ _ _ Hok Hse Hi) as Hi0. rewrite Hj in Hi0. injection Hi0 as <-.
  destruct (slot_phase_spec _ _ _ _ _ Hph) as (_ & _ & _ & Hst & _).
  destruct (Hst t) as [(_ & ss0 & Hss0 & Ht')|(_ & [Heq|(Hn & _ & Ht')])].
  { destruct c; [by left..|right; auto]. }
  - exists j. eexists. rewrite Hsl. split_and!; [done|exact Ht'|]. simpl. congruence.
  - exists j, ss. rewrite Hsl. split_and!; [done|congruence|done].
  - congruence.
Qed.

(** ** The newest write of a slot *)
(** Slot [s] holds a version with write version at least [w], or a later slot was finalized. *)
Definition has_write (s w : N) (b : bycom) : Prop :=
  (exists p, sm_get s (bc_proc b) = Some p /\ w <= d_wv p) \/ exists y, bc_fin b = Some y /\ s < d_slot y.
Lemma has_write_upd s w b a c : bc_ok b -> has_write s w b -> has_write s w (bc_update b a c).1.
Proof.
  intros Hb [(p & Hp & Hw)|(y & Hy & Hs)].
  - left. rewrite bc_update_unfold. simpl. destruct (upd_proc_mono b a s p Hb Hp) as (p' & Hp' & Hle). exists p'.
    split; [done|]. assert (d_slot p = s) as E1 by (by eapply ok_key).
    assert (d_slot p' = s) as E2 by (by eapply upd_proc_key). unfold version_le in Hle. lia.
  - right. destruct (bc_get_mono b (AUpdate a c) Finalized y Hb Hy) as (y' & Hy' & Hle). exists y'. split; [exact Hy'|].
    unfold version_le in Hle. lia.
Qed.
Lemma has_write_promote s w b t c : bc_ok b -> kept b t -> has_write s w b -> has_write s w (bc_promote b t c).1.
Proof.
  intros Hb Hk [(p & Hp & Hw)|(y & Hy & Hs)].
  - destruct (decide (c = Finalized /\ s < t)) as [[-> ?]|Hn].
    + right. destruct (promote_reaches b t Finalized p Hb Hk) as (x & Hx & Hsx & _); [done|].
      exists x. split; [exact Hx|lia].
    + left. exists p. rewrite bc_promote_proc. destruct c; [done..|].
      rewrite prune_get; [done|by apply ok_sorted|]. destruct (N.lt_ge_cases s t); [|done]. by destruct Hn.
  - right. destruct (bc_get_mono b (APromote t c) Finalized y Hb Hy) as (y' & Hy' & Hle). exists y'.
    split; [exact Hy'|]. unfold version_le in Hle. lia.
Qed.
Lemma has_write_self b a c : has_write (d_slot a) (d_wv a) (bc_update b a c).1.
Proof. left. rewrite bc_update_unfold. simpl. destruct (upd_proc_get b a) as (p & -> & ? & _). eauto. Qed.

(** ** Index of owners *)
(** If every live version of an account has the same owner and closed versions are not admitted,
    the index of owners is complete. *)
Definition owner_inv (own_of : pubkey -> pubkey) (st : store) : Prop :=
  (forall pk i, st_index st !! pk = Some i -> i ∈ own (st_owners st) (own_of pk)) /\
  st_all (fun a => alive a -> d_owner a = own_of (d_pubkey a)) st.
Lemma is_deleted_alive a : is_deleted a = false <-> alive a.
Proof. unfold is_deleted, alive. rewrite N.eqb_neq. lia. Qed.
Lemma owner_upd own_of F st a c st' r : st_ok st -> owner_inv own_of st ->
  (alive a -> d_owner a = own_of (d_pubkey a)) -> (~ alive a -> fl_sat F a = false) ->
  update_account F st a c = Done (st', r) -> owner_inv own_of st'.
Proof.
  intros Hok [HI HA] Ha Hd H. split; [|by eapply st_all_upd]. apply update_account_inv in H; [|done].
  destruct H as [Hi Hs|sl' cx Hi Hs Hadd|i b sl' c' b' upd ow' Hi Hb Hadd Hu Hud Hud0|i b sl' c' b' prev ow' Hi Hb Hadd Hu Hprev Hud].
  - done.
  - intros pk j; simpl. destruct (decide (pk = d_pubkey a)) as [->|Hpk].
    + rewrite lookup_insert. intros [= <-]. rewrite own_add.
      assert (alive a) as Hal. { apply is_deleted_alive. destruct (is_deleted a) eqn:E; [|done]. exfalso.
        rewrite Hd in Hs; [done|]. intros ?%is_deleted_alive. congruence. }
      rewrite (Ha Hal). rewrite decide_True by done. set_solver.
    + rewrite lookup_insert_ne by done. intros Hj%HI. rewrite own_add. destruct (decide _) as [Heq|]; [rewrite Heq|]; set_solver.
  - intros pk j; simpl. intros Hj. pose proof (HI _ _ Hj) as Hjo.
    destruct upd; [|assert (ow' = st_owners st) as -> by (apply Hud0; by left); done].
    destruct (bc_get b c') as [prev|] eqn:Hprev; [|assert (ow' = st_owners st) as -> by (apply Hud0; by right); done].
    specialize (Hud prev eq_refl eq_refl).
    assert (d_pubkey prev = d_pubkey a) as Hpp by (exact (entry_pk _ _ _ _ _ _ Hok Hi Hb Hprev)).
    destruct (update_owner_delete_spec F (st_owners st) prev a i c' Hpp) as (ow2 & del2 & H2 & Hdel & H3 & H4).
    rewrite Hud in H2. injection H2 as <- <-.
    destruct (decide (j = i)) as [->|Hne]; [|by apply H3]. assert (pk = d_pubkey a) as -> by (by eapply so_inj).
    apply H4. left. split; [done|]. intros (Hf & Ho & Hoo).
    assert (alive a) as Hal. { apply is_deleted_alive. destruct (is_deleted a) eqn:E; [|done]. exfalso.
      assert (false = true) by (apply Hdel; auto). done. }
    apply Ho. rewrite (Ha Hal). done.
  - intros pk j; simpl. destruct (decide (pk = d_pubkey a)) as [->|Hpk]; [by rewrite lookup_delete|].
    rewrite lookup_delete_ne by done. intros Hj. pose proof (HI _ _ Hj) as Hjo.
    assert (d_pubkey prev = d_pubkey a) as Hpp by (exact (entry_pk _ _ _ _ _ _ Hok Hi Hb Hprev)).
    destruct (update_owner_delete_spec F (st_owners st) prev a i c' Hpp) as (ow2 & del2 & H2 & Hdel & H3 & H4).
    rewrite Hud in H2. injection H2 as <- <-. apply H3; [|done]. intros ->. apply Hpk. by eapply so_inj.
Qed.
Lemma owner_slot own_of F st si c st' out : st_ok st -> owner_inv own_of st ->
  process_slot F st si c = Done (st', out) -> owner_inv own_of st'.
Proof.
  intros Hok [HI HA] H. split; [|by eapply st_all_slot].
  destruct (process_slot_spec F st si c Hok) as (st1 & sl & wa & H1 & Hph & Hsl & Hse).
  rewrite H1 in H. injection H as <- <-. intros pk i Hi.
  pose proof (index_back _ _ _ _ _ _ _ _ Hok Hse Hi) as Hi0. destruct (so_entry _ _ _ Hok Hi0) as (b & Hb & Hbc & Hall & _).
  destruct (wa !! i) as [s|] eqn:Hw.
  - destruct (prom_after F b s c) as [[b' del] rep] eqn:Hp.
    destruct (se_entry _ _ _ _ _ _ Hse _ _ _ _ _ _ Hw Hb Hp) as (_ & Hidx & Hown).
    rewrite (Hidx _ Hi0) in Hi. destruct del; [done|]. apply Hown. unfold own_after.
    unfold prom_after in Hp.
    destruct (bc_promote b s c) as [b2 [[a [prev|]]|]] eqn:Hpr; simpl; try by apply HI.
    destruct (drops F c prev a) eqn:Hdr; [done|].
    left. split; [by apply HI|]. intros (Hf & Ho & Hoo).
    assert ((bc_promote b s c).2 = Some (a, Some prev)) as Hr by (by rewrite Hpr).
    apply promote_report_in in Hr as (Hg & _ & _).
    destruct (HA i b Hb) as [HA1 _]. specialize (HA1 _ _ Hg).
    assert (d_pubkey a = pk) as Hpk. { destruct Hall as [Hall _]. by eapply Hall. }
    assert (alive a) as Hal. { apply is_deleted_alive. destruct (is_deleted a) eqn:E; [|done]. exfalso.
      apply not_true_iff_false in Hdr. apply Hdr. apply drops_true. auto. }
    apply Ho. rewrite (HA1 Hal). by rewrite Hpk.
  - apply (se_own _ _ _ _ _ _ Hse); [done|]. by apply HI.
Qed.
Lemma owner_run E own_of h st st' : st_ok st -> owner_inv own_of st ->
  (forall F o a, (F, o) ∈ h -> delivers o a -> (alive a -> d_owner a = own_of (d_pubkey a)) /\ (~ alive a -> fl_sat F a = false)) ->
  run E st h = Done st' -> owner_inv own_of st'.
Proof.
  intros Hok HI Hh. apply (run_inv E (owner_inv own_of)); [done|done|..]; intros.
  - eapply owner_upd; eauto; by eapply Hh.
  - by eapply owner_slot.
Qed.

(** ** Redelivery *)
Lemma add_to_status_again sl s i c sl' c' : add_to_status sl s i c = (sl', c') ->
  add_to_status sl' s i c = (sl', match c with Finalized => Finalized | _ => match sl !! s with Some ss => ss_commit ss | None => c end end).
Proof.
  assert (forall X : gset nat, {[i]} ∪ ({[i]} ∪ X) = {[i]} ∪ X) as HX by set_solver.
  unfold add_to_status. destruct c; intros [= <- <-]; rewrite lookup_insert; cbn [default from_option id ss_commit ss_accounts ss_parent];
    rewrite ?insert_insert, ?HX; destruct (sl !! s); try done.
Qed.
Lemma bc_update_again b a c : bc_ok b -> bc_update (bc_update b a c).1 a c = ((bc_update b a c).1, false).
Proof.
  intros Hb. rewrite (bc_update_unfold b a c). simpl. rewrite bc_update_unfold. unfold upd_proc_changed, upd_proc at 1; simpl.
  destruct (upd_proc_get b a) as (p & Hp & Hw & _). rewrite Hp.
  assert (d_wv p <? d_wv a = false) as -> by (apply N.ltb_ge; lia).
  assert (forall o, newer (if newer o a then Some a else o) a = false) as Hn.
  { intros o. destruct (newer o a) eqn:E; [|done]. unfold newer. rewrite !N.ltb_irrefl. by rewrite andb_false_r. }
  unfold upd_conf, upd_fin. simpl. destruct c; simpl; rewrite ?Hn; done.
Qed.
