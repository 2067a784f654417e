(** What the answer of [update_account] tells (C105). *)
From Verif Require Import Base SMap DataModel FilterModel FilterSpec FilterProofs FilterProps BincodeModel
  ByCommitModel ByCommitSpec ByCommitProofs StoreModel StoreSpec StoreProofs StoreSlot StoreViews StoreHist StoreEffects
  StoreProps StoreLifeProps StoreExactProps.

(** Two stores that answer everything alike. *)
Definition answers_alike (st st' : store) : Prop :=
  (forall pk k, version_at st' pk k = version_at st pk k /\ get_account st' pk k = get_account st pk k) /\
  (forall E F p fl k, get_program_accounts E F st' p fl k = get_program_accounts E F st p fl k) /\
  (forall E F p, create_snapshot E F st' p = create_snapshot E F st p).
Lemma alike_gets st st' : st_index st' = st_index st -> st_owners st' = st_owners st ->
  Forall2 (fun b b' => forall k, bc_get b' k = bc_get b k) (st_accounts st) (st_accounts st') -> answers_alike st st'.
Proof.
  intros H1 H2 H3. assert (forall E c p fl idx, gpa_loop E (st_accounts st') c p fl idx = gpa_loop E (st_accounts st) c p fl idx) as Hl.
  { intros E c p fl idx. induction idx as [|i idx IH]; [done|]. simpl.
    destruct (st_accounts st !! i) as [b|] eqn:Hb.
    - destruct (Forall2_lookup_l _ _ _ _ _ H3 Hb) as (b' & -> & Hbb). simpl. unfold gpa_entry, bc_get_filtered. rewrite Hbb, IH. done.
    - pose proof (Forall2_length _ _ _ H3) as Hlen. apply lookup_ge_None in Hb. assert (st_accounts st' !! i = None) as -> by (apply lookup_ge_None; lia). done. }
  assert (forall E F p fl k, get_program_accounts E F st' p fl k = get_program_accounts E F st p fl k) as Hg.
  { intros E F p fl k. unfold get_program_accounts. rewrite H2. destruct (st_owners st !! p); [|done]. by rewrite Hl. }
  split_and!; [|done|].
  - intros pk k. unfold version_at, get_account. rewrite H1. destruct (st_index st !! pk) as [i|]; [|done]. simpl.
    destruct (st_accounts st !! i) as [b|] eqn:Hb.
    + destruct (Forall2_lookup_l _ _ _ _ _ H3 Hb) as (b' & -> & Hbb). simpl. by rewrite Hbb.
    + pose proof (Forall2_length _ _ _ H3) as Hlen. apply lookup_ge_None in Hb. assert (st_accounts st' !! i = None) as -> by (apply lookup_ge_None; lia). done.
  - intros E F p. unfold create_snapshot. by rewrite Hg.
Qed.
Lemma alike_same st st' : st_index st' = st_index st -> st_owners st' = st_owners st -> st_accounts st' = st_accounts st -> answers_alike st st'.
Proof. intros H1 H2 H3. apply alike_gets; [done|done|]. rewrite H3. apply Forall_Forall2_diag, Forall_forall. done. Qed.

(** If the answer is false nothing answers differently, provided the confirmed version of the account is not older than its finalized one. *)
Theorem C105_false_means_unchanged_partial : forall E F st a c st',
  reachable E st -> update_account F st a c = Done (st', false) ->
  (forall y z, version_at st (d_pubkey a) Finalized = Some y -> version_at st (d_pubkey a) Confirmed = Some z -> version_le y z) ->
  answers_alike st st'.
Proof.
  intros E F st a c st' Hr H Hlad. pose proof (reachable_ok _ _ Hr) as Hok. apply update_account_inv in H; [|done].
  remember false as r eqn:Hrf.
  destruct H as [Hi Hs|sl' cx Hi Hs Hadd|i b sl' c' b' upd ow' Hi Hb Hadd Hu Hud Hud0|i b sl' c' b' prev ow' Hi Hb Hadd Hu Hprev Hud]; try done.
  subst upd. rewrite (Hud0 (or_introl eq_refl)) in *. clear Hud Hud0.
  assert (b' = b) as ->; [|apply alike_same; [done|done|simpl; by apply list_insert_id]].
  assert (forall k, version_at st (d_pubkey a) k = bc_get b k) as Hv by (intros k; by apply version_at_entry with i).
  rewrite !Hv in Hlad. simpl in Hlad. rewrite bc_update_unfold in Hu. injection Hu as <- Hf. apply orb_false_iff in Hf as [Hp Hn].
  unfold upd_proc, upd_proc_changed in *. destruct b as [m cf fn]. simpl in *. destruct (sm_get (d_slot a) m) as [p|] eqn:Hg; [|done]. rewrite Hp. clear Hp. f_equal.
  - unfold upd_conf. simpl. destruct c'; [done|by rewrite Hn|]. destruct (newer cf a) eqn:Hc; [|done]. exfalso.
    apply newer_shows in Hn as (y & -> & Hy). destruct (so_entry _ _ _ Hok Hi) as (b0 & Hb0 & Hbc & _). rewrite Hb in Hb0. injection Hb0 as <-.
    destruct (ok_fin _ Hbc y eq_refl) as (z & Hz & _). simpl in Hz. subst cf. pose proof (Hlad y z eq_refl eq_refl) as Hyz.
    assert (newer (Some z) a = false) by (apply newer_shows; exists z; split; [done|]; unfold version_le in *; lia). congruence.
  - unfold upd_fin. simpl. destruct c'; [done|done|]. by rewrite Hn.
Qed.
Print Assumptions C105_false_means_unchanged_partial.
Example C105_false_example : exists st st', run ext_sample store_empty [upd (acc5 10 2) Finalized; upd (acc5 11 2) Confirmed] = Done st /\
  update_account admit_all st (acc5 10 1) Finalized = Done (st', false) /\
  version_at st 5 Finalized = Some (acc5 10 2) /\ version_at st 5 Confirmed = Some (acc5 11 2) /\ version_le (acc5 10 2) (acc5 11 2).
Proof.
  exists (final [upd (acc5 10 2) Finalized; upd (acc5 11 2) Confirmed]), (final [upd (acc5 10 2) Finalized; upd (acc5 11 2) Confirmed; upd (acc5 10 1) Finalized]).
  split_and!; [crunch|crunch|crunch|crunch|left; vm_compute; reflexivity].
Qed.
(** If what is delivered is newer than what the account shows at the commitment the delivery counts for, the answer is true. *)
Theorem C105_newer_is_answered_true : forall E F st a c st' r k,
  reachable E st -> update_account F st a c = Done (st', r) -> counts_as st a c k ->
  (tracked st (d_pubkey a) /\ ~ shows (version_at st (d_pubkey a) k) a) \/ (~ tracked st (d_pubkey a) /\ fl_sat F a = true) -> r = true.
Proof.
  intros E F st a c st' r k Hr H ->%counts_as_effective Hcase. pose proof (reachable_ok _ _ Hr) as Hok.
  destruct Hcase as [[Ht Hn]|[Ht Hs]]; [|destruct (update_self F st a c st' r Hok H) as (_ & _ & H3); destruct (H3 Ht) as (-> & _); done].
  apply update_account_inv in H; [|done].
  destruct H as [Hi Hs|sl' cx Hi Hs Hadd|i b sl' c' b' upd ow' Hi Hb Hadd Hu Hud Hud0|i b sl' c' b' prev ow' Hi Hb Hadd Hu Hprev Hud]; try done.
  { destruct Ht as [? ?]. congruence. }
  pose proof (effective_add _ _ _ _ _ _ Hadd) as ->. rewrite (version_at_entry st _ i b) in Hn by done. rewrite <- newer_shows in Hn. apply not_false_iff_true in Hn.
  rewrite bc_update_unfold in Hu. injection Hu as _ <-. destruct (effective st a c); simpl in Hn; [|rewrite Hn; apply orb_true_r..].
  rewrite orb_false_r. unfold upd_proc_changed. destruct (sm_get (d_slot a) (bc_proc b)) as [p|] eqn:Hg; [|done].
  destruct (so_entry _ _ _ Hok Hi) as (b0 & Hb0 & Hbc & _ & Hne). rewrite Hb in Hb0. injection Hb0 as <-. destruct (sm_last_nonempty _ Hne) as (kl & l & Hl). rewrite Hl in Hn.
  pose proof Hl as Hl'. apply sm_last_spec in Hl' as [Hgl Hmax]; [|by apply ok_sorted]. pose proof (ok_key _ Hbc _ _ Hgl). pose proof (Hmax _ _ Hg).
  simpl in Hn. apply orb_true_iff in Hn as [Hn|Hn]; [apply N.ltb_lt in Hn; lia|]. apply andb_true_iff in Hn as [Hn1 Hn2]. apply N.eqb_eq in Hn1.
  assert (l = p) as ->; [|done]. rewrite <- Hn1, H, Hgl in Hg. by injection Hg.
Qed.
Print Assumptions C105_newer_is_answered_true.
Example C105_newer_example : exists st st', run ext_sample store_empty ex_late = Done st /\ update_account admit_all st (acc5 10 2) Processed = Done (st', true) /\
  counts_as st (acc5 10 2) Processed Confirmed /\ tracked st 5 /\ version_at st 5 Confirmed = Some (acc5 9 1) /\ ~ shows (Some (acc5 9 1)) (acc5 10 2).
Proof.
  exists (final ex_late), (final (ex_late ++ [upd (acc5 10 2) Processed])). split_and!; [crunch|crunch| | |crunch|].
  - split; [done|]. intros _. by vm_compute.
  - exists 0%nat. crunch.
  - intros (x & [= <-] & Hx). unfold version_le in Hx. simpl in Hx. lia.
Qed.
(** Without the proviso the answer false is wrong: a finalized delivery replaces a confirmed version and is answered with false. *)
Theorem C105_false_but_changed_refuted : exists E h F st a st',
  run E store_empty h = Done st /\ update_account F st a Finalized = Done (st', false) /\
  get_account st (d_pubkey a) Confirmed <> get_account st' (d_pubkey a) Confirmed.
Proof.
  set (h := [slt 10 9 Processed; upd (acc5 10 3) Confirmed; slt 10 9 Processed; upd (acc5 10 3) Processed; slt 10 9 Confirmed; slt 10 9 Processed; upd (acc5 10 5) Processed; slt 10 9 Finalized]).
  exists ext_sample, h, admit_all, (final h), (acc5 10 4), (final (h ++ [upd (acc5 10 4) Finalized])).
  split; [crunch|]. split; [crunch|]. vm_compute. done.
Qed.
Print Assumptions C105_false_but_changed_refuted.
(** And the answer true does not mean that anything changed: a version older than the finalized one is answered with true. *)
Theorem C105_true_but_unchanged_refuted : exists E h F st a st',
  run E store_empty h = Done st /\ update_account F st a Finalized = Done (st', true) /\ answers_alike st st'.
Proof.
  set (h := [upd (acc5 10 1) Finalized]).
  exists ext_sample, h, admit_all, (final h), (acc5 9 1), (final (h ++ [upd (acc5 9 1) Finalized])). split; [crunch|]. split; [crunch|].
  apply alike_gets; [crunch|crunch|]. assert (st_accounts (final h) = [bc_new (acc5 10 1) Finalized]) as -> by crunch.
  assert (st_accounts (final (h ++ [upd (acc5 9 1) Finalized])) = [BC [(9, acc5 9 1); (10, acc5 10 1)] (Some (acc5 10 1)) (Some (acc5 10 1))]) as -> by crunch.
  constructor; [|constructor]. intros []; reflexivity.
Qed.
Print Assumptions C105_true_but_unchanged_refuted.
