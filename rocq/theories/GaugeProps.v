(** The gauges of the account store (C95). *)
From Verif Require Import Base SMap DataModel FilterModel FilterSpec BincodeModel ByCommitModel ByCommitProofs StoreModel StoreSpec
  StoreProofs StoreSlot StoreViews StoreHist StoreEffects FilterProps StoreProps GaugeModel.

(** Account [pk] is answered at some commitment. *)
Definition served (st : store) (pk : pubkey) : Prop := exists c a, get_account st pk c = Done (ROk (Some a)).
(** Some call of the history delivers account [pk]. *)
Definition brought (h : list (filt * op)) (pk : pubkey) : Prop := exists F o a, (F, o) ∈ h /\ delivers o a /\ d_pubkey a = pk.
(** No call closes an account, and every filter store of the history wants every account. *)
Definition only_wanted (h : list (filt * op)) : Prop :=
  forall F o F' o' a, (F, o) ∈ h -> (F', o') ∈ h -> delivers o a -> alive a /\ fl_sat F' a = true.

Lemma g_update_len F st a c st' r G : update_account F st a c = Done (st', r) ->
  (ag_stored (g_update F st a G) = ag_stored G + Z.of_nat (length (st_accounts st')) - Z.of_nat (length (st_accounts st)))%Z.
Proof.
  unfold update_account, g_update. destruct (negb _ && negb _ && negb _); [intros [= <- <-]; simpl; lia|].
  destruct (maybe_update_status st a c) as [sl c']. destruct (st_index st !! d_pubkey a) as [i|].
  - destruct (st_accounts st !! i) as [b|]; simpl; [|done].
    destruct (bc_update b a c') as [b' []]; [|intros [= <- <-]; simpl; rewrite insert_length; lia].
    destruct (bc_get b c') as [p|]; [|intros [= <- <-]; simpl; rewrite insert_length; lia].
    destruct (update_owner_delete _ _ _ _ _ _) as [[ow []]|]; simpl; [..|done]; intros [= <- <-]; simpl; rewrite insert_length; lia.
  - destruct (fl_sat F a); [|intros [= <- <-]; simpl; lia].
    destruct (add_to_status _ _ _ _) as [sl' c0]. intros [= <- <-]. simpl. rewrite app_length. simpl. lia.
Qed.
Lemma g_load_len F l st st' G G' : load_accounts F st l = Done st' -> g_load F st l G = Done G' ->
  (ag_stored G' = ag_stored G + Z.of_nat (length (st_accounts st')) - Z.of_nat (length (st_accounts st)))%Z.
Proof.
  revert st G. induction l as [|a l IH]; intros st G; simpl; [intros [= <-] [= <-]; lia|].
  unfold init_account. destruct (update_account F st a Finalized) as [[st1 r]|] eqn:Hu; simpl; [|done].
  intros H1 H2. rewrite (IH _ _ H1 H2), (g_update_len _ _ _ _ _ _ G Hu). lia.
Qed.
Lemma g_step_len E F st o st' r G G' : st_ok st -> step E F st o = Done (st', r) -> g_step F st o G = Done G' ->
  (ag_stored G' = ag_stored G + Z.of_nat (length (st_accounts st')) - Z.of_nat (length (st_accounts st)))%Z.
Proof.
  intros Hok. destruct o as [a c|a|pk c|p fl c|si c|p|p b]; simpl.
  - destruct (update_account F st a c) as [[st1 r1]|] eqn:H; simpl; [|done]. intros [= <- <-] [= <-]. by eapply g_update_len.
  - unfold init_account. destruct (update_account F st a Finalized) as [[st1 r1]|] eqn:H; simpl; [|done].
    intros [= <- <-] [= <-]. by eapply g_update_len.
  - destruct (get_account st pk c); simpl; [|done]. intros [= <- <-] [= <-]. lia.
  - destruct (get_program_accounts E F st p fl c); simpl; [|done]. intros [= <- <-] [= <-]. lia.
  - destruct (process_slot_spec F st si c Hok) as (st1 & sl & wa & -> & _ & _ & Hse). simpl. intros [= <- <-] [= <-].
    rewrite (se_len _ _ _ _ _ _ Hse). lia.
  - destruct (create_snapshot E F st p); simpl; [|done]. intros [= <- <-] [= <-]. lia.
  - unfold load_from_snapshot. destruct (unbincode_accounts b) as [l|]; simpl; [|intros [= <- <-] [= <-]; lia].
    destruct (load_accounts F st l) as [st1|] eqn:H; simpl; [|done]. intros [= <- <-]. by apply g_load_len.
Qed.
Lemma g_run_len E h st st' G G' : st_ok st -> g_run E st G h = Done (st', G') -> run E st h = Done st' /\
  (ag_stored G' = ag_stored G + Z.of_nat (length (st_accounts st')) - Z.of_nat (length (st_accounts st)))%Z.
Proof.
  revert st G. induction h as [|[F o] h IH]; intros st G Hok; simpl; [intros [= <- <-]; split; [done|lia]|].
  destruct (g_step F st o G) as [G1|] eqn:HG; simpl; [|done].
  destruct (step E F st o) as [[st1 r]|] eqn:Hs; simpl; [|done]. intros H.
  apply IH in H as [H1 H2]; [|by eapply step_ok]. split; [done|]. rewrite H2, (g_step_len _ _ _ _ _ _ _ _ Hok Hs HG). lia.
Qed.
(** The gauges follow every history that runs. *)
Lemma g_run_total E h st st' G : st_ok st -> run E st h = Done st' -> exists G', g_run E st G h = Done (st', G').
Proof.
  revert st G. induction h as [|[F o] h IH]; intros st G Hok; simpl; [intros [= <-]; eauto|].
  destruct (step E F st o) as [[st1 r]|] eqn:Hs; simpl; [|done]. intros H.
  assert (exists G1, g_step F st o G = Done G1) as [G1 ->].
  { destruct o; simpl; eauto. destruct (unbincode_accounts _) as [l|]; [|eauto]. clear -Hok. revert st G Hok.
    induction l as [|a l IHl]; intros st G Hok; simpl; [eauto|].
    unfold init_account. destruct (update_account_cases F st a Finalized Hok) as (st1 & r & H1 & Hc). rewrite H1. simpl.
    apply IHl. by eapply upd_case_ok. }
  simpl. apply IH; [by eapply step_ok|done].
Qed.

Lemma below_length (l : list nat) n : NoDup l -> (forall i, i ∈ l -> (i < n)%nat) -> (length l <= n)%nat.
Proof.
  intros Hnd H. rewrite <- (seq_length n 0). apply submseteq_length. apply NoDup_submseteq; [done|].
  intros i Hi. apply elem_of_seq. specialize (H i Hi). lia.
Qed.
Definition slot_of (st : store) (pk : pubkey) : nat := default 0%nat (st_index st !! pk).
Lemma slots_nodup st l : st_ok st -> NoDup l -> (forall pk, pk ∈ l -> tracked st pk) -> NoDup (slot_of st <$> l).
Proof.
  intros Hok. induction l as [|k l IH]; intros Hnd Ht; simpl; [constructor|].
  apply NoDup_cons in Hnd as [Hk Hnd]. constructor; [|apply IH; [done|]; intros pk Hpk; apply Ht; by right].
  intros (k' & He & Hk')%elem_of_list_fmap. destruct (Ht k) as [i Hi]; [by left|]. destruct (Ht k') as [j Hj]; [by right|].
  unfold slot_of in He. rewrite Hi, Hj in He. simpl in He. subst j. by rewrite (so_inj _ Hok _ _ _ Hi Hj) in Hk.
Qed.
Lemma tracked_length st l : st_ok st -> NoDup l -> (forall pk, pk ∈ l -> tracked st pk) -> (length l <= length (st_accounts st))%nat.
Proof.
  intros Hok Hnd Ht. rewrite <- (fmap_length (slot_of st) l). apply below_length; [by apply slots_nodup|].
  intros i (k & -> & Hk)%elem_of_list_fmap. destruct (Ht k Hk) as [i Hi]. unfold slot_of. rewrite Hi. by eapply so_bound.
Qed.

(** C95: the gauge of stored accounts is never below the number of accounts the store answers. *)
Theorem C95_bounds_served E h st G l : g_run E store_empty ag_zero h = Done (st, G) -> NoDup l -> (forall pk, pk ∈ l -> served st pk) ->
  (Z.of_nat (length l) <= ag_stored G)%Z.
Proof.
  intros Hr Hnd Hl. destruct (g_run_len _ _ _ _ _ _ st_ok_empty Hr) as [Hrun ->]. simpl.
  assert (st_ok st) as Hok by (eapply run_ok; [apply st_ok_empty|done]).
  enough (length l <= length (st_accounts st))%nat by lia. apply tracked_length; [done..|].
  intros pk Hpk. destruct (Hl pk Hpk) as (c & a & Hg). unfold get_account, tracked in *.
  destruct (st_index st !! pk); [by eexists|done].
Qed.

(** Without closed and unwanted accounts every memory entry belongs to an account. *)
Definition full (st : store) : Prop := forall i, (i < length (st_accounts st))%nat -> exists pk, st_index st !! pk = Some i.
Lemma upd_full F st a c st' r : st_ok st -> update_account F st a c = Done (st', r) -> alive a -> fl_sat F a = true ->
  full st -> full st' /\ forall pk, tracked st' pk <-> tracked st pk \/ pk = d_pubkey a.
Proof.
  intros Hok H Hal Hsat Hf. apply update_account_inv in H; [|done].
  destruct H as [Hi Hs|sl' c0 Hi Hs Hadd|i b sl' c' b' upd ow' Hi Hb Hadd Hu Hud Hud0|i b sl' c' b' prev ow' Hi Hb Hadd Hu Hprev Hud].
  - congruence.
  - unfold tracked, full. simpl. split.
    + intros i. rewrite app_length. simpl. intros Hlt. destruct (decide (i = length (st_accounts st))) as [->|Hne].
      * exists (d_pubkey a). by rewrite lookup_insert.
      * destruct (Hf i) as [pk Hpk]; [lia|]. exists pk. rewrite lookup_insert_ne; [done|]. intros <-. congruence.
    + intros pk. rewrite lookup_insert_is_Some'. naive_solver.
  - split; [intros j; simpl; rewrite insert_length; apply Hf|]. unfold tracked. simpl. intros pk. split; [by left|].
    intros [? | ->]; [done|]. rewrite Hi. eauto.
  - exfalso. unfold update_owner_delete in Hud. destruct (bool_decide (d_pubkey prev = _)); [|done].
    destruct (bool_decide (d_owner prev = _)); [done|]. unfold is_deleted in Hud. unfold alive in Hal.
    rewrite Hsat in Hud. replace (d_lamports a =? 0) with false in Hud by (symmetry; apply N.eqb_neq; lia). simpl in Hud.
    rewrite andb_false_r in Hud. done.
Qed.
Lemma slot_full F st si c st' out : st_ok st -> process_slot F st si c = Done (st', out) ->
  st_all (fun a => alive a /\ fl_sat F a = true) st -> full st -> full st' /\ forall pk, tracked st' pk <-> tracked st pk.
Proof.
  intros Hok H HP Hf. destruct (process_slot_spec F st si c Hok) as (st1 & sl & wa & H1 & _ & _ & Hse).
  rewrite H1 in H. injection H as <- <-.
  assert (forall pk, st_index st1 !! pk = st_index st !! pk) as Hix.
  { intros pk. destruct (st_index st !! pk) as [i|] eqn:Hi; [|by apply (se_none _ _ _ _ _ _ Hse)].
    destruct (wa !! i) as [s|] eqn:Hw; [|by eapply (se_index _ _ _ _ _ _ Hse)].
    destruct (so_entry _ _ _ Hok Hi) as (b & Hb & _). destruct (prom_after F b s c) as [[b2 del] rep] eqn:Hp.
    destruct (se_entry _ _ _ _ _ _ Hse _ _ _ _ _ _ Hw Hb Hp) as (_ & H2 & _). rewrite (H2 _ Hi).
    enough (del = false) as -> by done. unfold prom_after in Hp.
    pose proof (bc_all_promote _ b s c (so_bc _ Hok _ _ Hb) (HP _ _ Hb)) as Hbp.
    destruct (bc_promote b s c) as [b3 [[a [prev|]]|]] eqn:Hpr; simpl in Hbp; simplify_eq; try done.
    destruct (drops F c prev a) eqn:Hd; simplify_eq; [|done]. exfalso.
    assert (alive a /\ fl_sat F a = true) as [Hal Hsat].
    { pose proof (HP _ _ Hb) as (Hq & _). apply (Hq s). pose proof (bc_promote_report b s c) as Hrep. rewrite Hpr in Hrep. simpl in Hrep.
      destruct c; [done|..]; (destruct (sm_get s (bc_proc b)) as [x|]; [|done]); (destruct (bc_get b _) as [y|]; [|done]);
        (destruct (d_slot y <? d_slot x); [|done]); by injection Hrep as -> ->. }
    unfold drops in Hd. rewrite Hsat in Hd. unfold is_deleted, alive in *. replace (d_lamports a =? 0) with false in Hd by (symmetry; apply N.eqb_neq; lia).
    simpl in Hd. rewrite ?andb_false_r in Hd. done. }
  split.
  - intros i. rewrite (se_len _ _ _ _ _ _ Hse). intros Hlt. destruct (Hf i Hlt) as [pk Hpk]. exists pk. by rewrite Hix.
  - intros pk. unfold tracked. by rewrite Hix.
Qed.

Lemma load_full F l st st' : st_ok st -> load_accounts F st l = Done st' -> (forall a, a ∈ l -> alive a /\ fl_sat F a = true) -> full st ->
  full st' /\ forall pk, tracked st' pk <-> tracked st pk \/ exists a, a ∈ l /\ d_pubkey a = pk.
Proof.
  revert st. induction l as [|a l IH]; intros st Hok H Hl Hf; simpl in H.
  { injection H as <-. split; [done|]. intros pk. split; [by left|]. intros [?|(a & Ha & _)]; [done|]. by apply elem_of_nil in Ha. }
  unfold init_account in H. destruct (update_account F st a Finalized) as [[st1 r]|] eqn:Hu; simpl in H; [|done].
  destruct (Hl a) as [Hal Hs]; [by left|]. destruct (upd_full _ _ _ _ _ _ Hok Hu Hal Hs Hf) as [Hf1 Ht1].
  destruct (IH st1) as [Hf2 Ht2]; [by eapply update_ok|done|intros; apply Hl; by right|done|]. split; [done|].
  intros pk. rewrite Ht2, Ht1. split.
  - intros [[?| ->]|(b & ? & <-)]; [by left|right; exists a; split; [by left|done]|right; exists b; split; [by right|done]].
  - intros [?|(b & [-> |?]%elem_of_cons & <-)]; eauto.
Qed.
Lemma step_full E F st o st' r : st_ok st -> step E F st o = Done (st', r) -> (forall a, delivers o a -> alive a /\ fl_sat F a = true) ->
  st_all (fun a => alive a /\ fl_sat F a = true) st -> full st -> full st' /\ forall pk, tracked st' pk <-> tracked st pk \/ exists a, delivers o a /\ d_pubkey a = pk.
Proof.
  intros Hok H Hd HP Hf. assert (forall st0 : store, st0 = st -> (forall a, ~ delivers o a) ->
    full st0 /\ forall pk, tracked st0 pk <-> tracked st pk \/ exists a, delivers o a /\ d_pubkey a = pk) as Hsame.
  { intros ? -> Hn. split; [done|]. intros pk. split; [by left|]. intros [?|(a & Ha & _)]; [done|]. by apply Hn in Ha. }
  destruct o as [a c|a|pk c|p fl c|si c|p|p b]; simpl in *.
  - destruct (update_account F st a c) as [[st1 r1]|] eqn:Hu; simpl in H; [|done]. injection H as <- <-.
    destruct (Hd a eq_refl) as [Hal Hs]. destruct (upd_full _ _ _ _ _ _ Hok Hu Hal Hs Hf) as [Hf1 Ht1]. split; [done|].
    intros pk. rewrite Ht1. naive_solver.
  - unfold init_account in H. destruct (update_account F st a Finalized) as [[st1 r1]|] eqn:Hu; simpl in H; [|done]. injection H as <- <-.
    destruct (Hd a eq_refl) as [Hal Hs]. destruct (upd_full _ _ _ _ _ _ Hok Hu Hal Hs Hf) as [Hf1 Ht1]. split; [done|].
    intros pk. rewrite Ht1. naive_solver.
  - destruct (get_account st pk c); simpl in H; [|done]. injection H as <- <-. apply Hsame; [done|naive_solver].
  - destruct (get_program_accounts E F st p fl c); simpl in H; [|done]. injection H as <- <-. apply Hsame; [done|naive_solver].
  - destruct (process_slot F st si c) as [[st1 out]|] eqn:Hs; simpl in H; [|done]. injection H as <- <-.
    destruct (slot_full _ _ _ _ _ _ Hok Hs HP Hf) as [Hf1 Ht1]. split; [done|]. intros pk. rewrite Ht1. naive_solver.
  - destruct (create_snapshot E F st p); simpl in H; [|done]. injection H as <- <-. apply Hsame; [done|naive_solver].
  - unfold load_from_snapshot in H. destruct (unbincode_accounts b) as [l|] eqn:Hl; simpl in H; cycle 1.
    { injection H as <- <-. apply Hsame; [done|naive_solver]. }
    destruct (load_accounts F st l) as [st1|] eqn:Hu; simpl in H; [|done]. injection H as <- <-.
    destruct (load_full F l st st1 Hok Hu) as [Hf1 Ht1]; [intros a Ha; apply Hd; eauto|done|]. split; [done|].
    intros pk. rewrite Ht1. naive_solver.
Qed.
Lemma run_full E h0 h : forall rest st, h0 = rest ++ h -> only_wanted h0 -> st_ok st -> full st ->
  st_all (fun a => forall F o, (F, o) ∈ h0 -> alive a /\ fl_sat F a = true) st ->
  forall st', run E st h = Done st' -> full st' /\ forall pk, tracked st' pk <-> tracked st pk \/ brought h pk.
Proof.
  induction h as [|[F o] h IH]; intros rest st Hh Hw Hok Hf HP st' H; simpl in H.
  { injection H as <-. split; [done|]. intros pk. split; [by left|]. intros [?|(F & o & a & Hi & _)]; [done|]. by apply elem_of_nil in Hi. }
  destruct (step E F st o) as [[st1 r]|] eqn:Hs; simpl in H; [|done].
  assert ((F, o) ∈ h0) as Hin by (rewrite Hh; apply elem_of_app; right; left).
  destruct (step_full E F st o st1 r Hok Hs) as [Hf1 Ht1]; [intros a Ha; by eapply Hw| |done|].
  { intros i b Hb. specialize (HP i b Hb). destruct HP as (H1 & H2 & H3).
    split_and!; [intros k x Hx; exact (H1 k x Hx F o Hin)|intros x Hx; exact (H2 x Hx F o Hin)|intros x Hx; exact (H3 x Hx F o Hin)]. }
  destruct (IH (rest ++ [(F, o)]) st1) with (st' := st') as [Hf2 Ht2]; [by rewrite <- app_assoc|done|by eapply step_ok|done| |done|].
  { eapply st_all_step; [exact Hok|exact HP| |exact Hs]. intros a Ha F' o' Hi. exact (Hw F o F' o' a Hin Hi Ha). }
  split; [done|]. intros pk. rewrite Ht2, Ht1. split.
  - intros [[?|(a & ? & <-)]|(F' & o' & a & ? & ? & <-)]; [by left|right; exists F, o, a; split; [by left|done]|right; exists F', o', a; split; [by right|done]].
  - intros [?|(F' & o' & a & Hi & Ha & <-)]; [by left; left|]. apply elem_of_cons in Hi as [[= -> ->]|Hi]; [left; right; eauto|].
    right. exists F', o', a. done.
Qed.

(** C95: with no account closed and every account wanted, the gauge is the number of accounts delivered. *)
Theorem C95_counts_accounts_partial E h st G l : g_run E store_empty ag_zero h = Done (st, G) -> only_wanted h ->
  NoDup l -> (forall pk, pk ∈ l <-> brought h pk) -> ag_stored G = Z.of_nat (length l).
Proof.
  intros Hr Hw Hnd Hl. destruct (g_run_len _ _ _ _ _ _ st_ok_empty Hr) as [Hrun ->]. simpl.
  assert (st_ok st) as Hok by (eapply run_ok; [apply st_ok_empty|done]).
  destruct (run_full E h h [] store_empty eq_refl Hw st_ok_empty) with (st' := st) as [Hf Ht]; [intros i Hi; simpl in Hi; lia| |done|].
  { intros i b Hb. simpl in Hb. by rewrite lookup_nil in Hb. }
  assert (forall pk, pk ∈ l -> tracked st pk) as Htr by (intros pk Hpk; apply Ht; right; by apply Hl).
  pose proof (tracked_length st l Hok Hnd Htr) as Hle.
  enough (length (st_accounts st) <= length l)%nat by lia.
  rewrite <- (seq_length (length (st_accounts st)) 0), <- (fmap_length (slot_of st) l). apply submseteq_length.
  apply NoDup_submseteq; [apply NoDup_seq|]. intros i Hi%elem_of_seq. destruct (Hf i) as [pk Hpk]; [lia|].
  apply elem_of_list_fmap. exists pk. split; [unfold slot_of; by rewrite Hpk|]. apply Hl.
  assert (tracked st pk) as [[j Hj]|?]%Ht by (by eexists); [|done]. simpl in Hj. by rewrite lookup_empty in Hj.
Qed.
Print Assumptions C95_bounds_served.
Print Assumptions C95_counts_accounts_partial.

Definition g_final (h : list (filt * op)) : store * agauge :=
  match g_run ext_sample store_empty ag_zero h with Done x => x | Panic => (store_empty, ag_zero) end.
(** Two accounts, one of them in two slots, slots committed: the gauge is 2, both are served. *)
Definition ex_gauge : list (filt * op) :=
  [ slt 10 9 Processed; upd (acc5 10 1) Processed; upd (mk_acct 6 8 4 (bs [2]) 10 2) Processed; slt 10 9 Confirmed;
    slt 11 10 Processed; upd (acc5 11 3) Processed; slt 11 10 Finalized ].
Example C95_example : g_run ext_sample store_empty ag_zero ex_gauge = Done (g_final ex_gauge) /\ ag_stored (g_final ex_gauge).2 = 2%Z /\
  ag_latest (g_final ex_gauge).2 = 11%Z /\ NoDup [5; 6] /\ (forall pk, pk ∈ [5; 6] -> served (g_final ex_gauge).1 pk).
Proof.
  split; [vm_compute; reflexivity|]. split; [vm_compute; reflexivity|]. split; [vm_compute; reflexivity|].
  split; [repeat constructor; set_solver|]. intros pk Hpk. rewrite !elem_of_cons, elem_of_nil in Hpk.
  destruct Hpk as [-> |[-> |[]]]; exists Finalized; eexists; vm_compute; reflexivity.
Qed.
Example C95_example_hyps : only_wanted ex_gauge /\ forall pk, pk ∈ [5; 6] <-> brought ex_gauge pk.
Proof.
  split.
  - intros F o F' o' a H1 H2. unfold ex_gauge, upd, slt in H1, H2. rewrite !elem_of_cons, elem_of_nil in H1, H2.
    assert (F' = admit_all) as -> by (destruct_or?; congruence).
    destruct_or? H1; simplify_eq; simpl; try done; intros <-; (split; [vm_compute; reflexivity|done]).
  - intros pk. rewrite !elem_of_cons, elem_of_nil. split.
    + intros [-> |[-> |[]]].
      * exists admit_all, (OUpdate (acc5 10 1) Processed), (acc5 10 1). split; [unfold ex_gauge, upd; set_solver|done].
      * exists admit_all, (OUpdate (mk_acct 6 8 4 (bs [2]) 10 2) Processed), (mk_acct 6 8 4 (bs [2]) 10 2). split; [unfold ex_gauge, upd; set_solver|done].
    + intros (F & o & a & H1 & H2 & <-). unfold ex_gauge, upd, slt in H1. rewrite !elem_of_cons, elem_of_nil in H1.
      destruct_or? H1; simplify_eq; simpl in H2; try done; subst a; simpl; auto.
Qed.

Lemma none_served st : st_index st = ∅ -> forall pk, ~ served st pk.
Proof. intros He pk (c & a & H). unfold get_account in H. by rewrite He, lookup_empty in H. Qed.
(** "The gauge is the number of accounts served": false once an account has been closed. *)
Theorem C95_closed_refuted : exists E h st G, g_run E store_empty ag_zero h = Done (st, G) /\ (forall pk, ~ served st pk) /\ ag_stored G = 1%Z.
Proof.
  set (h := [upd (acc5 10 1) Finalized; upd (closed5 11 2) Finalized]). exists ext_sample, h, (g_final h).1, (g_final h).2.
  split; [vm_compute; reflexivity|]. split; [|vm_compute; reflexivity]. apply none_served. apply map_to_list_empty_iff. vm_compute. reflexivity.
Qed.
Print Assumptions C95_closed_refuted.

(** The accounts an operation delivers, in order. *)
Definition accts_of (o : op) : list acct :=
  match o with
  | OUpdate a _ | OInit a => [a]
  | OLoad _ b => default [] (unbincode_accounts b)
  | _ => []
  end.
Lemma g_update_latest F st a G : ag_latest (g_update F st a G) = as_i64 (d_slot a).
Proof. unfold g_update. destruct (_ && _); [done|]. destruct (_ !! _); [done|]. by destruct (fl_sat F a). Qed.
Lemma g_step_latest F st o G G' : g_step F st o G = Done G' ->
  ag_latest G' = match last (accts_of o) with Some a => as_i64 (d_slot a) | None => ag_latest G end.
Proof.
  destruct o as [a c|a|pk c|p fl c|si c|p|p b]; simpl; try (by intros [= <-]).
  - intros [= <-]. apply g_update_latest.
  - intros [= <-]. apply g_update_latest.
  - destruct (unbincode_accounts b) as [l|]; simpl; [|by intros [= <-]]. revert st G. induction l as [|a l IH]; intros st G; simpl; [by intros [= <-]|].
    destruct (init_account F st a) as [st1|]; simpl; [|done]. intros H. apply IH in H. rewrite H, g_update_latest. by rewrite last_cons; destruct (last l).
Qed.
(** C95: the slot gauge is the slot of the account delivered last, wanted or not. *)
Theorem C95_latest_slot E h st G : g_run E store_empty ag_zero h = Done (st, G) ->
  ag_latest G = match last (h ≫= fun x => accts_of x.2) with Some a => as_i64 (d_slot a) | None => 0%Z end.
Proof.
  change 0%Z with (ag_latest ag_zero). generalize store_empty as st0, ag_zero as G0. induction h as [|[F o] h IH]; intros st0 G0; simpl; [by intros [= <- <-]|].
  destruct (g_step F st0 o G0) as [G1|] eqn:HG; simpl; [|done]. destruct (step E F st0 o) as [[st1 r]|]; simpl; [|done]. intros H.
  rewrite (IH _ _ H), last_app. change (list_bind _ _ ?f ?x) with (mbind (M:=list) f x). destruct (last (h ≫= _)) as [a|]; [done|]. by apply g_step_latest in HG.
Qed.
Theorem C95_slot_conversion n : n < 2 ^ 63 -> as_i64 n = Z.of_N n.
Proof.
  intros H. unfold as_i64. rewrite Z.mod_small by lia. destruct (Z.ltb_spec (Z.of_N n) (2 ^ 63)); lia.
Qed.
Print Assumptions C95_latest_slot.
Print Assumptions C95_slot_conversion.
(** "The slot gauge never goes back": false, an older update sets it. *)
Theorem C95_slot_goes_back_refuted : exists E h F o st G st' G', g_run E store_empty ag_zero h = Done (st, G) /\
  g_run E st G [(F, o)] = Done (st', G') /\ (ag_latest G' < ag_latest G)%Z.
Proof.
  exists ext_sample, [upd (acc5 12 3) Processed], admit_all, (OUpdate (acc5 10 1) Processed).
  eexists _, _, _, _. split; [vm_compute; reflexivity|]. split; [vm_compute; reflexivity|]. done.
Qed.
Print Assumptions C95_slot_goes_back_refuted.

(** ** Memory *)
(** An account opened and closed [n] times. *)
Fixpoint reopened (n : nat) (s : N) : list (filt * op) :=
  match n with O => [] | S n' => upd (acc5 s 1) Finalized :: upd (closed5 (s + 1) 2) Finalized :: reopened n' (s + 2) end.
Lemma reopened_run n : forall s st G, st_ok st -> (forall pk, ~ tracked st pk) -> exists st' G', g_run ext_sample st G (reopened n s) = Done (st', G') /\
  st_ok st' /\ (forall pk, ~ tracked st' pk) /\ (ag_stored G' = ag_stored G + Z.of_nat n)%Z.
Proof.
  induction n as [|n IH]; intros s st G Hok Hn; cbn [reopened].
  { exists st, G. split; [done|]. split; [done|]. split; [done|lia]. }
  assert (forall k, st_index st !! k = None) as He. { intros k. destruct (st_index st !! k) eqn:Hk; [|done]. destruct (Hn k). by eexists. }
  destruct (update_account_cases admit_all st (acc5 s 1) Finalized Hok) as (st1 & r1 & H1 & Hc1).
  assert (st_ok st1) as Hok1 by (by eapply update_ok).
  destruct (update_account_cases admit_all st1 (closed5 (s + 1) 2) Finalized Hok1) as (st2 & r2 & H2 & Hc2).
  assert (st_ok st2) as Hok2 by (by eapply update_ok).
  destruct Hc1 as [Hi Hs|sl' c0 Hi Hs Hadd|i b sl' c' b' upd ow' Hi|i b sl' c' b' prev ow' Hi];
    [done| |rewrite He in Hi; done..].
  set (st1 := Store _ _ _ _) in *.
  assert (version_at st1 5 Finalized = Some (acc5 s 1)) as Hv.
  { unfold version_at, st1. cbn [st_index st_accounts]. change (d_pubkey (acc5 s 1)) with 5. rewrite lookup_insert. simpl.
    rewrite lookup_app_r by lia. by rewrite Nat.sub_diag. }
  assert (forall pk, ~ tracked st2 pk) as Hn2.
  { intros pk Ht. destruct (decide (pk = 5)) as [-> |Hne].
    - revert Ht. change 5 with (d_pubkey (closed5 (s + 1) 2)). eapply (update_close admit_all st1 _ st2 (acc5 s 1) r2 Finalized); [exact Hok1|exact H2|done|exact Hv|simpl; lia|done|].
      left. unfold alive. simpl. lia.
    - apply (update_tracked_other _ _ _ _ _ _ pk Hok1 H2) in Ht; [|done]. by apply (update_tracked_other _ _ _ _ _ _ pk Hok H1), Hn in Ht. }
  set (G1 := g_update admit_all st (acc5 s 1) G). set (G2 := g_update admit_all st1 (closed5 (s + 1) 2) G1).
  assert (ag_stored G1 = ag_stored G + 1)%Z as HG1.
  { unfold G1, g_update. change (d_pubkey (acc5 s 1)) with 5. rewrite He. by rewrite andb_false_r. }
  assert (ag_stored G2 = ag_stored G1) as HG2.
  { unfold G2, g_update. change (d_pubkey (closed5 (s + 1) 2)) with 5. unfold st1. cbn [st_index]. change (d_pubkey (acc5 s 1)) with 5.
    rewrite lookup_insert. by rewrite andb_false_r. }
  destruct (IH (s + 2) st2 G2 Hok2 Hn2) as (st' & G' & Hr & Hok' & Hn' & HG').
  exists st', G'. split; [|split; [done|]; split; [done|]; rewrite HG', HG2, HG1; lia].
  cbn [g_run upd g_step mbind res_bind step]. rewrite H1. cbn [mbind res_bind]. rewrite H2. exact Hr.
Qed.

(** "Memory is bounded by the number of accounts": false, every re-opening of one account takes another entry for good. *)
Theorem C97_entries_never_reused_refuted : forall n, exists E h st G, g_run E store_empty ag_zero h = Done (st, G) /\
  (forall pk, brought h pk -> pk = 5) /\ (forall pk, ~ served st pk) /\ ag_stored G = Z.of_nat n.
Proof.
  intros n. destruct (reopened_run n 10 store_empty ag_zero st_ok_empty) as (st & G & Hr & Hok & Hn & HG).
  { intros pk [i Hi]. simpl in Hi. by rewrite lookup_empty in Hi. }
  exists ext_sample, (reopened n 10), st, G. split; [done|]. split; [|split; [|by rewrite HG]].
  - clear. generalize 10 as s. induction n as [|n IH]; intros s pk (F & o & a & Hi & Hd & <-); cbn [reopened] in Hi; [by apply elem_of_nil in Hi|].
    rewrite !elem_of_cons in Hi. destruct Hi as [[= -> ->]|[[= -> ->]|Hi]]; [simpl in Hd; by subst..|]. eapply IH. do 3 eexists. done.
  - intros pk (c & a & Hg). unfold get_account in Hg. destruct (st_index st !! pk) eqn:Hi; [|done]. apply (Hn pk). by eexists.
Qed.
Print Assumptions C97_entries_never_reused_refuted.
(** What holds instead: there are at most as many entries as deliveries, and entries are never given back. *)
Lemma g_update_one F st a G : (ag_stored G <= ag_stored (g_update F st a G) <= ag_stored G + 1)%Z.
Proof. unfold g_update. destruct (_ && _); simpl; [lia|]. destruct (_ !! _); simpl; [lia|]. destruct (fl_sat F a); simpl; lia. Qed.
Lemma g_step_few F st o G G' : g_step F st o G = Done G' -> (ag_stored G <= ag_stored G' <= ag_stored G + Z.of_nat (length (accts_of o)))%Z.
Proof.
  destruct o as [a c|a|pk c|p fl c|si c|p|p b]; simpl; try (intros [= <-]; lia).
  - intros [= <-]. apply g_update_one.
  - intros [= <-]. apply g_update_one.
  - destruct (unbincode_accounts b) as [l|]; simpl; [|intros [= <-]; lia]. revert st G. induction l as [|a l IH]; intros st G; simpl; [intros [= <-]; lia|].
    destruct (init_account F st a) as [st1|]; simpl; [|done]. intros H. apply IH in H. pose proof (g_update_one F st a G). lia.
Qed.
Theorem C97_entries_bounded E h1 h2 st1 G1 st2 G2 : g_run E store_empty ag_zero h1 = Done (st1, G1) -> g_run E st1 G1 h2 = Done (st2, G2) ->
  (Z.of_nat (length (st_accounts st1)) = ag_stored G1 /\ Z.of_nat (length (st_accounts st2)) = ag_stored G2 /\
   ag_stored G1 <= ag_stored G2 <= ag_stored G1 + Z.of_nat (length (h2 ≫= fun x => accts_of x.2)))%Z.
Proof.
  intros H1 H2. destruct (g_run_len _ _ _ _ _ _ st_ok_empty H1) as [Hr1 Hl1]. simpl in Hl1. assert (st_ok st1) as Hok by (eapply run_ok; [apply st_ok_empty|exact Hr1]).
  destruct (g_run_len _ _ _ _ _ _ Hok H2) as [_ Hl2]. split; [lia|]. split; [lia|]. clear -H2. revert st1 G1 H2. induction h2 as [|[F o] h IH]; intros st0 G0; simpl; [intros [= <- <-]; lia|].
  destruct (g_step F st0 o G0) as [G|] eqn:HG; simpl; [|done]. destruct (step E F st0 o) as [[st r]|]; simpl; [|done]. intros H. apply IH in H. apply g_step_few in HG.
  rewrite app_length. change (list_bind _ _ ?f ?x) with (mbind (M:=list) f x). lia.
Qed.
Print Assumptions C97_entries_bounded.
Example C97_example : exists st1 G1 st2 G2, g_run ext_sample store_empty ag_zero [upd (acc5 10 1) Finalized; upd (closed5 11 2) Finalized] = Done (st1, G1) /\
  g_run ext_sample st1 G1 [upd (acc5 12 3) Finalized; upd (acc5 13 4) Confirmed] = Done (st2, G2) /\ ag_stored G1 = 1%Z /\ ag_stored G2 = 2%Z.
Proof. eexists _, _, _, _. split; [vm_compute; reflexivity|]. split; [vm_compute; reflexivity|]. done. Qed.
