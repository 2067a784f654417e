(** Streamed token accounts are served: at processed as soon as they arrive (C44), at finalized once their slot is (C46). *)
From Verif Require Import Base SMap DataModel BincodeModel BincodeProofs FilterModel StoreModel TokenModel TokenProofs TokenProps SplModel SplProofs TokenUtilsModel
  TokenUtilsProofs TokenPendModel TokenPendSpec TokenPendProofs TokenPendProps TokenUtilsProps TokenStoreModel TokenStoreSpec TokenStoreProofs TokenStoreViews TokenStoreProps TokenStoreOrder
  TokenStoreQuery TokenStoreQueryProps TokenStoreSafe.
#[local] Arguments le : simpl never.
#[local] Arguments unle : simpl never.
#[local] Opaque to_bytes from_bytes peek_pubkey.

(** ** Specification: on the calls alone *)
(** The newest slot confirmed by a history. *)
Definition conf_after (l : list tsop) : N :=
  foldl (fun f o => match o with TSlot _ si Confirmed => N.max f (si_slot si) | _ => f end) 0 l.
(** Pending versions of the account of [a] that [l] delivers are older than [a]. *)
Definition newer_than (l : list tsop) (a : acct) : Prop :=
  forall b c, TUpdate b c ∈ l -> c <> Finalized -> d_pubkey b = d_pubkey a -> d_slot b < d_slot a \/ (d_slot b = d_slot a /\ d_wv b < d_wv a).
(** Of the versions for its slot that [l] delivers none is newer than [a]. *)
Definition last_of_slot (l : list tsop) (a : acct) : Prop :=
  forall b c, TUpdate b c ∈ l -> c <> Finalized -> d_pubkey b = d_pubkey a -> d_slot b = d_slot a -> d_wv b < d_wv a.
(** [l] finalizes no slot from [s] on. *)
Definition not_final (l : list tsop) (s : N) : Prop := forall ord si, TSlot ord si Finalized ∈ l -> si_slot si < s.

(** ** One operation and the pending versions *)
Lemma step_pend E X ts o ts' : ts_step E X ts o = Done ts' -> op_ok o -> sm_sorted (ts_pend ts) ->
  (forall s pk v, version (ts_pend ts') s pk v -> version (ts_pend ts) s pk v \/
     exists a c, o = TUpdate a c /\ c <> Finalized /\ d_pubkey a = pk /\ d_slot a = s /\ d_wv a = v.2) /\
  (forall s pk v, version (ts_pend ts) s pk v ->
     (forall a c, o = TUpdate a c -> c <> Finalized -> d_pubkey a = pk -> d_slot a = s -> d_wv a <= v.2) ->
     (forall ord si, o = TSlot ord si Finalized -> si_slot si < s) -> parents_before (ts_pend ts) -> parent_ok o ->
     version (ts_pend ts') s pk v).
Proof.
  intros H Hok Hs. destruct o as [a c|a|ord si c|p b]; simpl in H, Hok; [| | |done].
  - unfold ts_update in H. destruct (is_token ts a) as [[]|]; [|injection H as <-; by eauto|done].
    cbn [mbind res_bind] in H. destruct (account_type _ _ _ _) as [[[[ty ix] ctr]|]|] eqn:Ht; [|injection H as <-; by eauto|done].
    cbn [mbind res_bind] in H.
    assert (c <> Finalized -> (forall s pk v, version (pd_insert (ts_pend ts) (d_pubkey a) ty (d_wv a) (d_slot a)).1 s pk v -> version (ts_pend ts) s pk v \/
        exists a' c', TUpdate a c = TUpdate a' c' /\ c' <> Finalized /\ d_pubkey a' = pk /\ d_slot a' = s /\ d_wv a' = v.2) /\
      (forall s pk v, version (ts_pend ts) s pk v -> (forall a' c', TUpdate a c = TUpdate a' c' -> c' <> Finalized -> d_pubkey a' = pk -> d_slot a' = s -> d_wv a' <= v.2) ->
        version (pd_insert (ts_pend ts) (d_pubkey a) ty (d_wv a) (d_slot a)).1 s pk v)) as Hpd.
    { intros Hc. split.
      - intros s pk v Hv. apply (insert_version _ _ _ _ _ _ _ _ Hs) in Hv. destruct (decide _) as [[-> ->]|]; [|by left].
        destruct Hv as [[-> _]|[Hv _]]; [|by left]. right. exists a, c. done.
      - intros s pk v Hv Hle. apply (insert_version _ _ _ _ _ _ _ _ Hs). destruct (decide _) as [[-> ->]|]; [|done]. right. split; [done|]. by apply (Hle a c). }
    destruct c; cbn [set_ix ts_pend] in H.
    + destruct (pd_insert _ _ _ _ _) as [p b0]. injection H as <-. destruct Hpd as [P1 P2]; [done|]. split; [exact P1|]. intros s pk v Hv Hle _ _ _. by apply P2.
    + destruct (pd_insert _ _ _ _ _) as [p b0]. injection H as <-. destruct Hpd as [P1 P2]; [done|]. split; [exact P1|]. intros s pk v Hv Hle _ _ _. by apply P2.
    + destruct (add_finalized _ ty) as [ts1|] eqn:H1; [|done]. cbn [mbind res_bind] in H. injection H as <-. apply add_finalized_pend in H1. rewrite H1. cbn [set_ix ts_pend]. by eauto.
  - unfold ts_init in H. destruct (is_token ts a) as [[]|]; [|injection H as <-; by eauto|done].
    cbn [mbind res_bind] in H. destruct (account_type _ _ _ _) as [[[[ty ix] ctr]|]|] eqn:Ht; [|injection H as <-; by eauto|done].
    cbn [mbind res_bind] in H. apply add_finalized_pend in H. rewrite H. cbn [set_ix ts_pend]. by eauto.
  - pose proof (pd_slot_info_sorted _ si Hs) as Hs'. unfold ts_slot in H. destruct c.
    + cbn [mbind res_bind] in H. injection H as <-. cbn [set_pend ts_pend]. setoid_rewrite (slot_info_version _ si _ _ _ Hs). by eauto.
    + set (ts1 := if ts_conf ts <? si_slot si then _ else _) in H. destruct (pd_for_slot _ _ _) as [[p l]|] eqn:Hfs; [|done]. cbn [mbind res_bind] in H. injection H as <-.
      apply pd_for_slot_pend in Hfs. cbn [set_pend ts_pend].
      assert (sm_sorted (ts_pend ts1) /\ forall s pk v, version (ts_pend ts1) s pk v <-> version (ts_pend ts) s pk v) as [Hs1 Hv1].
      { unfold ts1. destruct (_ <? _); [|done]. cbn [set_pend ts_pend]. split; [done|]. intros s pk v. by apply slot_info_version. }
      assert (forall s pk v, version p s pk v <-> version (ts_pend ts) s pk v) as Hv.
      { subst p. destruct (sm_get _ _); [done|]. intros s pk v. rewrite (slot_info_version _ si _ _ _ Hs1). apply Hv1. }
      setoid_rewrite Hv. by eauto.
    + set (p0 := if ts_fin ts <? si_slot si then pd_slot_info (ts_pend ts) si else ts_pend ts).
      set (ts1 := if ts_fin ts <? si_slot si then _ else _) in H. assert (ts_pend ts1 = p0) as Hp0. { unfold ts1, p0. by destruct (_ <? _). }
      rewrite Hp0 in H. assert (sm_sorted p0 /\ forall s pk v, version p0 s pk v <-> version (ts_pend ts) s pk v) as (Hs1 & Hv0).
      { unfold p0. destruct (_ <? _); [|done]. split; [done|]. intros s pk v. by apply slot_info_version. }
      destruct (finalize_versions p0 (si_slot si) Hs1) as (_ & Hv1 & _).
      destruct (finalize_spec p0 (si_slot si) Hs1) as (Hs2 & Hm & Hget & Hnone).
      destruct (pd_finalize p0 (si_slot si)) as [p m]. simpl in Hs2, Hm, Hget, Hnone, Hv1.
      destruct (to_accts _ _) as [r|]; [|done]. cbn [mbind res_bind] in H. destruct (add_all _ _) as [ts2|] eqn:H2; [|done].
      cbn [mbind res_bind] in H. injection H as <-. apply add_all_pend in H2. rewrite H2. cbn [set_pend ts_pend]. split.
      * intros s pk v Hv. left. by apply Hv0, Hv1.
      * intros s pk v Hv _ Hlt Hpb Hpo. specialize (Hlt ord si eq_refl). simpl in Hpo.
        assert (parents_before p0) as Hb0. { unfold p0. destruct (_ <? _); [|done]. by apply info_before. }
        apply Hv0, (version_get _ Hs1) in Hv as (b & Hb & Hv). apply (version_get _ Hs2). exists b. split; [|done].
        destruct (Hget s) as [->|Hn]; [done|]. apply Hnone in Hn as [Hn|[Hn|Hn]]; [congruence|lia|]. apply (chain_le _ _ _ Hb0) in Hn. lia.
Qed.
Lemma run_before E X l ts ts' : ts_run E X ts l = Done ts' -> ops_ok l -> tinv ts -> ts_ctr ts' <= 2 ^ 32 -> Forall parent_ok l -> parents_before (ts_pend ts) -> parents_before (ts_pend ts').
Proof.
  revert ts. induction l as [|o l IH]; intros ts H Hok Hi Hc Hp Hb; cbn [ts_run] in H; [by injection H as <-|].
  apply Forall_cons in Hok as [Ho Hok]. apply Forall_cons in Hp as [Hpo Hp]. destruct (ts_step E X ts o) as [ts1|] eqn:H1; [|done]. cbn [mbind res_bind] in H.
  pose proof (run_ctr _ _ _ _ _ H Hok). apply (IH ts1); try done; [eapply step_inv; try done; lia|]. by eapply (step_before E X).
Qed.
Lemma run_pend_from E X l ts ts' : ts_run E X ts l = Done ts' -> ops_ok l -> tinv ts -> ts_ctr ts' <= 2 ^ 32 ->
  forall s pk v, version (ts_pend ts') s pk v -> version (ts_pend ts) s pk v \/ exists a c, TUpdate a c ∈ l /\ c <> Finalized /\ d_pubkey a = pk /\ d_slot a = s /\ d_wv a = v.2.
Proof.
  revert ts. induction l as [|o l IH]; intros ts H Hok Hi Hc s pk v Hv; cbn [ts_run] in H; [injection H as <-; by left|].
  apply Forall_cons in Hok as [Ho Hok]. destruct (ts_step E X ts o) as [ts1|] eqn:H1; [|done]. cbn [mbind res_bind] in H.
  pose proof (run_ctr _ _ _ _ _ H Hok). destruct (IH ts1) with (s := s) (pk := pk) (v := v) as [Hw|(a & c & Hin & ?)]; try done.
  { eapply step_inv; try done; lia. }
  - destruct (step_pend _ _ _ _ _ H1 Ho (ti_sorted _ Hi)) as [P _]. destruct (P _ _ _ Hw) as [?|(a & c & -> & ?)]; [by left|right]. exists a, c. split; [left|done].
  - right. exists a, c. split; [by right|done].
Qed.
Lemma run_pend_keep E X l ts ts' s pk v : ts_run E X ts l = Done ts' -> ops_ok l -> tinv ts -> ts_ctr ts' <= 2 ^ 32 -> Forall parent_ok l -> parents_before (ts_pend ts) ->
  version (ts_pend ts) s pk v -> (forall a c, TUpdate a c ∈ l -> c <> Finalized -> d_pubkey a = pk -> d_slot a = s -> d_wv a <= v.2) -> not_final l s ->
  version (ts_pend ts') s pk v.
Proof.
  revert ts. induction l as [|o l IH]; intros ts H Hok Hi Hc Hp Hb Hv Hle Hnf; cbn [ts_run] in H; [by injection H as <-|].
  apply Forall_cons in Hok as [Ho Hok]. apply Forall_cons in Hp as [Hpo Hp]. destruct (ts_step E X ts o) as [ts1|] eqn:H1; [|done]. cbn [mbind res_bind] in H.
  pose proof (run_ctr _ _ _ _ _ H Hok). apply (IH ts1); try done.
  - eapply step_inv; try done; lia.
  - by eapply (step_before E X).
  - destruct (step_pend _ _ _ _ _ H1 Ho (ti_sorted _ Hi)) as [_ P]. apply P; try done.
    + intros a c -> . apply Hle. left.
    + intros ord si ->. apply (Hnf ord si). left.
  - intros a c Hin. apply Hle. by right.
  - intros ord si Hin. apply (Hnf ord si). by right.
Qed.
(** The confirmed slot. *)
Lemma add_finalized_conf ts a ts' : add_finalized ts a = Done ts' -> ts_conf ts' = ts_conf ts.
Proof.
  destruct a as [t|m|m q|q]; simpl.
  - unfold add_token. destruct (tb_save _ _) as [[[tb k] b]|]; [|done]. cbn [mbind res_bind]. intros [= <-]. by destruct b.
  - destruct (_ !! _); by intros [= <-].
  - by intros [= <-].
  - repeat (case_match; try done); simpl; try (by intros [= <-]); destruct (tb_delete _ _) as [[? ?]|]; cbn [mbind res_bind]; try done; by intros [= <-].
Qed.
Lemma add_all_conf l ts ts' : add_all ts l = Done ts' -> ts_conf ts' = ts_conf ts.
Proof.
  revert ts. induction l as [|a l IH]; intros ts; simpl; [by intros [= ->]|]. destruct (add_finalized ts a) as [ts1|] eqn:H1; [|done].
  cbn [mbind res_bind]. intros H. apply IH in H. apply add_finalized_conf in H1. congruence.
Qed.
Lemma step_conf E X ts o ts' : ts_step E X ts o = Done ts' -> op_ok o ->
  ts_conf ts' = match o with TSlot _ si Confirmed => N.max (ts_conf ts) (si_slot si) | _ => ts_conf ts end.
Proof.
  intros H Hok. destruct o as [a c|a|ord si c|p b]; simpl in H, Hok; [| | |done].
  - unfold ts_update in H. destruct (is_token ts a) as [[]|]; [|by injection H as <-|done].
    cbn [mbind res_bind] in H. destruct (account_type _ _ _ _) as [[[[ty ix] ctr]|]|] eqn:Ht; [|by injection H as <-|done].
    cbn [mbind res_bind] in H. destruct c; cbn [set_ix ts_pend] in H.
    1, 2: destruct (pd_insert _ _ _ _ _) as [p b0]; by injection H as <-.
    destruct (add_finalized _ ty) as [ts1|] eqn:H1; [|done]. cbn [mbind res_bind] in H. injection H as <-. apply add_finalized_conf in H1. by rewrite H1.
  - unfold ts_init in H. destruct (is_token ts a) as [[]|]; [|by injection H as <-|done].
    cbn [mbind res_bind] in H. destruct (account_type _ _ _ _) as [[[[ty ix] ctr]|]|] eqn:Ht; [|by injection H as <-|done].
    cbn [mbind res_bind] in H. apply add_finalized_conf in H. by rewrite H.
  - unfold ts_slot in H. destruct c.
    + cbn [mbind res_bind] in H. by injection H as <-.
    + destruct (N.ltb_spec (ts_conf ts) (si_slot si)) as [Hlt|Hge]; destruct (pd_for_slot _ _ _) as [[p l]|] eqn:Hfs; try done; cbn [mbind res_bind] in H; injection H as <-; simpl; lia.
    + destruct (_ <? _); destruct (pd_finalize _ _) as [p m]; destruct (to_accts _ _) as [r|]; try done; cbn [mbind res_bind] in H;
      (destruct (add_all _ _) as [ts2|] eqn:H2; [|done]); cbn [mbind res_bind] in H; injection H as <-; apply add_all_conf in H2; by rewrite H2.
Qed.
Lemma run_conf E X l ts ts' : ts_run E X ts l = Done ts' -> ops_ok l ->
  ts_conf ts' = foldl (fun f o => match o with TSlot _ si Confirmed => N.max f (si_slot si) | _ => f end) (ts_conf ts) l.
Proof.
  revert ts. induction l as [|o l IH]; intros ts H Hok; cbn [ts_run foldl] in H |- *; [by injection H as <-|].
  apply Forall_cons in Hok as [Ho Hok]. destruct (ts_step E X ts o) as [ts1|] eqn:H1; [|done]. cbn [mbind res_bind] in H.
  rewrite (IH ts1 H Hok). by rewrite (step_conf _ _ _ _ _ H1 Ho).
Qed.

(** ** Served at processed *)
Lemma update_effect E X ts a c ts' p v r : ts_step E X ts (TUpdate a c) = Done ts' -> c <> Finalized -> sm_sorted (ts_pend ts) ->
  live_with E a p v -> unpack_account v = Some r -> (forall w, version (ts_pend ts) (d_slot a) (d_pubkey a) w -> w.2 < d_wv a) ->
  exists i, ts_mint_ix ts' !! sa_mint r = Some i /\ version (ts_pend ts') (d_slot a) (d_pubkey a) (TPToken (of_spl_account p a r i None), d_wv a).
Proof.
  intros H Hc Hs Hl Hu Hw. assert (is_token ts a = Done true) as Htok.
  { unfold is_token. rewrite (lw_owner _ _ _ _ Hl). destruct p; simpl; by rewrite ?orb_true_r. }
  pose proof (type_token E a p _ r (ts_mint_ix ts) (ts_ctr ts) Hl Hu) as Hty.
  destruct (mint_index (sa_mint r) (ts_mint_ix ts) (ts_ctr ts)) as [[i ix'] ctr'] eqn:Hmi.
  exists i. unfold ts_step, ts_update in H. rewrite Htok in H. cbn [mbind res_bind] in H. rewrite Hty in H. cbn [mbind res_bind] in H.
  apply mint_index_found in Hmi.
  assert (version (pd_insert (ts_pend ts) (d_pubkey a) (TPToken (of_spl_account p a r i None)) (d_wv a) (d_slot a)).1 (d_slot a) (d_pubkey a) (TPToken (of_spl_account p a r i None), d_wv a)) as Hv.
  { apply (insert_version _ _ _ _ _ _ _ _ Hs). rewrite decide_True by done. by left. }
  destruct c; [| |done]; cbn [set_ix ts_pend] in H; destruct (pd_insert _ _ _ _ _) as [q b0]; injection H as <-; done.
Qed.
Lemma version_fun p s pk v v' : sm_sorted p -> version p s pk v -> version p s pk v' -> v = v'.
Proof. intros Hs (b & Hb & Hv)%(version_get _ Hs) (b' & Hb' & Hv')%(version_get _ Hs). congruence. Qed.
Lemma parents_before_empty : parents_before (ts_pend ts_empty).
Proof. intros s s' (b & Hb & _). by apply elem_of_nil in Hb. Qed.
Theorem C44_served_partial E X l a c ts p v r : ts_run E X ts_empty (l ++ [TUpdate a c]) = Done ts -> ops_ok (l ++ [TUpdate a c]) -> ts_ctr ts <= 2 ^ 32 ->
  c <> Finalized -> live_with E a p v -> clean_token v -> unpack_account v = Some r ->
  Forall parent_ok l -> newer_than l a -> conf_after l < d_slot a -> is_Some (mint_state (ts_log E X ts_empty l).*1 (sa_mint r)) ->
  exists b, ts_get ts (d_pubkey a) Processed = Done (ROk (Some b)) /\ d_pubkey b = d_pubkey a /\ d_owner b = d_owner a /\
    data_bytes E (d_data b) = Done v /\ d_slot b = d_slot a /\ d_lamports b = 2039280.
Proof.
  intros H Hok Hc Hcf Hl (r' & Hr & -> & Hd) Hu Hpo Hnew Hconf [m Hm]. rewrite (unpack_pack_account r' Hr) in Hu. injection Hu as <-.
  pose proof (unpack_pack_account r' Hr) as Hu. destruct (run_app _ _ _ _ _ _ H) as (ts1 & H1 & H2).
  apply Forall_app in Hok as [Hok1 Hok2]. apply Forall_cons in Hok2 as [Hoa _]. cbn [ts_run] in H2.
  destruct (ts_step E X ts1 (TUpdate a c)) as [ts2|] eqn:Hst; [|done]. cbn [mbind res_bind] in H2. injection H2 as <-.
  assert (ts_ctr ts1 <= ts_ctr ts2) as Hc1 by (by apply (step_ctr E X ts1 (TUpdate a c))).
  assert (tinv ts1) as Hi1 by (apply (run_inv _ _ _ _ _ H1); [done|apply tinv_empty|lia]).
  assert (tinv ts2) as Hi2 by (by apply (step_inv E X ts1 (TUpdate a c))).
  assert (forall s w, version (ts_pend ts1) s (d_pubkey a) w -> s < d_slot a \/ (s = d_slot a /\ w.2 < d_wv a)) as Hold.
  { intros s w Hw. destruct (run_pend_from E X l ts_empty ts1 H1 Hok1 tinv_empty) with (s := s) (pk := d_pubkey a) (v := w) as [(b & Hb & _)|(b & cb & Hin & Hcb & Hk & <- & <-)]; try done; [lia|by apply elem_of_nil in Hb|].
    by apply (Hnew b cb). }
  destruct (update_effect E X ts1 a c ts2 p _ r' Hst Hcf (ti_sorted _ Hi1) Hl Hu) as (i & Hix & Hv).
  { intros w Hw. apply Hold in Hw as [?|[_ ?]]; [lia|done]. }
  assert (parents_before (ts_pend ts2)) as Hpb.
  { eapply (step_before E X ts1 (TUpdate a c)); try done. eapply (run_before E X l ts_empty); try done; [apply tinv_empty|lia|apply parents_before_empty]. }
  destruct (reads_end (ts_pend ts2) [d_pubkey a] Processed (ts_conf ts2)) as [rd Hrd]; [done|apply (ti_sorted _ Hi2)|by apply before_acyclic|].
  assert (ts_conf ts2 < d_slot a) as Hcl.
  { rewrite (step_conf _ _ _ _ _ Hst Hoa), (run_conf _ _ _ _ _ H1 Hok1). exact Hconf. }
  destruct (proc_read_spec _ _ _ _ (ti_sorted _ Hi2) Hrd 0%nat (d_pubkey a) eq_refl) as (g & Hg & Hgx).
  assert (g = Some ((TPToken (of_spl_account p a r' i None), d_wv a), d_slot a)) as ->.
  { apply Hgx. left. split; [done|]. split; [done|]. intros s w _ Hw. simpl.
    destruct (step_pend _ _ _ _ _ Hst Hoa (ti_sorted _ Hi1)) as [P _]. destruct (P _ _ _ Hw) as [Hw'|(a' & c' & [= <- <-] & _ & _ & <- & _)]; [|lia].
    apply Hold in Hw' as [?|[-> _]]; lia. }
  unfold ts_get. rewrite Hrd. cbn [mbind res_bind]. destruct rd as [|g rd]; [done|]. simpl in Hg. injection Hg as ->. cbn [head unwrap mbind res_bind tpa_to_acct].
  assert (ts_run E X ts_empty (l ++ [TUpdate a c]) = Done ts2) as H' by (rewrite (run_app_done _ _ _ _ _ _ H1); cbn [ts_run]; by rewrite Hst).
  destruct (run_agrees _ _ _ _ H1 Hok1) as [_ Hb]; [lia|]. apply Hb in Hm as (j & Hj & Hm).
  assert (ts_mint_ix ts2 !! sa_mint r' = Some j /\ ts_mints ts2 !! j = Some m) as [Hj2 Hm2].
  { clear Hv Hix Hpb Hrd Hgx. unfold ts_step, ts_update in Hst. destruct (is_token ts1 a) as [[]|]; [|by injection Hst as <-|done]. cbn [mbind res_bind] in Hst.
    rewrite (type_token E a p _ r' (ts_mint_ix ts1) (ts_ctr ts1) Hl Hu) in Hst. unfold mint_index in Hst. rewrite Hj in Hst. cbn [mbind res_bind] in Hst.
    destruct c; [| |done]; cbn [set_ix ts_pend] in Hst; destruct (pd_insert _ _ _ _ _) as [q b0]; injection Hst as <-; done. }
  rewrite Hix in Hj2. injection Hj2 as ->.
  assert (ma_pubkey m = sa_mint r') as Hmp. { destruct (ti_ix _ Hi2) as [Hinj _]. apply (Hinj _ _ j); [|done]. by apply (ti_mints _ Hi2). }
  rewrite (token_back E a p _ r' j (ts_mints ts2) m (d_slot a) 0 Hl Hu Hm2 Hmp). cbn [mbind res_bind]. eexists. split; [done|]. simpl. by rewrite (norm_id r' Hd).
Qed.
Print Assumptions C44_served_partial.

(** ** Served at finalized *)
Theorem C46_served_partial E X l1 a c l2 ord si ts p v r :
  let l := l1 ++ TUpdate a c :: l2 ++ [TSlot ord si Finalized] in
  ts_run E X ts_empty l = Done ts -> ops_ok l -> ts_ctr ts <= 2 ^ 32 -> c <> Finalized -> live_with E a p v -> clean_token v -> unpack_account v = Some r ->
  Forall parent_ok l -> si_slot si = d_slot a -> last_of_slot (l1 ++ l2) a -> not_final l2 (d_slot a) ->
  not_mint E l (d_pubkey a) -> no_collision l (d_pubkey a) ->
  (forall o, o ∈ l -> ~ op_multi E o (d_pubkey a) /\ ~ op_closes o (sa_mint r)) ->
  is_Some (mint_state (ts_log E X ts_empty l).*1 (sa_mint r)) ->
  exists b, ts_get ts (d_pubkey a) Finalized = Done (ROk (Some b)) /\ d_pubkey b = d_pubkey a /\ d_owner b = d_owner a /\
    data_bytes E (d_data b) = Done v /\ d_slot b = ts_fin ts /\ d_lamports b = 2039280.
Proof.
  intros l H Hok Hc Hcf Hl (r' & Hr & -> & Hd) Hu Hpo Hsi Hlast Hnf Hnm Hnc Hoth [m Hm]. rewrite (unpack_pack_account r' Hr) in Hu. injection Hu as <-.
  pose proof (unpack_pack_account r' Hr) as Hu. pose proof (log_origin _ _ _ _ H Hok Hc) as Horg.
  assert (multi_state (ts_log E X ts_empty l).*1 (d_pubkey a) = None) as Hs.
  { apply multi_state_none. intros q Hq. destruct (Horg _ Hq) as (o & Ho & Hcx). apply comes_multi in Hcx. by destruct (Hoth o Ho) as [Hx _]. }
  rewrite (C46_token_partial E X l ts (d_pubkey a) H Hok Hc Hnm Hnc Hs).
  pose proof Hok as Hok0. pose proof H as H0. destruct (run_app _ _ _ _ _ _ H) as (ts1 & H1 & H2). cbn [ts_run] in H2.
  apply Forall_app in Hok as [Hok1 Hok2]. apply Forall_cons in Hok2 as [Hoa Hok2]. apply Forall_app in Hok2 as [Hok2 Hok3]. apply Forall_cons in Hok3 as [Hof _].
  apply Forall_app in Hpo as [Hp1 Hp2]. apply Forall_cons in Hp2 as [_ Hp2]. apply Forall_app in Hp2 as [Hp2 Hp3]. apply Forall_cons in Hp3 as [Hpf _].
  destruct (ts_step E X ts1 (TUpdate a c)) as [ts2|] eqn:Hst; [|done]. cbn [mbind res_bind] in H2.
  destruct (run_app _ _ _ _ _ _ H2) as (ts3 & H3 & H4). cbn [ts_run] in H4. destruct (ts_step E X ts3 (TSlot ord si Finalized)) as [ts4|] eqn:Hsf; [|done].
  cbn [mbind res_bind] in H4. injection H4 as ->.
  pose proof (step_ctr E X ts3 (TSlot ord si Finalized) ts Hsf Hof) as Hc3. pose proof (run_ctr _ _ _ _ _ H3 Hok2) as Hc2. pose proof (step_ctr E X ts1 (TUpdate a c) ts2 Hst Hoa) as Hc1.
  assert (tinv ts1) as Hi1 by (apply (run_inv _ _ _ _ _ H1); [done|apply tinv_empty|lia]).
  assert (tinv ts2) as Hi2 by (apply (step_inv E X ts1 (TUpdate a c)); [done..|lia]).
  assert (tinv ts3) as Hi3 by (apply (run_inv _ _ _ _ _ H3); [done|done|lia]).
  assert (tinv ts) as Hi by (apply (step_inv E X ts3 (TSlot ord si Finalized)); [done..|lia]).
  assert (parents_before (ts_pend ts1)) as Hb1 by (eapply (run_before E X l1 ts_empty); try done; [apply tinv_empty|lia|apply parents_before_empty]).
  assert (parents_before (ts_pend ts2)) as Hb2 by (by eapply (step_before E X ts1 (TUpdate a c))).
  destruct (update_effect E X ts1 a c ts2 p _ r' Hst Hcf (ti_sorted _ Hi1) Hl Hu) as (i & Hix & Hv).
  { intros w Hw. destruct (run_pend_from E X l1 ts_empty ts1 H1 Hok1 tinv_empty) with (s := d_slot a) (pk := d_pubkey a) (v := w) as [(b & Hb & _)|(b & cb & Hin & Hcb & Hk & Hsl & <-)]; try done; [lia|by apply elem_of_nil in Hb|].
    apply (Hlast b cb); try done. apply elem_of_app. by left. }
  set (t := of_spl_account p a r' i None) in *.
  assert (version (ts_pend ts3) (d_slot a) (d_pubkey a) (TPToken t, d_wv a)) as Hv3.
  { eapply (run_pend_keep E X l2 ts2); try done; [lia|]. intros b cb Hin Hcb Hk Hsl. simpl. apply N.lt_le_incl. apply (Hlast b cb); try done. apply elem_of_app. by right. }
  assert (tok_state (ts_log E X ts_empty l).*1 (d_pubkey a) = Some t) as Htk.
  { assert (ts_log E X ts_empty l = ts_log E X ts_empty (l1 ++ TUpdate a c :: l2) ++ deliveries E ts3 (TSlot ord si Finalized)) as ->.
    { unfold l. replace (l1 ++ TUpdate a c :: l2 ++ [TSlot ord si Finalized]) with ((l1 ++ TUpdate a c :: l2) ++ [TSlot ord si Finalized]) by (by rewrite <- app_assoc).
      assert (ts_run E X ts_empty (l1 ++ TUpdate a c :: l2) = Done ts3) as Hx by (rewrite (run_app_done _ _ _ _ _ _ H1); cbn [ts_run]; by rewrite Hst).
      rewrite (log_app _ _ _ _ _ _ Hx). f_equal. cbn [ts_log]. rewrite Hsf. cbn [ts_log]. by rewrite app_nil_r. }
    cbn [deliveries]. set (p0 := if ts_fin ts3 <? si_slot si then _ else _). 
    assert (sm_sorted p0 /\ forall s pk v, version p0 s pk v <-> version (ts_pend ts3) s pk v) as (Hs1 & Hv0).
    { unfold p0. pose proof (ti_sorted _ Hi3) as Hss. destruct (_ <? _); [|done]. split; [by apply pd_slot_info_sorted|]. intros s pk w. by apply slot_info_version. }
    destruct (finalize_spec p0 (si_slot si) Hs1) as (_ & Hmm & _). destruct (finalize_versions p0 (si_slot si) Hs1) as (_ & _ & Hvv).
    destruct (pd_finalize p0 (si_slot si)) as [p1 mm]. simpl in Hmm, Hvv |- *. specialize (Hof mm).
    assert (mm !! d_pubkey a = Some ((TPToken t, d_wv a), d_slot a)) as Hmk. { apply Hmm. rewrite Hsi. constructor. by apply Hv0. }
    apply elem_of_map_to_list in Hmk. rewrite <- Hof in Hmk. apply elem_of_list_split in Hmk as (q1 & q2 & Hq). rewrite Hq in Hof |- *.
    assert (NoDup ((q1 ++ (d_pubkey a, ((TPToken t, d_wv a), d_slot a)) :: q2).*1)) as Hnd by (rewrite Hof; apply NoDup_fst_map_to_list).
    rewrite fmap_app, fmap_app, fmap_cons, fmap_app, fmap_cons. cbn [fst snd].
    match goal with |- tok_state (?A ++ ?B ++ ?x :: ?C) _ = _ => replace (A ++ B ++ x :: C) with (((A ++ B) ++ [x]) ++ C) by (by rewrite <- !app_assoc) end.
    rewrite tok_state_app, tok_state_snoc; [simpl; by rewrite N.eqb_refl|].
    intros x Hx. rewrite <- list_fmap_compose in Hx. apply elem_of_list_fmap in Hx as ([k [[ty w] s]] & -> & Hin). simpl. intros Hk.
    assert (mm !! k = Some ((ty, w), s)) as Hkk. { apply elem_of_map_to_list. rewrite <- Hof. apply elem_of_app. right. by right. }
    apply Hvv, Hv0 in Hkk. apply (ti_pend _ Hi3) in Hkk as [_ Hkk]. simpl in Hkk. rewrite Hkk in Hk. subst k.
    rewrite fmap_app, fmap_cons in Hnd. apply NoDup_app in Hnd as (_ & _ & Hnd). apply NoDup_cons in Hnd as [Hnd _]. apply Hnd. apply elem_of_list_fmap. eexists. split; [|exact Hin]. done. }
  rewrite Htk. assert (ts_mint_ix ts !! sa_mint r' = Some i) as Hixf.
  { apply (run_ix_keep E X (l2 ++ [TSlot ord si Finalized]) ts2 ts); try done; [by apply Forall_app; split; [|constructor]|].
    intros x Hx ->. destruct (Horg (TPDeleted (sa_mint r'))) as (o & Ho & Hcx).
    - unfold l. rewrite (log_app _ _ _ _ _ _ H1), fmap_app. apply elem_of_app. right. cbn [ts_log]. rewrite Hst, fmap_app. apply elem_of_app. by right.
    - apply comes_closes in Hcx. by destruct (Hoth o Ho) as [_ Hcl]. }
  destruct (run_agrees _ _ _ _ H0 Hok0 Hc) as [_ Hb]. apply Hb in Hm as (j & Hj & Hm). rewrite Hixf in Hj. injection Hj as <-.
  assert (ma_pubkey m = sa_mint r') as Hmp. { destruct (ti_ix _ Hi) as [Hinj _]. apply (Hinj _ _ i); [|done]. by apply (ti_mints _ Hi). }
  unfold t. rewrite (token_back E a p _ r' i (ts_mints ts) m (ts_fin ts) 0 Hl Hu Hm Hmp). cbn [mbind res_bind]. eexists. split; [done|]. simpl.
  by rewrite (norm_id r' Hd).
Qed.
Print Assumptions C46_served_partial.

(** Examples. *)
Definition served1 : list tsop := [TInit (mintd 1001 50 1 1); TUpdate (tokd 77 1001 1002 5 10 1) Processed; TSlot ord0 (SlotInfo 10 9 0) Confirmed].
Lemma about_check (P : acct -> commitment -> bool) (l : list tsop) :
  forallb (fun o => match o with TUpdate b c => P b c | _ => true end) l = true -> forall b c, TUpdate b c ∈ l -> P b c = true.
Proof. intros H b c Hin. rewrite forallb_forall in H. apply (H (TUpdate b c)). by apply elem_of_list_In. Qed.
Example C44_served_example : ts_run E0 X0 ts_empty (served1 ++ [TUpdate (tokd 77 1001 1002 7 11 2) Processed]) = Done (final (served1 ++ [TUpdate (tokd 77 1001 1002 7 11 2) Processed])) /\
  ops_ok (served1 ++ [TUpdate (tokd 77 1001 1002 7 11 2) Processed]) /\ Forall parent_ok served1 /\ newer_than served1 (tokd 77 1001 1002 7 11 2) /\ conf_after served1 = 10 /\
  is_Some (mint_state (ts_log E0 X0 ts_empty served1).*1 1001) /\
  amount_of (ts_get (final (served1 ++ [TUpdate (tokd 77 1001 1002 7 11 2) Processed])) 77 Processed) = Some 7.
Proof.
  split; [apply final_run; by vm_compute|]. split; [repeat constructor; simpl; try done; intros m; done|]. split; [repeat constructor|]. split.
  { intros b c Hin Hc Hk. left. apply (about_check (fun b c => d_slot b <? 11)) in Hin; [by apply N.ltb_lt|by vm_compute]. }
  split; [by vm_compute|]. split; [vm_compute; eauto|by vm_compute].
Qed.
(** Two versions in one slot, the older one arriving last; then the slot is finalized. *)
Definition served2 : list tsop :=
  [TInit (mintd 1001 50 1 1); TSlot ord0 (SlotInfo 9 8 0) Finalized] ++ TUpdate (tokd 77 1001 1002 7 10 2) Processed ::
  [TUpdate (tokd 77 1001 1002 5 10 1) Processed; TSlot ord0 (SlotInfo 10 9 0) Confirmed] ++ [TSlot ord0 (SlotInfo 10 9 0) Finalized].
Example C46_served_example : ts_run E0 X0 ts_empty served2 = Done (final served2) /\ ops_ok served2 /\ Forall parent_ok served2 /\
  last_of_slot ([TInit (mintd 1001 50 1 1); TSlot ord0 (SlotInfo 9 8 0) Finalized] ++ [TUpdate (tokd 77 1001 1002 5 10 1) Processed; TSlot ord0 (SlotInfo 10 9 0) Confirmed]) (tokd 77 1001 1002 7 10 2) /\
  not_final [TUpdate (tokd 77 1001 1002 5 10 1) Processed; TSlot ord0 (SlotInfo 10 9 0) Confirmed] 10 /\
  not_mint E0 served2 77 /\ no_collision served2 77 /\ (forall o, o ∈ served2 -> ~ op_multi E0 o 77 /\ ~ op_closes o 1001) /\
  is_Some (mint_state (ts_log E0 X0 ts_empty served2).*1 1001) /\ amount_of (ts_get (final served2) 77 Finalized) = Some 7.
Proof.
  assert (forall o, o ∈ served2 -> forall a, op_acct o = Some a -> exists v, d_data a = DRaw v) as Hraw.
  { intros o Ho. unfold served2 in Ho. simpl in Ho. rewrite !elem_of_cons, elem_of_nil in Ho. destruct_or! Ho; subst o; intros a [= <-]; simpl; eauto. }
  split; [apply final_run; by vm_compute|]. split; [repeat constructor; simpl; try done; intros m; done|]. split; [repeat constructor|]. split.
  { intros b c Hin Hc Hk Hsl. apply (about_check (fun b c => d_wv b <? 2)) in Hin; [by apply N.ltb_lt|by vm_compute]. }
  split. { intros ord si Hin. rewrite !elem_of_cons, elem_of_nil in Hin. destruct_or! Hin; done. }
  split; [|split; [|split]].
  - intros o Ho. split.
    + intros Hn. apply op_names_raw in Hn; [|by apply Hraw]. unfold served2 in Ho. simpl in Ho. rewrite !elem_of_cons, elem_of_nil in Ho.
      destruct_or! Ho; subst o; vm_compute in Hn; done.
    + intros (a & v & Ha & Hp & Hv & [m Hm]). unfold served2 in Ho. simpl in Ho. rewrite !elem_of_cons, elem_of_nil in Ho.
      destruct_or! Ho; subst o; try done; simpl in Ha; injection Ha as <-; try (vm_compute in Hp; done); simpl in Hv; injection Hv as <-; vm_compute in Hm; done.
  - intros o Ho (a & Ha & Hp & Hf). unfold served2 in Ho. simpl in Ho. rewrite !elem_of_cons, elem_of_nil in Ho.
    destruct_or! Ho; subst o; try done; simpl in Ha; injection Ha as <-; vm_compute in Hf; try done; by apply Hp.
  - intros o Ho. split.
    + intros (a & v & Ha & Hp & Hv & [m Hm]). unfold served2 in Ho. simpl in Ho. rewrite !elem_of_cons, elem_of_nil in Ho.
      destruct_or! Ho; subst o; try done; simpl in Ha; injection Ha as <-; try (vm_compute in Hp; done); simpl in Hv; injection Hv as <-; vm_compute in Hm; done.
    + intros Hc%op_closes_b. unfold served2 in Ho. simpl in Ho. rewrite !elem_of_cons, elem_of_nil in Ho. destruct_or! Ho; subst o; vm_compute in Hc; done.
  - split; [vm_compute; eauto|by vm_compute].
Qed.
