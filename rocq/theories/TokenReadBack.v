(** C46 for mints and multisigs, stated on the calls alone: the account last finalized is read back. *)
From Verif Require Import Base DataModel FilterModel StoreModel TokenModel TokenProofs TokenProps SplModel SplProofs TokenUtilsModel
  TokenUtilsProofs TokenPendModel TokenPendSpec TokenPendProofs TokenPendProps TokenUtilsProps TokenStoreModel TokenStoreSpec TokenStoreProofs TokenStoreViews TokenStoreProps.
#[local] Arguments le : simpl never.
#[local] Arguments unle : simpl never.
#[local] Opaque to_bytes from_bytes peek_pubkey.

(** The call [o] delivers [a] as finalized, and nothing else about [a] is outstanding or comes later. *)
Definition last_word (l1 : list tsop) (o : tsop) (l2 : list tsop) (a : acct) : Prop :=
  (o = TUpdate a Finalized \/ o = TInit a) /\ (forall o', o' ∈ l1 -> op_about o' (d_pubkey a) -> ~ op_pends o') /\ (forall o', o' ∈ l2 -> ~ op_about o' (d_pubkey a)).

Lemma mint_state_app L1 L2 pk : (forall x, x ∈ L2 -> tpa_pubkey x <> pk) -> mint_state (L1 ++ L2) pk = mint_state L1 pk.
Proof.
  induction L2 as [|a L2 IH] using rev_ind; intros H; [by rewrite app_nil_r|]. rewrite app_assoc, mint_state_snoc, IH by set_solver.
  assert (tpa_pubkey a <> pk) by (apply H; set_solver). destruct a as [t|m|m q|q]; simpl in *; try done; by destruct (N.eqb_spec (ma_pubkey m) pk) || destruct (N.eqb_spec q pk).
Qed.
Lemma multi_state_app L1 L2 pk : (forall x, x ∈ L2 -> tpa_pubkey x <> pk) -> multi_state (L1 ++ L2) pk = multi_state L1 pk.
Proof.
  induction L2 as [|a L2 IH] using rev_ind; intros H; [by rewrite app_nil_r|]. rewrite app_assoc, multi_state_snoc, IH by set_solver.
  assert (tpa_pubkey a <> pk) by (apply H; set_solver). destruct a as [t|m|m q|q]; simpl in *; try done; by destruct (N.eqb_spec q pk).
Qed.
(** The log: what is delivered by the last word is the last entry for its key. *)
Lemma last_log E X l1 o l2 a ts x : ts_run E X ts_empty (l1 ++ o :: l2) = Done ts -> ops_ok (l1 ++ o :: l2) -> ts_ctr ts <= 2 ^ 32 -> last_word l1 o l2 a ->
  (forall ts0, accepted E ts0 a = Some x) ->
  exists L1 L2, (ts_log E X ts_empty (l1 ++ o :: l2)).*1 = (L1 ++ [x]) ++ L2 /\ forall y, y ∈ L2 -> tpa_pubkey y <> d_pubkey a.
Proof.
  intros H Hok Hc (Ho & Hpast & Hfut) Hacc. destruct (run_app _ _ _ _ _ _ H) as (ts1 & H1 & H2). cbn [ts_run] in H2. apply Forall_app in Hok as [Hok1 Hok2]. apply Forall_cons in Hok2 as [Hoa Hok2].
  destruct (ts_step E X ts1 o) as [ts2|] eqn:Hst; [|done]. cbn [mbind res_bind] in H2.
  pose proof (run_ctr _ _ _ _ _ H2 Hok2) as Hc2. assert (ts_ctr ts1 <= ts_ctr ts2) as Hc1 by (by apply (step_ctr E X ts1 o)).
  assert (tinv ts1) as Hi1 by (apply (run_inv _ _ _ _ _ H1); [done|apply tinv_empty|lia]).
  assert (tinv ts2) as Hi2 by (apply (step_inv E X ts1 o); [done..|lia]).
  exists (ts_log E X ts_empty l1).*1, (ts_log E X ts2 l2).*1. split.
  - rewrite (log_app _ _ _ _ _ _ H1), <- app_assoc, fmap_app. f_equal. cbn [ts_log]. rewrite Hst, fmap_app. f_equal. destruct Ho as [-> | ->]; cbn [deliveries]; by rewrite Hacc.
  - assert (forall s pk v, version (ts_pend ts2) s pk v -> exists o', o' ∈ l1 ++ [o] /\ comes_from E o' v.1 /\ op_pends o') as Hpo.
    { apply (pend_origin E X); [|apply Forall_app; split; [done|by constructor]|lia]. rewrite (run_app_done _ _ _ _ _ _ H1). cbn [ts_run]. by rewrite Hst. }
    destruct (run_origin E X _ l2 ts2 ts H2 Hok2 Hi2 Hc Hpo) as [_ Horg2].
    intros y Hy Hk. destruct (Horg2 y Hy) as (o' & [Ho'|[Ho' Hpend]] & Hcf); apply comes_pubkey in Hcf; rewrite Hk in Hcf; [by apply (Hfut o' Ho')|].
    apply elem_of_app in Ho' as [Ho'| ->%elem_of_list_singleton]; [by apply (Hpast o' Ho')|]. destruct Ho as [-> | ->]; by apply Hpend.
Qed.
Lemma live_is_token E a p v ts : live_with E a p v -> is_token ts a = Done true.
Proof. intros Hl. unfold is_token. rewrite (lw_owner _ _ _ _ Hl). destruct p; simpl; by rewrite ?orb_true_r. Qed.

(** A mint whose data is not a multisig of the same key (which nothing forbids) is read back as it was finalized. *)
Theorem C46_mint_read_back_partial E X l1 o l2 a ts p v : ts_run E X ts_empty (l1 ++ o :: l2) = Done ts -> ops_ok (l1 ++ o :: l2) -> ts_ctr ts <= 2 ^ 32 ->
  last_word l1 o l2 a -> live_with E a p v -> clean_mint v -> (forall o', o' ∈ l1 ++ o :: l2 -> ~ op_multi E o' (d_pubkey a)) ->
  exists b, ts_get ts (d_pubkey a) Finalized = Done (ROk (Some b)) /\ d_pubkey b = d_pubkey a /\ d_owner b = d_owner a /\
    data_bytes E (d_data b) = Done v /\ d_slot b = ts_fin ts /\ d_lamports b = d_lamports a.
Proof.
  intros H Hok Hc Hw Hl (r & Hr & ->) Hnm.
  assert (forall ts0, accepted E ts0 a = Some (TPMint (of_spl_mint p a r None))) as Hacc.
  { intros ts0. unfold accepted. by rewrite (live_is_token _ _ _ _ _ Hl), (type_mint E a p _ r _ _ Hl (unpack_pack_mint r Hr)). }
  destruct (last_log E X l1 o l2 a ts _ H Hok Hc Hw Hacc) as (L1 & L2 & Hlog & Hne).
  assert (mint_state (ts_log E X ts_empty (l1 ++ o :: l2)).*1 (d_pubkey a) = Some (of_spl_mint p a r None)) as Hm.
  { rewrite Hlog, mint_state_app, mint_state_snoc by done. simpl. by rewrite N.eqb_refl. }
  assert (multi_state (ts_log E X ts_empty (l1 ++ o :: l2)).*1 (d_pubkey a) = None) as Hs.
  { apply multi_state_none. intros q Hq. destruct (log_origin _ _ _ _ H Hok Hc _ Hq) as (o' & Ho & Hcf). apply comes_multi in Hcf. by destruct (Hnm o' Ho). }
  rewrite (C46_mint E X _ ts (d_pubkey a) _ H Hok Hc Hm Hs), (mint_back a p r) by apply Hl. eexists. split; [done|]. done.
Qed.
Print Assumptions C46_mint_read_back_partial.
(** So is a multisig. *)
Theorem C46_multisig_read_back_partial E X l1 o l2 a ts p v : ts_run E X ts_empty (l1 ++ o :: l2) = Done ts -> ops_ok (l1 ++ o :: l2) -> ts_ctr ts <= 2 ^ 32 ->
  last_word l1 o l2 a -> live_with E a p v -> clean_multisig v ->
  exists b, ts_get ts (d_pubkey a) Finalized = Done (ROk (Some b)) /\ d_pubkey b = d_pubkey a /\ d_owner b = d_owner a /\
    data_bytes E (d_data b) = Done v /\ d_slot b = ts_fin ts /\ d_lamports b = d_lamports a.
Proof.
  intros H Hok Hc Hw Hl (r & l & k & Hr & -> & Hs & Hz).
  assert (forall ts0, accepted E ts0 a = Some (TPMulti (of_spl_multisig p a r) (d_pubkey a))) as Hacc.
  { intros ts0. unfold accepted. by rewrite (live_is_token _ _ _ _ _ Hl), (type_multisig E a p _ r _ _ Hl (unpack_pack_multisig r Hr)). }
  destruct (last_log E X l1 o l2 a ts _ H Hok Hc Hw Hacc) as (L1 & L2 & Hlog & Hne).
  assert (multi_state (ts_log E X ts_empty (l1 ++ o :: l2)).*1 (d_pubkey a) = Some (of_spl_multisig p a r)) as Hm.
  { rewrite Hlog, multi_state_app, multi_state_snoc by done. simpl. by rewrite N.eqb_refl. }
  destruct (C46_multisig E X _ ts (d_pubkey a) _ H Hok Hc Hm) as (b & Hb & Hg). rewrite multisig_back in Hb by first [apply Hl|apply Hr]. injection Hb as <-.
  eexists. split; [done|]. split; [done|]. split; [done|]. split; [|done]. simpl. do 2 f_equal. rewrite Hs, compact_id, <- Hs by done. by destruct r.
Qed.
Print Assumptions C46_multisig_read_back_partial.
(** Example: the supply of the mint 1001 grows; the multisig 300 is replaced. *)
Definition rb_pre : list tsop := [TInit (mintd 1001 50 1 1); TUpdate (tokd 77 1001 1002 5 10 1) Finalized; TUpdate (tokd 78 1001 1003 6 10 2) Confirmed; TInit (multid 300 1 1)].
Definition rb_mint : list tsop := rb_pre ++ TUpdate (mintd 1001 60 11 3) Finalized :: [TSlot ord0 (SlotInfo 10 9 0) Finalized].
Definition rb_multi : list tsop := rb_pre ++ TUpdate (multid 300 11 3) Finalized :: [TSlot ord0 (SlotInfo 10 9 0) Finalized].
Definition supply_of (r : res (result (option acct))) : option N :=
  match r with Done (ROk (Some b)) => match d_data b with DRaw v => sm_supply <$> unpack_mint v | _ => None end | _ => None end.
Lemma rb_plain o a : o ∈ rb_mint \/ o ∈ rb_multi -> op_acct o = Some a -> exists v, d_data a = DRaw v.
Proof. intros [Ho|Ho]; unfold rb_mint, rb_multi, rb_pre in Ho; cbn [app] in Ho; rewrite !elem_of_cons, elem_of_nil in Ho; destruct_or! Ho; subst o; intros [= <-]; simpl; eauto. Qed.
Definition multi_b (o : tsop) (pk : pubkey) : bool :=
  match op_acct o with Some a => (d_pubkey a =? pk) && match d_data a with DRaw v => bool_decide (is_Some (unpack_multisig v)) | _ => true end | None => false end.
Example C46_mint_read_back_example : ts_run E0 X0 ts_empty rb_mint = Done (final rb_mint) /\ ops_ok rb_mint /\ ts_ctr (final rb_mint) <= 2 ^ 32 /\
  last_word rb_pre (TUpdate (mintd 1001 60 11 3) Finalized) [TSlot ord0 (SlotInfo 10 9 0) Finalized] (mintd 1001 60 11 3) /\
  live_with E0 (mintd 1001 60 11 3) TokenP (pack_mint (SplMint (Some 5) 60 6 true None)) /\ clean_mint (pack_mint (SplMint (Some 5) 60 6 true None)) /\
  (forall o, o ∈ rb_mint -> ~ op_multi E0 o 1001) /\ supply_of (ts_get (final rb_mint) 1001 Finalized) = Some 60.
Proof.
  split; [apply final_run; by vm_compute|]. split; [repeat constructor; simpl; try done; intros m; done|]. split; [by vm_compute|]. split.
  { split; [by left|]. split.
    - intros o Ho (a & Ha & Hp). unfold rb_pre in Ho. rewrite !elem_of_cons, elem_of_nil in Ho. destruct_or! Ho; subst o; try done; simpl in Ha; injection Ha as <-; simpl in Hp; try done; intros Hn; by apply Hn.
    - intros o ->%elem_of_list_singleton (a & Ha & _). done. }
  split; [by constructor|]. split; [exists (SplMint (Some 5) 60 6 true None); split; [|done]; repeat split; try done; intros p H; simpl in H; try done; by injection H as <-|]. split; [|by vm_compute].
  intros o Ho Hm. assert (forallb (fun o => negb (multi_b o 1001)) rb_mint = true) as Hf by (by vm_compute).
  rewrite forallb_forall in Hf. specialize (Hf o (proj1 (elem_of_list_In _ _) Ho)). destruct Hm as (a & v & Ha & Hp & Hv & Hs).
  destruct (rb_plain o a (or_introl Ho) Ha) as [v' Hd]. rewrite Hd in Hv. simpl in Hv. injection Hv as ->. unfold multi_b in Hf. rewrite Ha, Hp, Hd, bool_decide_eq_true_2 in Hf by done. done.
Qed.
Example C46_multisig_read_back_example : ts_run E0 X0 ts_empty rb_multi = Done (final rb_multi) /\ ops_ok rb_multi /\ ts_ctr (final rb_multi) <= 2 ^ 32 /\
  last_word rb_pre (TUpdate (multid 300 11 3) Finalized) [TSlot ord0 (SlotInfo 10 9 0) Finalized] (multid 300 11 3) /\
  live_with E0 (multid 300 11 3) TokenP (pack_multisig spl_ms1) /\ clean_multisig (pack_multisig spl_ms1).
Proof.
  split; [apply final_run; by vm_compute|]. split; [repeat constructor; simpl; try done; intros m; done|]. split; [by vm_compute|]. split.
  { split; [by left|]. split.
    - intros o Ho (a & Ha & Hp). unfold rb_pre in Ho. rewrite !elem_of_cons, elem_of_nil in Ho. destruct_or! Ho; subst o; try done; simpl in Ha; injection Ha as <-; simpl in Hp; try done; intros Hn; by apply Hn.
    - intros o ->%elem_of_list_singleton (a & Ha & _). done. }
  split; [by constructor|]. apply C41_example_multisig.
Qed.
