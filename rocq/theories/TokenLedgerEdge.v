(** C92: mints and multisigs, and streams that are not orderly. *)
From Verif Require Import Base SMap DataModel BincodeModel BincodeProofs FilterModel StoreModel TokenModel TokenProofs TokenProps SplModel SplProofs TokenUtilsModel
  TokenUtilsProofs TokenPendModel TokenPendSpec TokenPendProofs TokenPendProps TokenUtilsProps TokenStoreModel TokenStoreSpec TokenStoreProofs TokenStoreViews TokenStoreProps TokenStoreOrder
  TokenStoreQuery TokenStoreQueryProps TokenStoreSafe TokenStoreServed TokenLedgerSpec TokenLedgerProofs TokenLedgerKey TokenLedgerProps.
#[local] Arguments le : simpl never.
#[local] Arguments unle : simpl never.
#[local] Opaque to_bytes from_bytes peek_pubkey.

Definition msd (pk slot wv : N) : acct := dlv pk 3368400 spl_token_id (pack_multisig (SplMultisig 1 2 true ([5; slot] ++ replicate 9 0))) slot wv.
(** The mint changes with the slots; a multisig is created in slot 10 and changed in slot 11. *)
Definition tl_hist3 : list tsop :=
  [TInit (mintd 1001 50 1 1); TUpdate (mintd 1001 51 10 2) Processed; TUpdate (msd 79 10 3) Processed; TSlot ord0 (SlotInfo 10 9 0) Confirmed; TUpdate (mintd 1001 52 11 4) Processed;
   TUpdate (msd 79 11 5) Processed; TSlot ord0 (SlotInfo 11 10 0) Confirmed; TSlot ord0 (SlotInfo 10 9 0) Finalized; TUpdate (mintd 1001 53 12 6) Processed].
Definition supply_of (r : res (result (option acct))) : option N :=
  match r with Done (ROk (Some b)) => match d_data b with DRaw v => sm_supply <$> unpack_mint v | _ => None end | _ => None end.
Definition signers_of (r : res (result (option acct))) : option (list pubkey) :=
  match r with Done (ROk (Some b)) => match d_data b with DRaw v => ms_signers <$> unpack_multisig v | _ => None end | _ => None end.

Lemma msd_live pk slot wv : live_with E0 (msd pk slot wv) TokenP (pack_multisig (SplMultisig 1 2 true ([5; slot] ++ replicate 9 0))).
Proof. constructor; done. Qed.
Lemma hist3_mints o a : o ∈ tl_hist3 -> op_acct o = Some a -> d_pubkey a = 1001 -> exists p v, live_with E0 a p v /\ clean_mint v.
Proof.
  intros Ho Ha Hk. apply (in_given _ _ _ Ho) in Ha. change (a ∈ [mintd 1001 50 1 1; mintd 1001 51 10 2; msd 79 10 3; mintd 1001 52 11 4; msd 79 11 5; mintd 1001 53 12 6]) in Ha.
  clear Ho. rewrite !elem_of_cons, elem_of_nil in Ha. destruct_or! Ha; subst a; try (vm_compute in Hk; discriminate Hk); (eexists TokenP, _; split; [apply mintd_live|]; eexists; split; [|reflexivity]; by apply mintd_clean).
Qed.
Lemma msd_clean slot : slot < 2 ^ 256 -> sms_ok (SplMultisig 1 2 true ([5; slot] ++ replicate 9 0)).
Proof. intros H. split; [done|]. split; [done|]. split; [done|]. repeat constructor; done. Qed.
Lemma hist3_multis o a : o ∈ tl_hist3 -> op_acct o = Some a -> d_pubkey a = 79 -> exists p v, live_with E0 a p v /\ clean_multisig v.
Proof.
  intros Ho Ha Hk. apply (in_given _ _ _ Ho) in Ha. change (a ∈ [mintd 1001 50 1 1; mintd 1001 51 10 2; msd 79 10 3; mintd 1001 52 11 4; msd 79 11 5; mintd 1001 53 12 6]) in Ha.
  clear Ho. rewrite !elem_of_cons, elem_of_nil in Ha. destruct_or! Ha; subst a; try (vm_compute in Hk; discriminate Hk).
  - exists TokenP. eexists. split; [apply msd_live|]. exists (SplMultisig 1 2 true ([5; 10] ++ replicate 9 0)), [5; 10], 9%nat. split; [by apply msd_clean|split; [reflexivity|split; [reflexivity|set_solver]]].
  - exists TokenP. eexists. split; [apply msd_live|]. exists (SplMultisig 1 2 true ([5; 11] ++ replicate 9 0)), [5; 11], 9%nat. split; [by apply msd_clean|split; [reflexivity|split; [reflexivity|set_solver]]].
Qed.
Lemma hist3_others o : o ∈ tl_hist3 -> ~ op_names E0 o 79 /\ ~ op_collides o 79.
Proof.
  intros Ho. assert (forall a, op_acct o = Some a -> a ∈ [mintd 1001 50 1 1; mintd 1001 51 10 2; msd 79 10 3; mintd 1001 52 11 4; msd 79 11 5; mintd 1001 53 12 6]) as Hin by (intros a Ha; by apply (in_given _ _ _ Ho) in Ha).
  clear Ho. split.
  - intros (a & v & r & Ha & Hv & Hu & _). apply Hin in Ha. clear Hin. rewrite !elem_of_cons, elem_of_nil in Ha. destruct_or! Ha; subst a; simpl in Hv; injection Hv as <-; vm_compute in Hu; discriminate Hu.
  - intros (a & Ha & Hn & Hf). apply Hin in Ha. clear Hin. rewrite !elem_of_cons, elem_of_nil in Ha. destruct_or! Ha; subst a; try (by apply Hn); vm_compute in Hf; discriminate Hf.
Qed.
Example C92_mint_reads_show_ledger_example :
  t_orderly E0 tl_hist3 (tledger_at tl_hist3) /\ ops_ok tl_hist3 /\ ts_run E0 X0 ts_empty tl_hist3 = Done (final tl_hist3) /\ ts_ctr (final tl_hist3) <= 2 ^ 32 /\
  (forall o a, o ∈ tl_hist3 -> op_acct o = Some a -> d_pubkey a = 1001 -> exists p v, live_with E0 a p v /\ clean_mint v) /\
  (exists m, tcounts (tledger_at tl_hist3) Finalized m /\ d_pubkey m = 1001) /\
  supply_of (ts_get (final tl_hist3) 1001 Processed) = Some 53 /\ supply_of (ts_get (final tl_hist3) 1001 Confirmed) = Some 52 /\ supply_of (ts_get (final tl_hist3) 1001 Finalized) = Some 51.
Proof.
  split; [apply tledger_at_orderly; by vm_compute|]. split; [repeat constructor; simpl; try done; intros m; done|]. split; [apply final_run; by vm_compute|]. split; [by vm_compute|].
  split; [exact hist3_mints|]. split; [|split_and!; by vm_compute].
  exists (mintd 1001 50 1 1). assert (tl_base (tledger_at tl_hist3) = [mintd 1001 50 1 1]) as Hb by (vm_compute; reflexivity). split; [left; rewrite Hb; left|done].
Qed.
Example C92_multisig_reads_show_ledger_example :
  t_orderly E0 tl_hist3 (tledger_at tl_hist3) /\ ops_ok tl_hist3 /\ ts_run E0 X0 ts_empty tl_hist3 = Done (final tl_hist3) /\
  (forall o a, o ∈ tl_hist3 -> op_acct o = Some a -> d_pubkey a = 79 -> exists p v, live_with E0 a p v /\ clean_multisig v) /\ (forall o, o ∈ tl_hist3 -> ~ op_names E0 o 79 /\ ~ op_collides o 79) /\
  signers_of (ts_get (final tl_hist3) 79 Confirmed) = Some ([5; 11] ++ replicate 9 0) /\ signers_of (ts_get (final tl_hist3) 79 Finalized) = Some ([5; 10] ++ replicate 9 0).
Proof.
  split; [apply tledger_at_orderly; by vm_compute|]. split; [repeat constructor; simpl; try done; intros m; done|]. split; [apply final_run; by vm_compute|].
  split; [exact hist3_multis|]. split; [exact hist3_others|]. split_and!; by vm_compute.
Qed.

(** ** Streams outside the conditions *)
Definition no_answer (L : tledger) (ts : tstore) (pk : pubkey) (c : commitment) : Prop := ~ exists o x, in_tledger L pk c o /\ ts_get ts pk c = Done (ROk x) /\ answers E0 L o x.
(** The read answers with the data [d]; the ledger's newest version is [m] with other data, or closed. *)
Lemma no_answer_by L ts pk c m b : tcounts L c m -> d_pubkey m = pk -> ts_get ts pk c = Done (ROk (Some b)) ->
  (forall a, a ∈ tl_base L ++ tl_writes L -> d_pubkey a = pk -> older m a -> closed a \/ data_bytes E0 (d_data b) <> data_bytes E0 (d_data a)) -> no_answer L ts pk c.
Proof.
  intros Hm Hk Hget Hall (o & x & Ho & Hx & Ha). rewrite Hget in Hx. injection Hx as <-. destruct o as [a|]; [|by apply Ho in Hm].
  destruct Ho as [[Hc Hak] Hmax]. specialize (Hmax m Hm Hk). assert (a ∈ tl_base L ++ tl_writes L) as Hin by (apply elem_of_app; destruct Hc as [?|[? _]]; [by left|by right]).
  destruct Ha as [[_ ?]|[Hop (b' & [= <-] & _ & _ & Hd & _)]]; [done|]. destruct (Hall a Hin Hak Hmax) as [?|Hne]; [done|by apply Hne].
Qed.
(** An account opened in slot 10 and closed in slot 11, both confirmed, then finalized. *)
Definition brief : list tsop :=
  [TInit (mintd 1001 50 1 1); TUpdate (tokd 77 1001 1002 5 10 1) Processed; TSlot ord0 (SlotInfo 10 9 0) Confirmed; TUpdate (tokd 78 1001 1002 9 11 2) Processed;
   TUpdate (TokenStoreProps.closed 77 11 3) Processed; TSlot ord0 (SlotInfo 11 10 0) Confirmed; TSlot ord0 (SlotInfo 10 9 0) Finalized; TSlot ord0 (SlotInfo 11 10 0) Finalized].
(** Slot 10 confirmed with a write; then slot 11, of which nothing reached the store. *)
Definition unseen : list tsop :=
  [TInit (mintd 1001 50 1 1); TInit (tokd 77 1001 1002 4 5 1); TUpdate (tokd 77 1001 1002 5 10 2) Processed; TSlot ord0 (SlotInfo 10 9 0) Confirmed; TSlot ord0 (SlotInfo 11 10 0) Confirmed].
(** Slot 10 confirmed with a write; slots 11 and 12 written; slot 12 confirmed and finalized, slot 11 never named but as its parent. *)
Definition skipped : list tsop :=
  [TInit (mintd 1001 50 1 1); TInit (tokd 77 1001 1002 4 5 1); TUpdate (tokd 77 1001 1002 5 10 2) Processed; TSlot ord0 (SlotInfo 10 9 0) Confirmed; TUpdate (tokd 78 1001 1002 8 11 3) Processed;
   TUpdate (tokd 78 1001 1002 9 12 4) Processed; TSlot ord0 (SlotInfo 12 11 0) Confirmed; TSlot ord0 (SlotInfo 12 11 0) Finalized].

Lemma key_known l pk L m : Forall plain_acct (given l) -> key_check l pk = true -> tcounts L Finalized m ->
  forallb (fun b => bool_decide (mint_used b = Some (d_pubkey m) \/ mint_used b = None)) (given l) = true -> token_account_alone E0 l pk /\ mints_known E0 l L pk.
Proof.
  intros Hp Hk Hm Hall. destruct (key_checked l pk Hp Hk) as (H1 & H2 & H3 & H4). split; [by split|].
  intros o a p v r Ho Ha Hak Hl Hu. split; [by eapply H4|]. exists m. split; [done|].
  assert (mint_used a = Some (sa_mint r)) as Hmu.
  { destruct (plain_raw a) as [w Hw]; [rewrite Forall_forall in Hp; apply Hp; by eapply in_given|].
    unfold mint_used. rewrite Hw. pose proof (lw_data _ _ _ _ Hl) as Hv. rewrite Hw in Hv. simpl in Hv. injection Hv as ->. by rewrite Hu. }
  rewrite forallb_forall in Hall. specialize (Hall a (proj1 (elem_of_list_In _ _) (in_given _ _ _ Ho Ha))). apply bool_decide_eq_true in Hall. destruct Hall; congruence.
Qed.
Lemma stays_owned l pk : forallb (fun a => negb (d_pubkey a =? pk) || ownedb a) (given l) = true -> token_account_alone E0 l pk -> token_account_key E0 l pk.
Proof.
  intros Hc Hal. split; [done|]. intros l1 o l2 a L Hl Ha Hk Hn. exfalso. apply Hn. rewrite forallb_forall in Hc.
  specialize (Hc a (proj1 (elem_of_list_In _ _) (in_given l o a ltac:(rewrite Hl; apply elem_of_app; right; left) Ha))). rewrite Hk, N.eqb_refl in Hc. simpl in Hc.
  apply orb_true_iff in Hc as [H|H]; [left|right]; by apply N.eqb_eq.
Qed.
Definition unseen_ledger : tledger := TLedger [mintd 1001 50 1 1; tokd 77 1001 1002 4 5 1] [tokd 77 1001 1002 5 10 2] ∅ [(11, 10); (10, 9)] None.
Definition skipped_ledger : tledger :=
  TLedger [mintd 1001 50 1 1; tokd 77 1001 1002 4 5 1] [tokd 77 1001 1002 5 10 2; tokd 78 1001 1002 8 11 3; tokd 78 1001 1002 9 12 4] ∅ [(12, 11); (11, 10); (10, 9)] (Some 12).

Lemma orderly_loose E k l L : t_orderly E l L -> t_loose E k l L.
Proof. induction 1; by econstructor. Qed.
Definition wrongb (L : tledger) (ts : tstore) (pk : pubkey) (c : commitment) (m : acct) : bool :=
  match ts_get ts pk c with
  | Done (ROk (Some b)) =>
      forallb (fun a => negb ((d_pubkey a =? pk) && olderb m a) || (d_lamports a =? 0) || negb (ownedb a) || bool_decide (data_bytes E0 (d_data b) <> data_bytes E0 (d_data a))) (tl_base L ++ tl_writes L)
  | _ => false
  end.
Lemma no_answer_check L ts pk c m : tcounts L c m -> d_pubkey m = pk -> wrongb L ts pk c m = true -> no_answer L ts pk c.
Proof.
  intros Hm Hk Hw. unfold wrongb in Hw. destruct (ts_get ts pk c) as [[[b|]|?]|] eqn:Hget; try done. rewrite forallb_forall in Hw. eapply no_answer_by; [done..|].
  intros a Ha Hak Hold. specialize (Hw a (proj1 (elem_of_list_In _ _) Ha)). rewrite Hak, N.eqb_refl in Hw.
  assert (olderb m a = true) as Hb. { unfold olderb. destruct Hold as [H|[H1 H2]]; [apply N.ltb_lt in H; by rewrite H|]. apply N.eqb_eq in H1. apply N.leb_le in H2. rewrite H1, H2. apply orb_true_r. }
  rewrite Hb in Hw. simpl in Hw. apply orb_true_iff in Hw as [Hw|Hw]; [|right; by apply bool_decide_eq_true in Hw]. left.
  apply orb_true_iff in Hw as [Hw|Hw]; [left; by apply N.eqb_eq|right]. intros Ho. apply negb_true_iff in Hw. unfold ownedb in Hw.
  destruct Ho as [Ho|Ho]; rewrite Ho, N.eqb_refl in Hw; [done|by rewrite orb_true_r in Hw].
Qed.

(** A slot nothing of which reached the store is confirmed: the confirmed write of its parent is no longer shown, at any commitment. *)
Theorem C92_unseen_slot_refuted : exists E X l L ts pk, t_loose E false l L /\ ops_ok l /\ ts_run E X ts_empty l = Done ts /\ ts_ctr ts <= 2 ^ 32 /\
  token_account_key E l pk /\ mints_known E l L pk /\ forall c, c <> Finalized -> ~ exists o x, in_tledger L pk c o /\ ts_get ts pk c = Done (ROk x) /\ answers E L o x.
Proof.
  exists E0, X0, unseen, unseen_ledger, (final unseen), 77. split.
  { change unseen with (take 4 unseen ++ [TSlot ord0 (SlotInfo 11 10 0) Confirmed]).
    assert (tledger_at (take 4 unseen) = TLedger [mintd 1001 50 1 1; tokd 77 1001 1002 4 5 1] [tokd 77 1001 1002 5 10 2] ∅ [(10, 9)] None) as HL by (vm_compute; reflexivity).
    change unseen_ledger with (let L := TLedger [mintd 1001 50 1 1; tokd 77 1001 1002 4 5 1] [tokd 77 1001 1002 5 10 2] ∅ [(10, 9)] None in
      TLedger (tl_base L) (tl_writes L) (tl_announced L) ((11, 10) :: tl_conf L) (tl_fin L)). rewrite <- HL. cbv zeta.
    apply (tv_unseen _ _ _ ord0 (SlotInfo 11 10 0) 10 9 []); [|by rewrite HL|done|done].
    apply orderly_loose, tledger_at_orderly. by vm_compute. }
  split; [repeat constructor; simpl; try done; intros m; done|]. split; [apply final_run; by vm_compute|]. split; [by vm_compute|].
  destruct (key_known unseen 77 unseen_ledger (mintd 1001 50 1 1)) as [H1 H2]; [repeat constructor|by vm_compute|left; left|by vm_compute|].
  split; [apply stays_owned; [by vm_compute|done]|]. split; [done|]. intros c Hc. apply (no_answer_check _ _ _ _ (tokd 77 1001 1002 5 10 2)); [|done|destruct c; by vm_compute].
  right. split; [left|]. assert (is_confirmed unseen_ledger 10) by (exists 9; right; left). destruct c; [by left|done|done].
Qed.
(** A slot is confirmed whose parent's own record does not name its parent: the confirmed write of the grandparent is lost, for good once the
    slot is finalized. *)
Theorem C92_skipped_confirmation_refuted : exists E X l L ts pk, t_loose E true l L /\ ops_ok l /\ ts_run E X ts_empty l = Done ts /\ ts_ctr ts <= 2 ^ 32 /\
  token_account_key E l pk /\ mints_known E l L pk /\ forall c, ~ exists o x, in_tledger L pk c o /\ ts_get ts pk c = Done (ROk x) /\ answers E L o x.
Proof.
  exists E0, X0, skipped, skipped_ledger, (final skipped), 77. split.
  { change skipped with ((take 6 skipped ++ [TSlot ord0 (SlotInfo 12 11 0) Confirmed]) ++ [TSlot ord0 (SlotInfo 12 11 0) Finalized]).
    pose (L1 := TLedger [mintd 1001 50 1 1; tokd 77 1001 1002 4 5 1] [tokd 77 1001 1002 5 10 2; tokd 78 1001 1002 8 11 3; tokd 78 1001 1002 9 12 4] ∅ [(10, 9)] None).
    pose (L2 := TLedger (tl_base L1) (tl_writes L1) (tl_announced L1) ((12, 11) :: (11, 10) :: tl_conf L1) (tl_fin L1)).
    assert (tledger_at (take 6 skipped) = L1) as HL by (vm_compute; reflexivity).
    assert (forall k, In (tokd 78 1001 1002 k (k + 3) (k - 5)) (tl_writes L1) -> k < 100 -> seen E0 L1 (k + 3)) as Hseen.
    { intros k Hin Hlt. right. eexists. split; [by apply elem_of_list_In|]. split; [done|]. split; [by left|]. right. eexists TokenP, _. split; [apply tokd_live|]. left.
      destruct (tokd_unpack 1001 1002 k) as [Hu _]; [done|done|lia|]. rewrite Hu. by eexists. }
    apply (tv_snoc _ _ _ L2); [|change (SlotInfo 12 11 0) with (SlotInfo (fst (12, 11)) (snd (12, 11)) 0); apply te_finalize; [left|by intros ? ?]].
    apply (tv_skip _ _ _ ord0 (SlotInfo 12 11 0) 10 9 []); [|done|done|done|apply (Hseen 8); [right; left; done|done]|apply (Hseen 9); [right; right; left; done|done]].
    rewrite <- HL. apply orderly_loose, tledger_at_orderly. by vm_compute. }
  split; [repeat constructor; simpl; try done; intros m; done|]. split; [apply final_run; by vm_compute|]. split; [by vm_compute|].
  destruct (key_known skipped 77 skipped_ledger (mintd 1001 50 1 1)) as [H1 H2]; [repeat constructor|by vm_compute|left; left|by vm_compute|].
  split; [apply stays_owned; [by vm_compute|done]|]. split; [done|]. intros c. apply (no_answer_check _ _ _ _ (tokd 77 1001 1002 5 10 2)); [|done|destruct c; by vm_compute].
  right. split; [left|]. assert (is_confirmed skipped_ledger 10) by (exists 9; right; right; left). destruct c; [by left|done|]. split; [done|]. by exists 12.
Qed.
(** The conditions of [token_account_alone] do not suffice: an account opened and closed again before it is finalized keeps being served. *)
Theorem C92_close_before_finalized_refuted : exists E X l L ts pk, t_orderly E l L /\ ops_ok l /\ ts_run E X ts_empty l = Done ts /\ ts_ctr ts <= 2 ^ 32 /\
  token_account_alone E l pk /\ mints_known E l L pk /\
  forall c, in_tledger L pk c (Some (TokenStoreProps.closed pk 11 3)) /\ exists b, ts_get ts pk c = Done (ROk (Some b)) /\ amount_of (ts_get ts pk c) = Some 5.
Proof.
  exists E0, X0, brief, (tledger_at brief), (final brief), 77.
  assert (tledger_at brief = TLedger [mintd 1001 50 1 1] [tokd 77 1001 1002 5 10 1; tokd 78 1001 1002 9 11 2; TokenStoreProps.closed 77 11 3] ∅ [(11, 10); (10, 9)] (Some 11)) as HL by (vm_compute; reflexivity).
  split; [apply tledger_at_orderly; by vm_compute|]. rewrite HL. split; [repeat constructor; simpl; try done; intros m; done|]. split; [apply final_run; by vm_compute|]. split; [by vm_compute|].
  match goal with |- context [mints_known _ _ ?L _] => destruct (key_known brief 77 L (mintd 1001 50 1 1)) as [H1 H2] end; [|by vm_compute|left; left|by vm_compute|].
  { repeat (constructor; [first [apply pa_tok; done|apply pa_mint; done|apply pa_closed]|]). constructor. }
  split; [done|]. split; [done|].
  intros c. split.
  - split; [split; [|done]|].
    + right. split; [right; right; left|]. simpl d_slot. match goal with |- context [is_confirmed ?L _] => assert (is_confirmed L 11) by (exists 10; left) end.
      destruct c; [by left|done|]. split; [done|]. by exists 11.
    + intros a Ha Hk. assert (a ∈ [mintd 1001 50 1 1; tokd 77 1001 1002 5 10 1; tokd 78 1001 1002 9 11 2; TokenStoreProps.closed 77 11 3]) as Hin.
      { destruct Ha as [Ha|[Ha _]]; simpl in Ha; [|by right]. apply elem_of_list_singleton in Ha as ->. left. }
      clear Ha. assert (forallb (fun a => olderb a (TokenStoreProps.closed 77 11 3)) [mintd 1001 50 1 1; tokd 77 1001 1002 5 10 1; tokd 78 1001 1002 9 11 2; TokenStoreProps.closed 77 11 3] = true) as Hc by (by vm_compute).
      rewrite forallb_forall in Hc. specialize (Hc a (proj1 (elem_of_list_In _ _) Hin)). unfold olderb in Hc. apply orb_true_iff in Hc as [Hc|[Hc1 Hc2]%andb_true_iff]; [left; by apply N.ltb_lt|].
      right. split; [by apply N.eqb_eq|by apply N.leb_le].
  - destruct (ts_get (final brief) 77 c) as [[[b|]|?]|] eqn:Hg; [exists b; split; [done|]; rewrite <- Hg; destruct c; by vm_compute|exfalso..];
      (assert (amount_of (ts_get (final brief) 77 c) = Some 5) as Hx by (destruct c; by vm_compute); by rewrite Hg in Hx).
Qed.

Print Assumptions C92_unseen_slot_refuted.
Print Assumptions C92_skipped_confirmation_refuted.
Print Assumptions C92_close_before_finalized_refuted.
