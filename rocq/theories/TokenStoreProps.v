(** Finalized reads of the token program store (C46, C47), mint indices across closings (C42). *)
From Verif Require Import Base SMap DataModel BincodeModel BincodeProofs FilterModel StoreModel TokenModel TokenProofs TokenProps SplModel SplProofs TokenUtilsModel
  TokenUtilsProofs TokenPendModel TokenPendSpec TokenPendProofs TokenPendProps TokenUtilsProps TokenStoreModel TokenStoreSpec TokenStoreProofs TokenStoreViews.
#[local] Arguments le : simpl never.
#[local] Arguments unle : simpl never.
#[local] Opaque to_bytes from_bytes peek_pubkey.

(** ** C46.  A finalized read in terms of the finalized deliveries of the history.  Mints: always the last one delivered. *)
Theorem C46_mint E X l ts pk m : ts_run E X ts_empty l = Done ts -> ops_ok l -> ts_ctr ts <= 2 ^ 32 ->
  mint_state (ts_log E X ts_empty l).*1 pk = Some m -> multi_state (ts_log E X ts_empty l).*1 pk = None ->
  ts_get ts pk Finalized = Done (ROk (Some (mint_to_acct m (ts_fin ts) 0))).
Proof.
  intros H Hok Hc Hm Hs. destruct (run_agrees _ _ _ _ H Hok Hc) as [Ha Hb]. apply Hb in Hm as (i & Hi & Hm).
  simpl. unfold get_fin. rewrite Ha, Hs, Hi, Hm. done.
Qed.
Print Assumptions C46_mint.
(** Multisigs: the last one delivered. *)
Theorem C46_multisig E X l ts pk m : ts_run E X ts_empty l = Done ts -> ops_ok l -> ts_ctr ts <= 2 ^ 32 ->
  multi_state (ts_log E X ts_empty l).*1 pk = Some m ->
  exists b, multisig_to_acct m pk (ts_fin ts) 0 = Done b /\ ts_get ts pk Finalized = Done (ROk (Some b)).
Proof.
  intros H Hok Hc Hm. destruct (run_agrees _ _ _ _ H Hok Hc) as [Ha Hb]. simpl. unfold get_fin. rewrite Ha, Hm.
  pose proof (run_inv _ _ _ _ _ H Hok tinv_empty Hc) as Hi. rewrite <- Ha in Hm. apply (ti_multi _ Hi) in Hm.
  unfold multisig_to_acct. rewrite (proj2 (Nat.leb_le _ _)) by done. eauto.
Qed.
Print Assumptions C46_multisig.
(** Token accounts: the last one delivered, nothing once closed, provided the key is not also the key of a mint and no
    account with the same first four bytes is delivered. *)
Theorem C46_token_partial E X l ts pk : ts_run E X ts_empty l = Done ts -> ops_ok l -> ts_ctr ts <= 2 ^ 32 ->
  not_mint E l pk -> no_collision l pk -> multi_state (ts_log E X ts_empty l).*1 pk = None ->
  ts_get ts pk Finalized =
    match tok_state (ts_log E X ts_empty l).*1 pk with
    | None => Done (ROk None)
    | Some t => b ← token_to_acct t (ts_fin ts) 0 (ts_mints ts); Done (ROk b)
    end.
Proof.
  intros H Hok Hc Hnm Hnc Hs. destruct (run_agrees _ _ _ _ H Hok Hc) as [Ha _]. destruct (run_holds _ _ _ _ _ H Hok Hc Hnm Hnc) as [Hix Hh].
  pose proof (run_inv _ _ _ _ _ H Hok tinv_empty Hc) as Hi. simpl. unfold get_fin. rewrite Ha, Hs, Hix.
  rewrite (holds_get _ _ _ (ti_table _ Hi) Hh). cbn [mbind res_bind]. destruct (tok_state _ pk) as [t|] eqn:Ht; [|done].
  destruct (proj1 (Hh t) eq_refl) as (i & Hat). rewrite (ti_live _ Hi _ _ _ Hat). done.
Qed.
Print Assumptions C46_token_partial.

(** The account last finalized is read back with its owner and data, the conditions stated on the calls alone. *)
Theorem C46_read_back_partial E X l1 a l2 ts p v r : ts_run E X ts_empty (l1 ++ TUpdate a Finalized :: l2) = Done ts ->
  ops_ok (l1 ++ TUpdate a Finalized :: l2) -> ts_ctr ts <= 2 ^ 32 ->
  live_with E a p v -> clean_token v -> unpack_account v = Some r ->
  not_mint E (l1 ++ TUpdate a Finalized :: l2) (d_pubkey a) -> no_collision (l1 ++ TUpdate a Finalized :: l2) (d_pubkey a) ->
  (forall o, o ∈ l1 ++ TUpdate a Finalized :: l2 -> ~ op_multi E o (d_pubkey a) /\ ~ op_closes o (sa_mint r)) ->
  (forall o, o ∈ l1 -> op_about o (d_pubkey a) -> ~ op_pends o) -> (forall o, o ∈ l2 -> ~ op_about o (d_pubkey a)) ->
  is_Some (mint_state (ts_log E X ts_empty (l1 ++ TUpdate a Finalized :: l2)).*1 (sa_mint r)) ->
  exists b, ts_get ts (d_pubkey a) Finalized = Done (ROk (Some b)) /\ d_pubkey b = d_pubkey a /\ d_owner b = d_owner a /\
    data_bytes E (d_data b) = Done v /\ d_slot b = ts_fin ts /\ d_lamports b = 2039280.
Proof.
  intros H Hok Hc Hl (r' & Hr & -> & Hd) Hu Hnm Hnc Hoth Hpast Hfut [m Hm]. rewrite (unpack_pack_account r' Hr) in Hu. injection Hu as <-.
  pose proof (unpack_pack_account r' Hr) as Hu. set (l := l1 ++ TUpdate a Finalized :: l2) in *. pose proof (log_origin _ _ _ _ H Hok Hc) as Horg.
  assert (multi_state (ts_log E X ts_empty l).*1 (d_pubkey a) = None) as Hs.
  { apply multi_state_none. intros q Hq. destruct (Horg _ Hq) as (o & Ho & Hcf). apply comes_multi in Hcf. by destruct (Hoth o Ho) as [Hx _]. }
  rewrite (C46_token_partial E X l ts (d_pubkey a) H Hok Hc Hnm Hnc Hs).
  destruct (run_app _ _ _ _ _ _ H) as (ts1 & H1 & H2). cbn [ts_run] in H2. apply Forall_app in Hok as [Hok1 Hok2]. apply Forall_cons in Hok2 as [Hoa Hok2].
  destruct (ts_step E X ts1 (TUpdate a Finalized)) as [ts2|] eqn:Hst; [|done]. cbn [mbind res_bind] in H2.
  pose proof (run_ctr _ _ _ _ _ H2 Hok2) as Hc2. assert (ts_ctr ts1 <= ts_ctr ts2) as Hc1 by (by apply (step_ctr E X ts1 (TUpdate a Finalized))).
  assert (tinv ts1) as Hi1 by (apply (run_inv _ _ _ _ _ H1); [done|apply tinv_empty|lia]).
  assert (tinv ts2) as Hi2 by (apply (step_inv E X ts1 (TUpdate a Finalized)); [done..|lia]).
  assert (is_token ts1 a = Done true) as Htok.
  { unfold is_token. rewrite (lw_owner _ _ _ _ Hl). destruct p; simpl; by rewrite ?orb_true_r. }
  pose proof (type_token E a p _ r' (ts_mint_ix ts1) (ts_ctr ts1) Hl Hu) as Hty.
  destruct (mint_index (sa_mint r') (ts_mint_ix ts1) (ts_ctr ts1)) as [[i ix'] ctr'] eqn:Hmi.
  assert (accepted E ts1 a = Some (TPToken (of_spl_account p a r' i None))) as Hacc by (unfold accepted; by rewrite Htok, Hty).
  assert (ts_log E X ts_empty l = ts_log E X ts_empty l1 ++ (TPToken (of_spl_account p a r' i None), None) :: ts_log E X ts2 l2) as Hlog.
  { unfold l. rewrite (log_app _ _ _ _ _ _ H1). f_equal. cbn [ts_log deliveries]. by rewrite Hacc, Hst. }
  assert (tok_state (ts_log E X ts_empty l).*1 (d_pubkey a) = Some (of_spl_account p a r' i None)) as Htk.
  { rewrite Hlog, fmap_app, fmap_cons. replace ((ts_log E X ts_empty l1).*1 ++ (TPToken (of_spl_account p a r' i None), None : option N).1 :: (ts_log E X ts2 l2).*1)
      with (((ts_log E X ts_empty l1).*1 ++ [TPToken (of_spl_account p a r' i None)]) ++ (ts_log E X ts2 l2).*1) by (by rewrite <- app_assoc).
    rewrite tok_state_app, tok_state_snoc; [simpl; by rewrite N.eqb_refl|].
    assert (forall s pk v, version (ts_pend ts2) s pk v -> exists o, o ∈ l1 ++ [TUpdate a Finalized] /\ comes_from E o v.1 /\ op_pends o) as Hpo.
    { apply (pend_origin E X); [|apply Forall_app; split; [done|by constructor]|lia]. rewrite (run_app_done _ _ _ _ _ _ H1). cbn [ts_run]. by rewrite Hst. }
    destruct (run_origin E X _ l2 ts2 ts H2 Hok2 Hi2 Hc Hpo) as [_ Horg2].
    intros x Hx Hk. destruct (Horg2 x Hx) as (o & [Ho|[Ho Hpend]] & Hcf); apply comes_pubkey in Hcf; rewrite Hk in Hcf; [by apply (Hfut o Ho)|].
    apply elem_of_app in Ho as [Ho| ->%elem_of_list_singleton]; [by apply (Hpast o Ho)|]. by apply Hpend. }
  rewrite Htk. assert (ts_mint_ix ts2 !! sa_mint r' = Some i) as Hix2.
  { apply mint_index_found in Hmi. unfold ts_step, ts_update in Hst. rewrite Htok in Hst. cbn [mbind res_bind] in Hst. rewrite Hty in Hst. cbn [mbind res_bind add_finalized] in Hst.
    unfold add_token in Hst. destruct (tb_save _ _) as [[[tb k] b]|]; [|done]. cbn [mbind res_bind] in Hst. injection Hst as <-. by destruct b. }
  assert (ts_mint_ix ts !! sa_mint r' = Some i) as Hix.
  { apply (run_ix_keep E X l2 ts2 ts); try done. intros x Hx ->. destruct (Horg (TPDeleted (sa_mint r'))) as (o & Ho & Hcf).
    - rewrite Hlog, fmap_app. apply elem_of_app. right. by right.
    - apply comes_closes in Hcf. by destruct (Hoth o Ho) as [_ Hcl]. }
  assert (ops_ok l) as Hok by (apply Forall_app; split; [done|by constructor]).
  destruct (run_agrees _ _ _ _ H Hok Hc) as [_ Hb]. apply Hb in Hm as (j & Hj & Hm). rewrite Hix in Hj. injection Hj as <-.
  pose proof (run_inv _ _ _ _ _ H Hok tinv_empty Hc) as Hi. assert (ma_pubkey m = sa_mint r') as Hmp.
  { destruct (ti_ix _ Hi) as [Hinj _]. apply (Hinj _ _ i); [|done]. by apply (ti_mints _ Hi). }
  rewrite (token_back E a p _ r' i (ts_mints ts) m (ts_fin ts) 0 Hl Hu Hm Hmp). cbn [mbind res_bind]. eexists. split; [done|]. simpl.
  by rewrite (norm_id r' Hd).
Qed.
Print Assumptions C46_read_back_partial.

(** Fixtures: account deliveries of the SPL token program. *)
Definition X0 : lz4x := Lz4x (fun _ => None) (fun _ _ => None).
Definition dlv (pk lam : N) (owner : pubkey) (v : bytes) (slot wv : N) : acct := Acct pk (Account lam (DRaw v) owner false (2 ^ 64 - 1)) slot wv.
Definition tokd (pk mint owner amount slot wv : N) : acct :=
  dlv pk 2039280 spl_token_id (pack_account (SplAccount mint owner amount None Init None 0 None)) slot wv.
Definition mintd (pk supply slot wv : N) : acct := dlv pk 1461600 spl_token_id (pack_mint (SplMint (Some 5) supply 6 true None)) slot wv.
Definition closed (pk slot wv : N) : acct := dlv pk 0 0 [] slot wv.
Definition final (l : list tsop) : tstore := match ts_run E0 X0 ts_empty l with Done ts => ts | Panic => ts_empty end.
Definition ran (l : list tsop) : bool := match ts_run E0 X0 ts_empty l with Done _ => true | Panic => false end.
Lemma final_run l : ran l = true -> ts_run E0 X0 ts_empty l = Done (final l).
Proof. unfold ran, final. by destruct (ts_run E0 X0 ts_empty l). Qed.
Lemma final_app l1 l2 : ran l1 = true -> ran (l1 ++ l2) = true -> ts_run E0 X0 (final l1) l2 = Done (final (l1 ++ l2)).
Proof. intros H1 H2. apply final_run in H1, H2. by rewrite (run_app_done _ _ _ _ _ _ H1) in H2. Qed.
Definition ord0 : drain := map_to_list.
(** A mint, two token accounts of it, an update through the pending route, one closed. *)
Definition life1 : list tsop :=
  [TInit (mintd 1001 50 1 1); TUpdate (tokd 77 1001 1002 5 10 1) Finalized; TUpdate (tokd 78 1001 1003 6 10 2) Confirmed;
   TSlot ord0 (SlotInfo 10 9 0) Processed; TSlot ord0 (SlotInfo 10 9 0) Finalized; TUpdate (tokd 77 1001 1002 9 11 3) Finalized;
   TUpdate (closed 78 12 4) Finalized].
Lemma life1_ok : ops_ok life1.
Proof. repeat constructor; simpl; try done; intros m; done. Qed.
Lemma life1_run : ts_run E0 X0 ts_empty life1 = Done (final life1).
Proof. apply final_run. by vm_compute. Qed.
Definition amount_of (r : res (result (option acct))) : option N :=
  match r with Done (ROk (Some b)) => match d_data b with DRaw v => sa_amount <$> unpack_account v | _ => None end | _ => None end.
Example C46_example_hyps : ts_run E0 X0 ts_empty life1 = Done (final life1) /\ ops_ok life1 /\ ts_ctr (final life1) <= 2 ^ 32 /\
  is_Some (mint_state (ts_log E0 X0 ts_empty life1).*1 1001) /\ multi_state (ts_log E0 X0 ts_empty life1).*1 77 = None /\
  length (ts_log E0 X0 ts_empty life1) = 5%nat /\ amount_of (ts_get (final life1) 77 Finalized) = Some 9 /\
  ts_get (final life1) 78 Finalized = Done (ROk None).
Proof.
  split; [apply life1_run|]. split; [apply life1_ok|]. split; [by vm_compute|]. split; [vm_compute; eauto|]. repeat split; by vm_compute.
Qed.
(** The conditions on the calls. *)
Definition mint_of (o : tsop) : option pubkey :=
  match op_acct o with Some a => match d_data a with DRaw v => sa_mint <$> unpack_account v | _ => None end | None => None end.
Lemma op_names_raw o pk : (forall a, op_acct o = Some a -> exists v, d_data a = DRaw v) -> op_names E0 o pk -> mint_of o = Some pk.
Proof.
  intros Hr (a & v & r & Ha & Hv & Hu & <-). destruct (Hr a Ha) as [v' Hd]. unfold mint_of. rewrite Ha, Hd in *. simpl in Hv. injection Hv as ->. by rewrite Hu.
Qed.
Lemma life1_raw o : o ∈ life1 -> forall a, op_acct o = Some a -> exists v, d_data a = DRaw v.
Proof. intros Ho. unfold life1 in Ho. rewrite !elem_of_cons, elem_of_nil in Ho. destruct_or! Ho; subst o; intros a [= <-]; simpl; eauto. Qed.
Definition closes_b (o : tsop) (pk : pubkey) : bool :=
  match op_acct o with
  | Some a => (d_pubkey a =? pk) && ((d_lamports a =? 0) || (negb (d_owner a =? spl_token_id) && negb (d_owner a =? spl_2022_id)))
  | None => false
  end.
Lemma op_closes_b o pk : op_closes o pk -> closes_b o pk = true.
Proof.
  intros (a & Ha & Hp & H). unfold closes_b. rewrite Ha, Hp, N.eqb_refl. simpl. destruct H as [->|[H1 H2]]; [done|].
  apply N.eqb_neq in H1, H2. rewrite H1, H2. by rewrite orb_true_r.
Qed.
Example C46_example_conditions : not_mint E0 life1 77 /\ no_collision life1 77 /\
  (forall o, o ∈ life1 -> ~ op_multi E0 o 77 /\ ~ op_closes o 1001) /\
  (forall o, o ∈ take 5 life1 -> op_about o 77 -> ~ op_pends o) /\ (forall o, o ∈ drop 6 life1 -> ~ op_about o 77).
Proof.
  split; [|split; [|split; [|split]]].
  - intros o Ho. split.
    + intros Hn. apply op_names_raw in Hn; [|by apply life1_raw]. unfold life1 in Ho. rewrite !elem_of_cons, elem_of_nil in Ho.
      destruct_or! Ho; subst o; vm_compute in Hn; done.
    + intros (a & v & Ha & Hp & Hv & [m Hm]). unfold life1 in Ho. rewrite !elem_of_cons, elem_of_nil in Ho.
      destruct_or! Ho; subst o; try done; simpl in Ha; injection Ha as <-; try (vm_compute in Hp; done); simpl in Hv; injection Hv as <-; vm_compute in Hm; done.
  - intros o Ho (a & Ha & Hp & Hf). unfold life1 in Ho. rewrite !elem_of_cons, elem_of_nil in Ho.
    destruct_or! Ho; subst o; try done; simpl in Ha; injection Ha as <-; vm_compute in Hf; try done; by apply Hp.
  - intros o Ho. split.
    + intros (a & v & Ha & Hp & Hv & [m Hm]). unfold life1 in Ho. rewrite !elem_of_cons, elem_of_nil in Ho.
      destruct_or! Ho; subst o; try done; simpl in Ha; injection Ha as <-; try (vm_compute in Hp; done); simpl in Hv; injection Hv as <-; vm_compute in Hm; done.
    + intros Hc%op_closes_b. unfold life1 in Ho. rewrite !elem_of_cons, elem_of_nil in Ho. destruct_or! Ho; subst o; vm_compute in Hc; done.
  - intros o Ho (a & Ha & Hk) Hp. unfold life1 in Ho. simpl in Ho. rewrite !elem_of_cons, elem_of_nil in Ho. destruct_or! Ho; subst o; simpl in Hp; try done.
    simpl in Ha. by injection Ha as <-.
  - intros o Ho (a & Ha & Hp). unfold life1 in Ho. simpl in Ho. rewrite !elem_of_cons, elem_of_nil in Ho. destruct_or! Ho; subst o; try done.
    simpl in Ha. injection Ha as <-. done.
Qed.

(** Findings.  A closed multisig is returned for ever: closing only looks at mints and token accounts. *)
Definition multid (pk slot wv : N) : acct := dlv pk 3361680 spl_token_id (pack_multisig spl_ms1) slot wv.
Theorem C46_closed_multisig_refuted : exists l pk b, ops_ok l /\ ts_run E0 X0 ts_empty l = Done (final l) /\
  last l = Some (TUpdate (closed pk 11 2) Finalized) /\ last (ts_log E0 X0 ts_empty l).*1 = Some (TPDeleted pk) /\
  ts_get (final l) pk Finalized = Done (ROk (Some b)).
Proof.
  exists [TUpdate (multid 300 10 1) Finalized; TUpdate (closed 300 11 2) Finalized], 300. eexists. split; [repeat constructor|].
  split; [apply final_run; by vm_compute|]. split; [done|]. split; by vm_compute.
Qed.
Print Assumptions C46_closed_multisig_refuted.
(** An update of an account that has nothing to do with the token programs but shares the first four bytes of its pubkey
    with a token account removes the token account. *)
Definition other77 : pubkey := 77 + 2 ^ 32.
Definition sysacct : acct := dlv other77 1000000 0 [] 11 2.
Definition wipe1 : list tsop := [TInit (mintd 1001 50 1 1); TUpdate (tokd 77 1001 1002 5 10 1) Finalized; TUpdate sysacct Finalized].
Theorem C46_prefix_wipe_refuted : exists l pk t, ops_ok l /\ ts_run E0 X0 ts_empty l = Done (final l) /\
  tok_state (ts_log E0 X0 ts_empty l).*1 pk = Some t /\ ta_amount t = 5 /\ (forall o, o ∈ l -> ~ op_closes o pk) /\
  ts_get (final l) pk Finalized = Done (ROk None).
Proof.
  exists wipe1, 77. eexists. split; [repeat constructor|]. split; [apply final_run; by vm_compute|]. split; [by vm_compute|]. split; [done|]. split; [|by vm_compute].
  intros o Ho Hc%op_closes_b. unfold wipe1 in Ho. rewrite !elem_of_cons, elem_of_nil in Ho. destruct_or! Ho; subst o; vm_compute in Hc; done.
Qed.
Print Assumptions C46_prefix_wipe_refuted.
(** A key known as a mint only because a token account names it hides what is stored for that key, and the read panics. *)
Definition named1 : list tsop := [TInit (mintd 1001 50 1 1); TUpdate (tokd 77 1001 1002 5 10 1) Finalized; TUpdate (tokd 78 77 1002 5 10 1) Finalized].
Theorem C46_named_hides_refuted : exists l pk t, ops_ok l /\ ts_run E0 X0 ts_empty l = Done (final l) /\
  tok_state (ts_log E0 X0 ts_empty l).*1 pk = Some t /\ no_collision l pk /\ ts_get (final l) pk Finalized = Panic.
Proof.
  exists named1, 77. eexists. split; [repeat constructor|]. split; [apply final_run; by vm_compute|]. split; [by vm_compute|]. split; [|by vm_compute].
  intros o Ho (a & Ha & Hp & Hf). unfold named1 in Ho. rewrite !elem_of_cons, elem_of_nil in Ho.
  destruct_or! Ho; subst o; try done; simpl in Ha; injection Ha as <-; vm_compute in Hf; try done; by apply Hp.
Qed.
Print Assumptions C46_named_hides_refuted.

(** ** C42, the whole store.  In every reachable state distinct mints have distinct indices; an index is kept as long as its mint
    is not closed. *)
Theorem C42_store_unique E X l ts p q i : ts_run E X ts_empty l = Done ts -> ops_ok l -> ts_ctr ts <= 2 ^ 32 ->
  ts_mint_ix ts !! p = Some i -> ts_mint_ix ts !! q = Some i -> p = q.
Proof. intros H Hok Hc. destruct (ti_ix _ (run_inv _ _ _ _ _ H Hok tinv_empty Hc)) as [Hinj _]. apply Hinj. Qed.
Print Assumptions C42_store_unique.
Theorem C42_store_stable_partial E X l1 l2 ts1 ts2 p i : ts_run E X ts_empty l1 = Done ts1 -> ts_run E X ts1 l2 = Done ts2 ->
  ops_ok (l1 ++ l2) -> ts_ctr ts2 <= 2 ^ 32 -> (forall o, o ∈ l1 ++ l2 -> ~ op_closes o p) ->
  ts_mint_ix ts1 !! p = Some i -> ts_mint_ix ts2 !! p = Some i.
Proof.
  intros H1 H2 Hok Hc Hn Hp. assert (ts_run E X ts_empty (l1 ++ l2) = Done ts2) as H by (by rewrite (run_app_done _ _ _ _ _ _ H1)).
  pose proof Hok as Hok'. apply Forall_app in Hok as [Hok1 Hok2]. pose proof (run_ctr _ _ _ _ _ H2 Hok2).
  apply (run_ix_keep E X l2 ts1 ts2); try done. { apply (run_inv _ _ _ _ _ H1); [done|apply tinv_empty|lia]. }
  intros x Hx ->. destruct (log_origin _ _ _ _ H Hok' Hc (TPDeleted p)) as (o & Ho & Hcf).
  - rewrite (log_app _ _ _ _ _ _ H1), fmap_app. apply elem_of_app. by right.
  - apply comes_closes in Hcf. by apply (Hn o Ho).
Qed.
Print Assumptions C42_store_stable_partial.
Example C42_example_store : ts_run E0 X0 ts_empty (take 3 life1) = Done (final (take 3 life1)) /\
  ts_run E0 X0 (final (take 3 life1)) (drop 3 life1) = Done (final life1) /\ (forall o, o ∈ take 3 life1 ++ drop 3 life1 -> ~ op_closes o 1001) /\
  ts_mint_ix (final (take 3 life1)) !! 1001 = Some 0.
Proof.
  split; [apply final_run; by vm_compute|]. split; [rewrite <- (take_drop 3 life1) at 3; apply final_app; by vm_compute|]. split; [|by vm_compute]. intros o Ho Hc%op_closes_b. rewrite take_drop in Ho. unfold life1 in Ho.
  rewrite !elem_of_cons, elem_of_nil in Ho. destruct_or! Ho; subst o; vm_compute in Hc; done.
Qed.
(** A mint that is closed and created again gets another index; its token accounts keep the old one. *)
Definition remint : list tsop := [TInit (mintd 1001 50 1 1); TUpdate (tokd 77 1001 1002 5 10 1) Finalized; TUpdate (closed 1001 11 2) Finalized; TUpdate (mintd 1001 0 12 3) Finalized].
Theorem C42_reindexed_refuted : exists l1 l2 p i j, ops_ok (l1 ++ l2) /\ ts_run E0 X0 ts_empty (l1 ++ l2) = Done (final (l1 ++ l2)) /\
  ts_mint_ix (final l1) !! p = Some i /\ ts_mint_ix (final (l1 ++ l2)) !! p = Some j /\ i <> j.
Proof. exists (take 2 remint), (drop 2 remint), 1001, 0, 1. split; [repeat constructor|]. split; [apply final_run; by vm_compute|]. split; [by vm_compute|]. split; by vm_compute. Qed.
Print Assumptions C42_reindexed_refuted.
