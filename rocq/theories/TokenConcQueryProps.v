(** Queries of the token store after concurrent calls (C82). *)
From Verif Require Import Base SMap DataModel BincodeModel BincodeProofs FilterModel FilterProofs StoreModel TokenModel TokenProofs TokenProps SplModel SplProofs TokenUtilsModel
  TokenUtilsProofs TokenPendModel TokenPendSpec TokenPendProofs TokenPendProps TokenUtilsProps TokenStoreModel TokenStoreSpec TokenStoreProofs TokenStoreViews TokenStoreProps TokenStoreOrder
  TokenStoreQuery TokenStoreQueryProps TokenStoreSafe TokenConcModel TokenConcSpec TokenConcProofs TokenConcSolo TokenConcProps TokenConcIndex.
#[local] Arguments le : simpl never.
#[local] Arguments unle : simpl never.
#[local] Opaque to_bytes from_bytes peek_pubkey.

Lemma runs_query E X ts p fl c r ts' : runs E X ts (XGpa p fl c) (Done (ts', OGpa r)) -> ts_gpa E ts p fl c = Done r.
Proof. intros H. apply C81_query in H. destruct (ts_gpa E ts p fl c) as [r'|]; [|done]. cbn [mbind res_bind] in H. by injection H as -> ->. Qed.
Lemma runs_read E X ts pk b : runs E X ts (XGet pk Finalized) (Done (ts, OGet (Some b))) <-> ts_get ts pk Finalized = Done (ROk (Some b)).
Proof.
  rewrite C81_get. destruct (ts_get ts pk Finalized) as [[[a|]|e]|]; cbn [mbind res_bind]; split; intros H; try done.
  - by injection H as ->.
  - by injection H as ->.
Qed.

(** ** C82: queries after concurrent calls are complete *)
(** However the calls that delivered accounts were interleaved: once no writing call is under way, a query by owner (and mint) returns exactly
    the token accounts that a finalized read returns with this owner (and mint) in their data, each once. *)
Theorem C82_owner E X L cs p fl o mo r ts' : calm_world E L -> tidy E L -> keeps_owner E L -> treach E X (calm_call E L) tc_empty cs -> quiet cs ->
  token_query p fl -> pins fl 32 (Some o) -> pins fl 0 mo -> runs E X (tc_ts cs) (XGpa p (Some fl) Finalized) (Done (ts', OGpa (ROk r))) ->
  NoDup (d_pubkey <$> r) /\
  forall b, b ∈ r <-> exists pk v, token_key E L pk /\ runs E X (tc_ts cs) (XGet pk Finalized) (Done (tc_ts cs, OGet (Some b))) /\ d_data b = DRaw v /\
    take 32 (drop 32 v) = le 32 o /\ forall m, mo = Some m -> take 32 v = le 32 m.
Proof.
  intros HW Htd Hko Hre HQt Hf1 Hf2 Hf3 Hq. apply runs_query in Hq. pose proof (token_query_filter _ _ _ _ Hf1 Hf2 Hf3) as Hf.
  pose proof (reach_cfg E X L HW Htd _ _ Hre (cfg_empty E L)) as HC. pose proof (cf_inv _ _ _ HC) as [Hg _]. pose proof (gi_t _ _ _ Hg) as Hi.
  destruct (quiet_qinv E L cs HC HQt Hko) as [M HQ].
  destruct (gpa_owner_spec E M (tc_ts cs) p fl o mo r Hi Hq Hf) as (mi & Hmi & Hs & Hc'). destruct (Hc' HQ) as [Hcomp Hnd]. split; [done|].
  destruct (om_bounds _ _ _ _ Hf) as [Hbo Hbm]. specialize (Hbo o eq_refl).
  assert (forall i t b, stored (ts_table (tc_ts cs)) i t -> token_to_acct t (ts_fin (tc_ts cs)) 0 (ts_mints (tc_ts cs)) = Done (Some b) ->
    exists v, d_data b = DRaw v /\ (keep_token o mi t = true <-> take 32 (drop 32 v) = le 32 o /\ forall m, mo = Some m -> take 32 v = le 32 m)) as Hkeep.
  { intros i t b Hst Ht. pose proof Ht as Ht'. apply token_to_acct_some in Ht' as (Hd & _). destruct (ti_tokens _ Hi _ _ Hst Hd) as [_ Hx].
    destruct (token_bytes _ _ _ _ _ Hx Ht) as (m & v & Hm & Hv & Hl & Hb1 & Hb2). exists v. split; [done|].
    assert (ta_owner t =? o = true <-> take 32 (drop 32 v) = le 32 o) as Ho.
    { rewrite Hb2, N.eqb_eq. split; [by intros ->|]. apply le32_inj; [|done]. destruct Hst as [[Hgd _] _]. unfold ta_ok in Hgd. tauto. }
    unfold keep_token. destruct mo as [m0|].
    - destruct Hmi as (j & Hj & ->). rewrite andb_true_iff, N.eqb_eq, Ho. split.
      + intros [Hk1 Hk2]. subst j. split; [done|]. intros m1 [= <-]. rewrite Hb1. f_equal. apply (ti_mints _ Hi) in Hm. destruct (ti_ix _ Hi) as [Hinj _]. by eapply Hinj.
      + intros [Hk1 Hk2]. split; [|done]. assert (ma_pubkey m = m0) as <-. { apply le32_inj; [by eapply mint_bound|by apply Hbm|]. rewrite <- Hb1. by apply Hk2. }
        apply (ti_mints _ Hi) in Hm. congruence.
    - subst mi. rewrite Ho. naive_solver. }
  intros b. split.
  - intros Hb. destruct (Hs b Hb) as (i & t & Hst & Hk & Ht). destruct (Hkeep i t b Hst Ht) as (v & Hv & Hiff). apply Hiff in Hk as [Ho Hm].
    pose proof Ht as Ht'. apply token_to_acct_some in Ht' as (Hd & _). pose proof (qi_live _ _ HQ _ _ Hst Hd) as Ha.
    assert (token_key E L (ta_pubkey t)) as Hkey by (by eapply (live_key E L cs HC)). exists (ta_pubkey t), v. split; [done|]. split; [|done]. apply runs_read, (key_read E L Htd cs HC); eauto.
  - intros (pk & v & Hkey & Hrd & Hv & Ho & Hm). apply runs_read, (key_read E L Htd cs HC) in Hrd as (i & t & Ha & Ht); [|done].
    apply (Hcomp pk i t); [done| |done]. destruct (Hkeep i t b (proj1 Ha) Ht) as (v' & Hv' & Hiff). apply Hiff. assert (v' = v) as -> by congruence. done.
Qed.
Print Assumptions C82_owner.
(** The same by mint alone. *)
Theorem C82_mint E X L cs p fl m r ts' : calm_world E L -> tidy E L -> keeps_mint E L -> treach E X (calm_call E L) tc_empty cs -> quiet cs ->
  token_query p fl -> pins fl 32 None -> pins fl 0 (Some m) -> runs E X (tc_ts cs) (XGpa p (Some fl) Finalized) (Done (ts', OGpa (ROk r))) ->
  NoDup (d_pubkey <$> r) /\
  forall b, b ∈ r <-> exists pk v, token_key E L pk /\ runs E X (tc_ts cs) (XGet pk Finalized) (Done (tc_ts cs, OGet (Some b))) /\ d_data b = DRaw v /\ take 32 v = le 32 m.
Proof.
  intros HW Htd Hkm Hre HQt Hf1 Hf2 Hf3 Hq. apply runs_query in Hq. pose proof (token_query_filter _ _ _ _ Hf1 Hf2 Hf3) as Hf.
  pose proof (reach_cfg E X L HW Htd _ _ Hre (cfg_empty E L)) as HC. pose proof (cf_inv _ _ _ HC) as [Hg _]. pose proof (gi_t _ _ _ Hg) as Hi.
  destruct (om_bounds _ _ _ _ Hf) as [_ Hbm]. specialize (Hbm m eq_refl).
  unfold ts_gpa in Hq. destruct (_ && _); [done|]. unfold gpa_fin in Hq. rewrite Hf in Hq. set (ts := tc_ts cs) in *.
  assert (forall i t b, stored (ts_table ts) i t -> token_to_acct t (ts_fin ts) 0 (ts_mints ts) = Done (Some b) ->
    exists v, d_data b = DRaw v /\ (take 32 v = le 32 m <-> ts_mint_ix ts !! m = Some (ta_mint t))) as Hbytes.
  { intros i t b Hst Ht. pose proof Ht as Ht'. apply token_to_acct_some in Ht' as (Hd & _). destruct (ti_tokens _ Hi _ _ Hst Hd) as [_ Hx].
    destruct (token_bytes _ _ _ _ _ Hx Ht) as (mm & v & Hmm & Hv & Hl & Hb1 & Hb2). exists v. split; [done|]. pose proof (ti_mints _ Hi _ _ Hmm) as Hix. split.
    - intros Hb. assert (ma_pubkey mm = m) as <-; [|done]. apply le32_inj; [by eapply (mint_bound E L HW cs HC)|done|congruence].
    - intros Hm'. rewrite Hb1. f_equal. destruct (ti_ix _ Hi) as [Hinj _]. by eapply Hinj. }
  assert (forall b, (exists pk v, token_key E L pk /\ runs E X ts (XGet pk Finalized) (Done (ts, OGet (Some b))) /\ d_data b = DRaw v /\ take 32 v = le 32 m) <->
    exists i t, live ts i t /\ token_to_acct t (ts_fin ts) 0 (ts_mints ts) = Done (Some b) /\ ts_mint_ix ts !! m = Some (ta_mint t)) as Hread.
  { intros b. split.
    - intros (pk & v & Hkey & Hrd & Hv & Hm). apply runs_read, (key_read E L Htd cs HC) in Hrd as (i & t & Ha & Ht); [|done]. exists i, t. split; [split; [apply Ha|by eapply (ti_live _ Hi)]|]. split; [done|].
      destruct (Hbytes i t b (proj1 Ha) Ht) as (v' & Hv' & Hiff). apply Hiff. assert (v' = v) as -> by congruence. done.
    - intros (i & t & Hl & Ht & Hm). destruct (Hbytes i t b (proj1 Hl) Ht) as (v & Hv & Hiff). assert (token_key E L (ta_pubkey t)) as Hkey by (by eapply (live_key E L cs HC)).
      exists (ta_pubkey t), v. split; [done|]. split; [apply runs_read, (key_read E L Htd cs HC); [done|]|split; [done|by apply Hiff]]. exists i, t. split; [|done]. by apply (quiet_at E L cs HC HQt). }
  destruct (ts_mint_ix ts !! m) as [i|] eqn:Hix.
  2:{ injection Hq as <-. split; [constructor|]. intros b. rewrite Hread. split; [intros Hb; by apply elem_of_nil in Hb|]. by intros (? & ? & _ & _ & ?). }
  destruct (ts_by_mint ts !! i) as [ixs|] eqn:Hbm'.
  2:{ injection Hq as <-. split; [constructor|]. intros b. rewrite Hread. split; [intros Hb; by apply elem_of_nil in Hb|]. intros (j & t & Hl & _ & [= ->]).
      pose proof (quiet_mint E L cs HC HQt j t Hkm Hl) as Hin. fold ts in Hin. rewrite Hbm' in Hin. by apply elem_of_nil in Hin. }
  destruct (tb_by_index _ _) as [lt|] eqn:Hl; [|done]. cbn [mbind res_bind] in Hq. destruct (tokens_to_accts ts lt) as [r0|] eqn:Hr; [|done]. cbn [mbind res_bind] in Hq. injection Hq as <-.
  destruct (index_answer _ _ _ _ Hi (fun i t Hs Hd => quiet_at E L cs HC HQt i t (conj Hs Hd)) Hl Hr) as [Hnd Hel]. split; [done|]. intros b. rewrite Hel, Hread. split.
  - intros (j & t & Hj & Hs & Ht). apply elem_of_list_to_set in Hj. pose proof Ht as Ht'. apply token_to_acct_some in Ht' as (Hd & _). exists j, t. split; [done|]. split; [done|].
    f_equal. symmetry. eapply (cf_only _ _ _ HC Hkm j); [done|]. fold ts. by rewrite Hbm'.
  - intros (j & t & Hlv & Ht & [= ->]). exists j, t. split; [|split; [apply Hlv|done]]. apply elem_of_list_to_set.
    pose proof (quiet_mint E L cs HC HQt j t Hkm Hlv) as Hin. fold ts in Hin. by rewrite Hbm' in Hin.
Qed.
Print Assumptions C82_mint.
(** The calls of [crowd] overlap and all of them return. *)
Definition crowd_end : list tact := crowd_play ++ [fin 1; fin 2; fin 3; fin 4; fin 5; fin 6; fin 7; fin 8; fin 9; fin 10; fin 11].
Definition quiet_b (cs : tconc) : bool := forallb (fun t => negb (writing t)) (tc_thr cs).
Lemma quiet_check cs : quiet_b cs = true -> quiet cs.
Proof. intros H. apply Forall_forall. intros t Ht. unfold quiet_b in H. rewrite forallb_forall in H. apply negb_true_iff, H, elem_of_list_In, Ht. Qed.
Example C82_example_hyps : calm_world E0 crowd /\ tidy E0 crowd /\ keeps_owner E0 crowd /\ keeps_mint E0 crowd /\
  treach E0 X0 (calm_call E0 crowd) tc_empty (played false crowd crowd_end) /\ quiet (played false crowd crowd_end) /\
  (token_query spl_token_id (by_owner 1002) /\ pins (by_owner 1002) 32 (Some 1002) /\ pins (by_owner 1002) 0 None) /\
  (token_query spl_token_id (by_mint 1001) /\ pins (by_mint 1001) 32 None /\ pins (by_mint 1001) 0 (Some 1001)) /\
  keys (ts_gpa E0 (tc_ts (played false crowd crowd_end)) spl_token_id (Some (by_owner 1002)) Finalized) = Some [77] /\
  keys (ts_gpa E0 (tc_ts (played false crowd crowd_end)) spl_token_id (Some (by_mint 1001)) Finalized) = Some [77; 78].
Proof.
  split; [apply crowd_world|]. split; [apply tidy_check; [done|by vm_compute]|]. split; [refine (keeps_check _ crowd_raw sa_owner _); by vm_compute|].
  split; [refine (keeps_check _ crowd_raw sa_mint _); by vm_compute|]. split; [apply played_calm; [done|by vm_compute]|]. split; [apply quiet_check; by vm_compute|].
  split; [by apply asks_owner|]. split; [by apply asks_mint|]. split; by vm_compute.
Qed.
