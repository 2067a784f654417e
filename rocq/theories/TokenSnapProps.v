(** Snapshots of the token program store (C51). *)
From Verif Require Import Base SMap DataModel BincodeModel BincodeProofs FilterModel StoreModel TokenModel TokenProofs SplModel SplProofs TokenUtilsModel
  TokenUtilsProofs TokenPendModel TokenPendSpec TokenPendProofs TokenPendProps TokenUtilsProps TokenStoreModel TokenStoreSpec TokenStoreProofs TokenStoreViews TokenStoreQuery
  TokenStoreProps TokenStoreSafe TokenStoreQueryProps Lz4Model TokenSnapSpec TokenSnapProofs TokenSnapLoad TokenSnapReads.
#[local] Arguments le : simpl never.
#[local] Arguments unle : simpl never.
#[local] Opaque to_bytes from_bytes peek_pubkey.

Lemma program_pk_inj p p' : program_pk p = program_pk p' -> p = p'.
Proof. destruct p, p'; (done || (intros H; by vm_compute in H)). Qed.
Lemma snap_program_pk p : snap_program (program_pk p) = Some p.
Proof. by destruct p; vm_compute. Qed.

Lemma tokens_unix ti l : tokens_to_accts (unix ti) l = tokens_to_accts ti l.
Proof. induction l as [|t l IH]; [done|]. cbn [tokens_to_accts]. by rewrite IH. Qed.

(** What the history of a store says about its tables. *)
Section store.
Context (E : ext) (X : lz4x) (l : list tsop) (ts : tstore).
Context (Hrun : ts_run E X ts_empty l = Done ts) (Hok : ops_ok l) (Hc : ts_ctr ts <= 2 ^ 32) (Htd : tidy E l).
Lemma pos_key pk i t : at_pos (ts_table ts) pk i t -> token_key E l pk.
Proof. intros Ha. eapply table_key; [done..|by eapply (run_live _ _ _ _ Hrun Hok Hc Htd)|done]. Qed.
Lemma key_multi pk : token_key E l pk -> ts_multi ts !! pk = None.
Proof.
  intros (o & r & Ho & Hop). destruct (run_agrees _ _ _ _ Hrun Hok Hc) as [-> _]. apply multi_state_none. intros m Hm.
  destruct (log_origin _ _ _ _ Hrun Hok Hc _ Hm) as (o' & Ho' & Hcf'). apply comes_multi in Hcf'. by destruct (Htd _ _ _ Ho Hop o' Ho') as (_ & _ & ? & _).
Qed.
Lemma key_read pk o : token_key E l pk -> ts_get ts pk Finalized = Done (ROk o) ->
  (o = None /\ forall i t, ~ at_pos (ts_table ts) pk i t) \/
  exists i t a, o = Some a /\ at_pos (ts_table ts) pk i t /\ token_to_acct t (ts_fin ts) 0 (ts_mints ts) = Done (Some a).
Proof.
  intros Hk Hg. pose proof (run_inv _ _ _ _ _ Hrun Hok tinv_empty Hc) as Hi. pose proof (key_multi pk Hk) as Hmu.
  destruct Hk as (o1 & r & Ho1 & Hop).
  assert (not_mint E l pk) as Hnm by (intros o' Ho'; destruct (Htd _ _ _ Ho1 Hop o' Ho') as (? & ? & _); done).
  assert (no_collision l pk) as Hnc by (intros o' Ho'; by destruct (Htd _ _ _ Ho1 Hop o' Ho') as (_ & _ & _ & ?)).
  destruct (run_agrees _ _ _ _ Hrun Hok Hc) as [Hag _]. rewrite Hag in Hmu.
  rewrite (C46_token_partial _ _ _ _ _ Hrun Hok Hc Hnm Hnc Hmu) in Hg. destruct (run_holds _ _ _ _ _ Hrun Hok Hc Hnm Hnc) as [_ Hh].
  destruct (tok_state _ pk) as [t|].
  - right. destruct (proj1 (Hh t) eq_refl) as [i Ha]. destruct (token_to_acct _ _ _ _) as [[a|]|] eqn:Hx; [| |done].
    + cbn [mbind res_bind] in Hg. injection Hg as <-. eauto 10.
    + apply token_to_acct_none in Hx. by rewrite (ti_live _ Hi _ _ _ Ha) in Hx.
  - left. injection Hg as <-. split; [done|]. intros i t Ha. pose proof (proj2 (Hh t) (ex_intro _ i Ha)). done.
Qed.
Lemma known_mint : mints_known E X l ts -> forall pk i t, at_pos (ts_table ts) pk i t -> exists m, ts_mints ts !! ta_mint t = Some m /\ ma_program m = ta_program t.
Proof.
  intros Hmk pk i t Ha. pose proof (run_inv _ _ _ _ _ Hrun Hok tinv_empty Hc) as Hi. destruct (Hmk pk (pos_key _ _ _ Ha)) as (o & Hg & Hm).
  destruct (key_read pk o (pos_key _ _ _ Ha) Hg) as [[_ Hn]|(i' & t' & a & -> & Ha' & Ht)]; [by destruct (Hn i t)|].
  destruct (at_pos_fun _ _ _ _ _ _ (ti_table _ Hi) Ha Ha') as [-> ->]. destruct (ti_tokens _ Hi i' t' (proj1 Ha) (ti_live _ Hi _ _ _ Ha)) as [_ Hx].
  destruct (token_bytes _ _ _ _ _ Hx Ht) as (m & v & Hmm & Hv & _ & Hb & _). destruct (Hm a v (ma_pubkey m) eq_refl Hv (mint_key_ok _ _ _ _ Hrun Hok Hc _ _ Hmm) Hb) as (m' & Hs & Hp).
  destruct (run_agrees _ _ _ _ Hrun Hok Hc) as [_ Hag]. apply Hag in Hs as (j & Hj & Hm'). rewrite (ti_mints _ Hi _ _ Hmm) in Hj. injection Hj as <-.
  exists m. split; [done|]. rewrite Hmm in Hm'. injection Hm' as <-. apply program_pk_inj. rewrite Hp. by apply token_to_acct_some in Ht as (_ & _ & ? & _ & -> & _).
Qed.
Lemma multi_key pk m : ts_multi ts !! pk = Some m -> mu_pubkey m = pk.
Proof.
  destruct (run_agrees _ _ _ _ Hrun Hok Hc) as [-> _]. intros H. apply multi_in_log in H. destruct (log_origin _ _ _ _ Hrun Hok Hc _ H) as (o & _ & Hcf). by apply comes_multi_key in Hcf.
Qed.
Lemma reload_as p c n : mints_known E X l ts -> store_fits ts -> lawful X -> ts_snapshot X ts (program_pk p) = Done (ROk c) -> is_Some (lx_unblock X n c) -> n <= 0x7E000000 ->
  exists s, snap_content ts p = Done s /\ forall b q, ts_load X b q (le 4 n ++ c) = b' ← load_content b s; Done (b', ROk tt).
Proof.
  intros Hmk Hfit HX Hs [d Hd] Hn.
  destruct (load_own p ts (run_inv _ _ _ _ _ Hrun Hok tinv_empty Hc) Hc (proj2 (run_live _ _ _ _ Hrun Hok Hc Htd)) (known_mint Hmk) multi_key) as (s & ti & Hsn & _ & _ & Hsf).
  specialize (Hsf Hfit). unfold ts_snapshot in Hs. rewrite snap_program_pk, Hsn in Hs. cbn [mbind res_bind] in Hs. destruct (lx_block X (e_snap s)) as [b|] eqn:Hb; [|done]. injection Hs as ->.
  exists s. split; [done|]. intros b q. unfold ts_load, lz4_decompress. rewrite app_length, le_length. cbn [Nat.add Nat.ltb Nat.leb].
  rewrite take_app_alt, drop_app_alt by (by rewrite le_length). rewrite unle_le_small by (change (256 ^ N.of_nat 4) with (2 ^ 32); lia).
  destruct (N.ltb_spec 0x7E000000 n); [lia|]. rewrite Hd. destruct (HX _ _ n Hb) as [_ HX2]. rewrite (HX2 _ Hd).
  pose proof (snap_codec s [] Hsf) as Hdec. rewrite app_nil_r in Hdec. by rewrite Hdec.
Qed.
Lemma reload p c n q : mints_known E X l ts -> store_fits ts -> lawful X -> ts_snapshot X ts (program_pk p) = Done (ROk c) -> is_Some (lx_unblock X n c) -> n <= 0x7E000000 ->
  exists ti, ts_load X ts_empty q (le 4 n ++ c) = Done (unix ti, ROk tt) /\ loaded p ts ti.
Proof.
  intros Hmk Hfit HX Hs Hd Hn. destruct (reload_as p c n Hmk Hfit HX Hs Hd Hn) as (s & Hsn & Hl).
  destruct (load_own p ts (run_inv _ _ _ _ _ Hrun Hok tinv_empty Hc) Hc (proj2 (run_live _ _ _ _ Hrun Hok Hc Htd)) (known_mint Hmk) multi_key) as (s' & ti & Hsn' & Hld & Hlo & _).
  rewrite Hsn in Hsn'. injection Hsn' as <-. exists ti. by rewrite Hl, Hld.
Qed.
End store.

(** ** C51.  A snapshot of one of the two programs, loaded into an empty store with the size prefix the loader expects, answers finalized
    reads: token accounts of that program and multisigs like the original, with slot 0; token accounts of the other program, and mints, are
    missing.  Histories as in C49; every token account's mint must be known. *)
Theorem C51_reads_partial E X l ts p c n q : ts_run E X ts_empty l = Done ts -> ops_ok l -> ts_ctr ts <= 2 ^ 32 -> tidy E l -> mints_known E X l ts -> store_fits ts ->
  lawful X -> ts_snapshot X ts (program_pk p) = Done (ROk c) -> is_Some (lx_unblock X n c) -> n <= 0x7E000000 ->
  exists ts', ts_load X ts_empty q (le 4 n ++ c) = Done (ts', ROk tt) /\
    (forall pk o, token_key E l pk -> ts_get ts pk Finalized = Done (ROk o) -> ts_get ts' pk Finalized = Done (ROk (slot0 <$> of_owner (program_pk p) o))) /\
    (forall pk m, multi_state (ts_log E X ts_empty l).*1 pk = Some m ->
       exists a, ts_get ts pk Finalized = Done (ROk (Some a)) /\ ts_get ts' pk Finalized = Done (ROk (Some (slot0 a)))) /\
    (forall pk, ~ token_key E l pk -> multi_state (ts_log E X ts_empty l).*1 pk = None -> ts_get ts' pk Finalized = Done (ROk None)).
Proof.
  intros H Hok Hc Htd Hmk Hfit HX Hs Hd Hn. destruct (reload E X l ts H Hok Hc Htd p c n q Hmk Hfit HX Hs Hd Hn) as (ti & Hl & Hld).
  pose proof (run_inv _ _ _ _ _ H Hok tinv_empty Hc) as Hi. exists (unix ti). split; [done|]. split; [|split].
  - intros pk o Hk Hg. pose proof (key_multi _ _ _ _ H Hok Hc Htd pk Hk) as Hmu.
    destruct (key_read _ _ _ _ H Hok Hc Htd pk o Hk Hg) as [[-> Hno]|(i & t & a & -> & Ha & Ht)].
    + rewrite (loaded_other p ts ti Hld pk Hmu); [done|]. intros i t Ha. by destruct (Hno i t).
    + pose proof Ht as Ho. apply token_to_acct_some in Ho as (_ & _ & ? & _ & Ho & _). unfold of_owner. rewrite Ho. destruct (N.eqb_spec (program_pk (ta_program t)) (program_pk p)) as [He|He].
      * apply program_pk_inj in He. rewrite (loaded_token p ts ti Hi Hld pk i t Ha Hmu He), Ht. done.
      * rewrite (loaded_other p ts ti Hld pk Hmu); [done|]. intros i' t' Ha'. destruct (at_pos_fun _ _ _ _ _ _ (ti_table _ Hi) Ha Ha') as [<- <-]. congruence.
  - intros pk m Hm. destruct (C46_multisig _ _ _ _ _ _ H Hok Hc Hm) as (a & _ & Hg). exists a. split; [done|].
    destruct (run_agrees _ _ _ _ H Hok Hc) as [Hag _]. rewrite <- Hag in Hm. by rewrite (loaded_multi p ts ti Hld pk m Hm), Hg.
  - intros pk Hk Hm. destruct (run_agrees _ _ _ _ H Hok Hc) as [Hag _]. rewrite <- Hag in Hm. apply (loaded_other p ts ti Hld pk Hm).
    intros i t Ha. destruct Hk. by eapply pos_key.
Qed.
Print Assumptions C51_reads_partial.

(** Queries by owner alone: the original's answers owned by that program, with slot 0. *)
Theorem C51_owner_query_partial E X l ts p c n q q' cs o r : ts_run E X ts_empty l = Done ts -> ops_ok l -> ts_ctr ts <= 2 ^ 32 -> tidy E l -> keeps_owner E l ->
  mints_known E X l ts -> store_fits ts -> lawful X -> ts_snapshot X ts (program_pk p) = Done (ROk c) -> is_Some (lx_unblock X n c) -> n <= 0x7E000000 ->
  token_query q' cs -> pins cs 32 (Some o) -> pins cs 0 None -> ts_gpa E ts q' (Some cs) Finalized = Done (ROk r) ->
  exists ts' r', ts_load X ts_empty q (le 4 n ++ c) = Done (ts', ROk tt) /\ ts_gpa E ts' q' (Some cs) Finalized = Done (ROk r') /\
    NoDup (d_pubkey <$> r') /\ forall b, b ∈ r' <-> exists a, a ∈ r /\ d_owner a = program_pk p /\ b = slot0 a.
Proof.
  intros H Hok Hc Htd Hko Hmk Hfit HX Hs Hd Hn Hf1 Hf2 Hf3 Hq. destruct (reload E X l ts H Hok Hc Htd p c n q Hmk Hfit HX Hs Hd Hn) as (ti & Hl & Hld).
  pose proof (run_inv _ _ _ _ _ H Hok tinv_empty Hc) as Hi. pose proof (ld_inv _ _ _ Hld) as Hi'. destruct (ld_q _ _ _ Hld) as [L' HQ'].
  pose proof (run_qinv _ _ _ _ H Hok Hc (log_owner_stable _ _ _ _ H Hok Hc Hko) (log_isolated _ _ _ _ H Hok Hc Htd)) as HQ.
  pose proof (token_query_filter _ _ _ _ Hf1 Hf2 Hf3) as Hf.
  assert (forall i t, stored (ts_table ti) i t -> ta_deleted t = false -> is_Some (ts_mints ti !! ta_mint t)) as Hkm.
  { intros i t Hst Hdl. destruct (ld_from _ _ _ Hld _ _ _ (qi_live _ _ HQ' _ _ Hst Hdl)) as (i0 & t0 & j & Ha & Hp & -> & Hm). simpl. rewrite Hm.
    destruct (known_mint _ _ _ _ H Hok Hc Htd Hmk _ _ _ Ha) as (m & -> & _). eauto. }
  assert (exists r', ts_gpa E ti q' (Some cs) Finalized = Done (ROk r')) as [r' Hr'].
  { unfold ts_gpa in Hq |- *. destruct (negb (q' =? spl_token_id) && negb (q' =? spl_2022_id)); [done|]. unfold gpa_fin. rewrite Hf. cbn [mbind res_bind]. destruct (ts_by_owner ti !! prefix4 o) as [ixs|]; [|eauto].
    unfold tb_by_index. destruct (from_all_spec (ts_table ti) (elements (list_to_set ixs : gset nat)) (ti_table _ Hi') (NoDup_elements _)) as (js & k & Hk & _ & _ & Hf2' & _).
    rewrite Hk. cbn [mbind res_bind]. destruct (tokens_done ti (filter (fun t => keep_token o None t = true) k)) as [x Hx].
    - intros t Ht Hdl. apply elem_of_list_filter in Ht as [_ Ht]. apply elem_of_list_lookup in Ht as [m Hm]. destruct (Forall2_lookup_r _ _ _ _ _ Hf2' Hm) as (i & _ & Hst). by eapply Hkm.
    - rewrite Hx. cbn [mbind res_bind]. eauto. }
  exists (unix ti), r'. split; [done|].
  assert (ts_gpa E (unix ti) q' (Some cs) Finalized = ts_gpa E ti q' (Some cs) Finalized) as ->.
  { unfold ts_gpa. destruct (_ && _); [done|]. unfold gpa_fin. rewrite Hf. cbn [unix set_ix ts_by_owner ts_table mbind res_bind]. destruct (ts_by_owner ti !! prefix4 o); [|done].
    destruct (tb_by_index _ _); [|done]. cbn [mbind res_bind]. by rewrite tokens_unix. }
  split; [done|]. destruct (gpa_owner_spec E (ts_log E X ts_empty l).*1 ts q' cs o None r Hi Hq Hf) as (mi & -> & Hsound & Hcomp). destruct (Hcomp HQ) as [Hcomp1 _].
  destruct (gpa_owner_spec E L' ti q' cs o None r' Hi' Hr' Hf) as (mi' & -> & Hsound' & Hcomp'). destruct (Hcomp' HQ') as [Hcomp1' Hnd]. split; [done|].
  rewrite (ld_fin _ _ _ Hld) in *. intros b. split.
  - intros Hb. destruct (Hsound' b Hb) as (i & t' & Hst & Hkp & Ht). pose proof Ht as Ht1. apply token_to_acct_some in Ht1 as (Hdl & _).
    destruct (ld_from _ _ _ Hld _ _ _ (qi_live _ _ HQ' _ _ Hst Hdl)) as (i0 & t & j & Ha & Hp & -> & Hm).
    rewrite (to_acct_moved t j (ts_fin ts) (ts_mints ts) _ Hm) in Ht. destruct (token_to_acct t (ts_fin ts) 0 (ts_mints ts)) as [[a|]|] eqn:Hta; [|done|done]. injection Ht as <-.
    exists a. split; [by eapply Hcomp1|]. split; [|done]. apply token_to_acct_some in Hta as (_ & _ & ? & _ & -> & _). by rewrite Hp.
  - intros (a & Hin & Ho & ->). destruct (Hsound a Hin) as (i & t & Hst & Hkp & Ht). pose proof Ht as Ht1. apply token_to_acct_some in Ht1 as (Hdl & _ & ? & _ & Ho' & _).
    assert (ta_program t = p) as Hp by (apply program_pk_inj; congruence). pose proof (qi_live _ _ HQ _ _ Hst Hdl) as Ha. destruct (ld_to _ _ _ Hld _ _ _ Ha Hp) as (i' & j & Ha' & Hm).
    eapply (Hcomp1' _ _ _ _ Ha'); [done|]. rewrite (to_acct_moved t j (ts_fin ts) (ts_mints ts) _ Hm), Ht. done.
Qed.
Print Assumptions C51_owner_query_partial.

(** Loading the snapshot of one store into another that has not heard of any of its mints: accounts the first store has not heard of read as
    before, at every commitment. *)
Theorem C51_unrelated_partial E X la a p c n lb b q b' r pk cm : ts_run E X ts_empty la = Done a -> ops_ok la -> ts_ctr a <= 2 ^ 32 -> tidy E la -> mints_known E X la a ->
  store_fits a -> lawful X -> ts_snapshot X a (program_pk p) = Done (ROk c) -> is_Some (lx_unblock X n c) -> n <= 0x7E000000 ->
  ts_run E X ts_empty lb = Done b -> ops_ok lb -> ts_ctr b <= 2 ^ 32 -> ts_load X b q (le 4 n ++ c) = Done (b', r) -> ts_ctr b' <= 2 ^ 32 ->
  (forall o mk, o ∈ la -> op_mint E o mk -> not_mint E lb mk) ->
  ~ token_key E la pk -> (forall o, o ∈ la -> ~ op_multi E o pk) ->
  r = ROk tt /\ ts_get b' pk cm = ts_get b pk cm.
Proof.
  intros H Hok Hc Htd Hmk Hfit HX Hs Hd Hn Hb Hokb Hcb Hl Hcb' Hmint Htok Hmul.
  pose proof (run_inv _ _ _ _ _ H Hok tinv_empty Hc) as Hi. destruct (reload_as E X la a H Hok Hc Htd p c n Hmk Hfit HX Hs Hd Hn) as (s & Hsn & Hload).
  rewrite Hload in Hl. apply bind_done in Hl as (b1 & Hl & He). injection He as -> <-. split; [done|].
  destruct (run_agrees _ _ _ _ H Hok Hc) as [Hag1 Hag2]. pose proof (log_origin _ _ _ _ H Hok Hc) as Horg.
  unfold snap_content in Hsn. destruct (snapshot_spec (ts_table a) p (ti_table _ Hi)) as (lt & Ht & Hlt & _). rewrite Ht in Hsn. cbn [mbind res_bind] in Hsn. injection Hsn as <-.
  eapply load_other_reads; [|exact Hl|done|..]; cbn [sn_mints sn_multis sn_tokens].
  - by eapply run_inv; [| |apply tinv_empty|].
  - intros i m Hm. apply elem_of_list_filter in Hm as [_ Hm]. apply elem_of_map_to_list in Hm.
    assert (mint_state (ts_log E X ts_empty la).*1 (ma_pubkey m) = Some m) as Hs' by (apply Hag2; exists i; split; [by apply (ti_mints _ Hi)|done]).
    apply mint_in_log, Horg in Hs' as (o & Ho & Hcf). apply comes_mint in Hcf. eapply run_no_mint; [done..|]. by eapply Hmint.
  - intros m Hm <-. apply elem_of_list_fmap in Hm as ([k m'] & -> & Hm). apply elem_of_map_to_list in Hm. cbn [snd] in Hmul. rewrite (multi_key _ _ _ _ H Hok Hc k m' Hm) in Hmul.
    rewrite Hag1 in Hm. apply multi_in_log, Horg in Hm as (o & Ho & Hcf). apply comes_multi in Hcf. by apply (Hmul o Ho).
  - intros v t Hv Hf <-. apply elem_of_list_fmap in Hv as (t' & -> & Hin). apply Hlt in Hin as (i & Hst & _ & Hdl). pose proof Hst as [Hg _]. rewrite (good_from _ Hg) in Hf. injection Hf as ->.
    apply Htok. eapply pos_key; [done..|]. by eapply (run_live _ _ _ _ H Hok Hc Htd).
Qed.
Print Assumptions C51_unrelated_partial.

(** ** Examples *)
Definition XS : lz4x := lz4_sample.
(** [life2] with a multisig. *)
Definition life3 : list tsop := life2 ++ [TUpdate (multid 90 13 7) Finalized].
Definition snap_of (l : list tsop) : bytes := match ts_snapshot XS (final l) spl_token_id with Done (ROk c) => c | _ => [] end.
Definition made (l : list tsop) : bool := match ts_snapshot XS (final l) spl_token_id with Done (ROk _) => true | _ => false end.
Lemma snap_made l : made l = true -> ts_snapshot XS (final l) spl_token_id = Done (ROk (snap_of l)).
Proof. unfold made, snap_of. destruct (ts_snapshot _ _ _) as [[c|]|]; done. Qed.
(** The store after loading it with a size prefix. *)
Definition load_into (ts : tstore) (l : list tsop) : tstore := match ts_load XS ts spl_token_id (le 4 4096 ++ snap_of l) with Done (ts', ROk _) => ts' | _ => ts_empty end.
Definition loads (ts : tstore) (l : list tsop) : bool := match ts_load XS ts spl_token_id (le 4 4096 ++ snap_of l) with Done (_, ROk _) => true | _ => false end.
Lemma load_ok ts l : loads ts l = true -> ts_load XS ts spl_token_id (le 4 4096 ++ snap_of l) = Done (load_into ts l, ROk tt).
Proof. unfold loads, load_into. destruct (ts_load _ _ _ _) as [[? [[]|]]|]; done. Qed.
Lemma final_runs l : ops_ok l -> ran l = true -> ts_run E0 XS ts_empty l = Done (final l).
Proof. intros Hok Hr. rewrite (run_any XS X0 E0 l Hok). by apply final_run. Qed.
Definition known_b (l : list tsop) : bool :=
  forallb (fun o => match tok_of o with None => true | Some (pk, _) =>
    match ts_get (final l) pk Finalized with
    | Done (ROk None) => true
    | Done (ROk (Some a)) => match d_data a with
        | DRaw v => match mint_state (ts_log E0 X0 ts_empty l).*1 (unle (take 32 v)) with Some m => program_pk (ma_program m) =? d_owner a | None => false end
        | _ => false end
    | _ => false
    end end) l.
Lemma known_check l : forallb raw_b l = true -> ops_ok l -> known_b l = true -> mints_known E0 XS l (final l).
Proof.
  intros Hraw Hok H pk (o & r & Ho & Hop). unfold known_b in H. rewrite forallb_forall in H. specialize (H o (proj1 (elem_of_list_In _ _) Ho)).
  rewrite (op_token_b l Hraw _ _ _ Ho Hop) in H. rewrite (log_any XS X0 E0 l Hok). destruct (ts_get (final l) pk Finalized) as [[[a|]|]|] eqn:Hg; try done; eexists; (split; [done|]); [|done].
  intros a' v mk [= <-] Hv Hmk Hb. rewrite Hv, Hb in H. rewrite (unle_le_small 32) in H by done. destruct (mint_state _ mk) as [m|]; [|done]. exists m. split; [done|]. by apply N.eqb_eq.
Qed.
Definition opt_b (n : N) (o : option N) : bool := match o with Some x => x <? n | None => true end.
Definition fits_b (ts : tstore) : bool :=
  forallb (fun x => let m := x.2 : mint_account in (ma_pubkey m <? 2 ^ 256) && (ma_lamports m <? 2 ^ 64) && (ma_supply m <? 2 ^ 64) && (ma_decimals m <? 256) &&
    opt_b (2 ^ 256) (ma_authority m) && opt_b (2 ^ 256) (ma_freeze m) && match ma_extra m with Some x => lenN x <? 2 ^ 64 | None => true end) (map_to_list (ts_mints ts)) &&
  forallb (fun x => let m := x.2 : multisig in (mu_pubkey m <? 2 ^ 256) && (mu_lamports m <? 2 ^ 64) && (mu_m m <? 256) && (mu_n m <? 256) &&
    forallb (fun x => x <? 2 ^ 256) (mu_signers m) && (lenN (mu_signers m) <? 2 ^ 64)) (map_to_list (ts_multi ts)) &&
  (lenN (map_to_list (ts_multi ts)) <? 2 ^ 64) && (lenN (tb_accounts (ts_table ts)) <? 2 ^ 64).
Lemma opt_check n o : opt_b n o = true -> opt_below n o.
Proof. intros H x ->. by apply N.ltb_lt. Qed.
Lemma fits_check ts : fits_b ts = true -> store_fits ts.
Proof.
  unfold fits_b. rewrite !andb_true_iff, !N.ltb_lt. intros [[[H1 H2] H3] H4]. rewrite forallb_forall in H1, H2. split_and!; [..|done|done].
  - intros i m Hm. specialize (H1 (i, m) (proj1 (elem_of_list_In _ _) (proj2 (elem_of_map_to_list _ _ _) Hm))). cbn [snd] in H1. rewrite !andb_true_iff, !N.ltb_lt in H1.
    destruct H1 as [[[[[[? ?] ?] ?] ?] ?] Hx]. split_and!; try done; try by apply opt_check. intros x He. rewrite He in Hx. by apply N.ltb_lt.
  - intros i m Hm. specialize (H2 (i, m) (proj1 (elem_of_list_In _ _) (proj2 (elem_of_map_to_list _ _ _) Hm))). cbn [snd] in H2. rewrite !andb_true_iff, !N.ltb_lt in H2.
    destruct H2 as [[[[[? ?] ?] ?] Hx] ?]. split_and!; try done. intros x Hin. rewrite forallb_forall in Hx. apply N.ltb_lt, Hx. by apply elem_of_list_In.
Qed.
Lemma unblocks n c : match lz4_block_dec n c with Some _ => true | None => false end = true -> is_Some (lx_unblock XS n c).
Proof. change (lx_unblock XS n c) with (lz4_block_dec n c). destruct (lz4_block_dec n c); [eauto|done]. Qed.
Lemma life3_ok : ops_ok life3.
Proof. unfold life3. repeat constructor; simpl; try done; intros m; done. Qed.
Lemma life3_raw : forallb raw_b life3 = true.
Proof. done. Qed.
Example C51_example_hyps : ts_run E0 XS ts_empty life3 = Done (final life3) /\ ops_ok life3 /\ ts_ctr (final life3) <= 2 ^ 32 /\ tidy E0 life3 /\ keeps_owner E0 life3 /\
  mints_known E0 XS life3 (final life3) /\ store_fits (final life3) /\ lawful XS /\ ts_snapshot XS (final life3) (program_pk TokenP) = Done (ROk (snap_of life3)) /\
  is_Some (lx_unblock XS 4096 (snap_of life3)) /\ 4096 <= 0x7E000000 /\
  keys (ts_gpa E0 (final life3) spl_token_id (Some (by_owner 1002)) Finalized) = Some [77; 78; 80] /\
  ts_load XS ts_empty spl_token_id (le 4 4096 ++ snap_of life3) = Done (load_into ts_empty life3, ROk tt) /\
  keys (ts_gpa E0 (load_into ts_empty life3) spl_token_id (Some (by_owner 1002)) Finalized) = Some [77; 78; 80].
Proof.
  split; [apply final_runs; [apply life3_ok|by vm_compute]|]. split; [apply life3_ok|]. split; [by vm_compute|]. split; [apply tidy_check; [apply life3_raw|by vm_compute]|].
  split; [refine (keeps_check _ life3_raw sa_owner _); by vm_compute|]. split; [apply known_check; [apply life3_raw|apply life3_ok|by vm_compute]|].
  split; [apply fits_check; by vm_compute|]. split; [apply sample_lawful|]. split; [apply snap_made; by vm_compute|]. split; [apply unblocks; by vm_compute|]. split; [done|].
  split; [by vm_compute|]. split; [apply load_ok; by vm_compute|]. by vm_compute.
Qed.

(** Another store: its own mint and token account, one of them pending, none known to [life3]. *)
Definition life4 : list tsop :=
  [TInit (mintd 2001 50 1 1); TUpdate (tokd 177 2001 1002 5 10 1) Finalized; TUpdate (tokd 178 2001 1002 6 10 2) Confirmed].
Lemma life4_ok : ops_ok life4.
Proof. repeat constructor. Qed.
Definition mint_keys (l : list tsop) : list pubkey := omap (fun o => '(pk, v) ← op_bytes o; _ ← unpack_mint v; Some pk) l.
Definition strange_b (la lb : list tsop) : bool := forallb (fun mk => forallb (fun o => negb (names_b o mk) && negb (is_mint_b o mk)) lb) (mint_keys la).
Lemma strange_check la lb : forallb raw_b la = true -> forallb raw_b lb = true -> strange_b la lb = true ->
  forall o mk, o ∈ la -> op_mint E0 o mk -> not_mint E0 lb mk.
Proof.
  intros Hra Hrb H o mk Ho (a & v & Ha & <- & Hv & [m Hm]) o' Ho'. unfold strange_b in H. rewrite forallb_forall in H.
  assert (d_pubkey a ∈ mint_keys la) as Hin.
  { apply elem_of_list_omap. exists o. split; [done|]. rewrite (op_raw la Hra _ _ _ Ho Ha Hv). simpl. by rewrite Hm. }
  specialize (H _ (proj1 (elem_of_list_In _ _) Hin)). rewrite forallb_forall in H. specialize (H o' (proj1 (elem_of_list_In _ _) Ho')).
  apply andb_true_iff in H as [H1 H2]. apply negb_true_iff in H1, H2. split; intros Hx; [apply (op_names_b lb Hrb) in Hx; [congruence|done]|apply (op_mint_b lb Hrb) in Hx; [congruence|done]].
Qed.
Definition absent_b (l : list tsop) (pk : pubkey) : bool :=
  forallb (fun o => match tok_of o with Some (k, _) => negb (k =? pk) | None => true end && negb (is_multi_b o pk)) l.
Lemma absent_check l pk : forallb raw_b l = true -> absent_b l pk = true -> ~ token_key E0 l pk /\ forall o, o ∈ l -> ~ op_multi E0 o pk.
Proof.
  intros Hraw H. unfold absent_b in H. rewrite forallb_forall in H. split.
  - intros (o & r & Ho & Hop). specialize (H o (proj1 (elem_of_list_In _ _) Ho)). rewrite (op_token_b l Hraw _ _ _ Ho Hop), N.eqb_refl in H. done.
  - intros o Ho Hop. specialize (H o (proj1 (elem_of_list_In _ _) Ho)). apply andb_true_iff in H as [_ H]. rewrite (op_multi_b l Hraw _ _ Ho Hop) in H. done.
Qed.
Example C51_example_unrelated : ts_run E0 XS ts_empty life4 = Done (final life4) /\ ops_ok life4 /\ ts_ctr (final life4) <= 2 ^ 32 /\
  ts_load XS (final life4) spl_token_id (le 4 4096 ++ snap_of life3) = Done (load_into (final life4) life3, ROk tt) /\ ts_ctr (load_into (final life4) life3) <= 2 ^ 32 /\
  (forall o mk, o ∈ life3 -> op_mint E0 o mk -> not_mint E0 life4 mk) /\
  (~ token_key E0 life3 178 /\ forall o, o ∈ life3 -> ~ op_multi E0 o 178) /\
  amount_of (ts_get (final life4) 178 Processed) = Some 6 /\ amount_of (ts_get (load_into (final life4) life3) 178 Processed) = Some 6 /\
  amount_of (ts_get (final life4) 77 Finalized) = None /\ amount_of (ts_get (load_into (final life4) life3) 77 Finalized) = Some 9.
Proof.
  split; [apply final_runs; [apply life4_ok|by vm_compute]|]. split; [apply life4_ok|]. split; [by vm_compute|]. split; [apply load_ok; by vm_compute|]. split; [by vm_compute|].
  split; [apply strange_check; by vm_compute|]. split; [apply absent_check; by vm_compute|]. split_and!; by vm_compute.
Qed.

(** ** Findings *)
(** Only the two token programs have snapshots; for any other key the answer is an error and nothing is written. *)
Theorem C51_other_programs : forall X ts p, p <> spl_token_id -> p <> spl_2022_id -> ts_snapshot X ts p = Done (RErr WrongIndex).
Proof. intros X ts p H1 H2. unfold ts_snapshot, snap_program. apply N.eqb_neq in H1, H2. by rewrite H1, H2. Qed.
Print Assumptions C51_other_programs.
Example C51_other_programs_example : 7 <> spl_token_id /\ 7 <> spl_2022_id /\ ts_snapshot XS (final life3) 7 = Done (RErr WrongIndex).
Proof. split; [by vm_compute|]. split; [by vm_compute|]. apply C51_other_programs; by vm_compute. Qed.
(** The compressed block is written without the size prefix the decompressor expects: the store does not accept its own snapshots. *)
Theorem C51_refuted : exists X l c r, lawful X /\ ops_ok l /\ ts_run E0 X ts_empty l = Done (final l) /\ ts_snapshot X (final l) spl_token_id = Done (ROk c) /\
  ts_load X ts_empty spl_token_id c = Done (ts_empty, RErr r).
Proof.
  exists XS, life3, (snap_of life3), CompressionIssues. split; [apply sample_lawful|]. split; [apply life3_ok|]. split; [apply final_runs; [apply life3_ok|by vm_compute]|].
  split; [apply snap_made; by vm_compute|]. unfold ts_load. assert (lz4_decompress XS (snap_of life3) = None) as -> by (by vm_compute). done.
Qed.
Print Assumptions C51_refuted.
(** Even the empty store's. *)
Theorem C51_empty_refuted : exists X c, lawful X /\ ts_snapshot X ts_empty spl_token_id = Done (ROk c) /\ ts_load X ts_empty spl_token_id c = Done (ts_empty, RErr DeserializationIssues).
Proof. exists XS, zero_block. split; [apply sample_lawful|]. split; by vm_compute. Qed.
Print Assumptions C51_empty_refuted.
(** With the prefix added: mints cannot be read, queries by mint find nothing, queries by owner and mint panic. *)
Theorem C51_mint_refuted : exists X l n c ts', lawful X /\ ops_ok l /\ ts_run E0 X ts_empty l = Done (final l) /\ ts_snapshot X (final l) spl_token_id = Done (ROk c) /\
  ts_load X ts_empty spl_token_id (le 4 n ++ c) = Done (ts', ROk tt) /\
  (exists a, ts_get (final l) 1001 Finalized = Done (ROk (Some a))) /\ ts_get ts' 1001 Finalized = Done (ROk None) /\
  keys (ts_gpa E0 (final l) spl_token_id (Some (by_mint 1001)) Finalized) = Some [77; 80] /\ ts_gpa E0 ts' spl_token_id (Some (by_mint 1001)) Finalized = Done (ROk []) /\
  keys (ts_gpa E0 (final l) spl_token_id (Some (by_owner 1002 ++ by_mint 1001)) Finalized) = Some [77; 80] /\
  ts_gpa E0 ts' spl_token_id (Some (by_owner 1002 ++ by_mint 1001)) Finalized = Panic.
Proof.
  exists XS, life3, 4096, (snap_of life3), (load_into ts_empty life3). split; [apply sample_lawful|]. split; [apply life3_ok|]. split; [apply final_runs; [apply life3_ok|by vm_compute]|].
  split; [apply snap_made; by vm_compute|]. split; [apply load_ok; by vm_compute|]. split; [eexists; by vm_compute|]. split_and!; by vm_compute.
Qed.
Print Assumptions C51_mint_refuted.
(** A token account whose mint was not delivered: loading the snapshot panics. *)
Definition nomint : list tsop := [TUpdate (tokd 77 1001 1002 5 10 1) Finalized].
Theorem C51_unknown_mint_refuted : exists X l n c, lawful X /\ ops_ok l /\ ts_run E0 X ts_empty l = Done (final l) /\ ts_snapshot X (final l) spl_token_id = Done (ROk c) /\
  ts_load X ts_empty spl_token_id (le 4 n ++ c) = Panic.
Proof.
  assert (ops_ok nomint) as Hok by repeat constructor.
  exists XS, nomint, 4096, (snap_of nomint). split; [apply sample_lawful|]. split; [done|]. split; [apply final_runs; [done|by vm_compute]|]. split; [apply snap_made; by vm_compute|]. by vm_compute.
Qed.
Print Assumptions C51_unknown_mint_refuted.
(** A store that knows the snapshot's mint under another index: another mint of it, which the snapshot does not carry, is overwritten, and its
    token accounts are shown with the wrong mint. *)
Definition known_mint_a : list tsop := [TInit (mintd 1004 60 1 2)].
Definition known_mint_b : list tsop := [TInit (mintd 1001 50 1 1); TInit (mintd 1004 60 1 2); TUpdate (tokd 77 1001 1002 5 10 1) Finalized].
Definition data_of (r : res (result (option acct))) : option bytes := match r with Done (ROk (Some a)) => match d_data a with DRaw v => Some v | _ => None end | _ => None end.
Definition key_of (r : res (result (option acct))) : option pubkey := match r with Done (ROk (Some a)) => Some (d_pubkey a) | _ => None end.
Theorem C51_overwrite_refuted : exists X la n c lb b', lawful X /\ ops_ok la /\ ops_ok lb /\ ts_run E0 X ts_empty la = Done (final la) /\ ts_run E0 X ts_empty lb = Done (final lb) /\
  ts_snapshot X (final la) spl_token_id = Done (ROk c) /\ ts_load X (final lb) spl_token_id (le 4 n ++ c) = Done (b', ROk tt) /\
  (~ token_key E0 la 77 /\ forall o, o ∈ la -> ~ op_multi E0 o 77) /\
  take 32 <$> data_of (ts_get (final lb) 77 Finalized) = Some (le 32 1001) /\ take 32 <$> data_of (ts_get b' 77 Finalized) = Some (le 32 1004) /\
  key_of (ts_get (final lb) 1001 Finalized) = Some 1001 /\ key_of (ts_get b' 1001 Finalized) = Some 1004.
Proof.
  assert (ops_ok known_mint_a /\ ops_ok known_mint_b) as [Hoa Hob] by (split; repeat constructor).
  exists XS, known_mint_a, 4096, (snap_of known_mint_a), known_mint_b, (load_into (final known_mint_b) known_mint_a). split; [apply sample_lawful|]. split; [done|]. split; [done|].
  split; [apply final_runs; [done|by vm_compute]|]. split; [apply final_runs; [done|by vm_compute]|]. split; [apply snap_made; by vm_compute|]. split; [apply load_ok; by vm_compute|].
  split; [apply absent_check; by vm_compute|]. split_and!; by vm_compute.
Qed.
Print Assumptions C51_overwrite_refuted.
(** A closed token account whose record was orphaned by a collision of key prefixes comes back. *)
Definition orphan1 : list tsop := wipe1 ++ [TUpdate (closed 77 12 3) Finalized].
Theorem C51_resurrect_refuted : exists X l n c ts', lawful X /\ ops_ok l /\ ts_run E0 X ts_empty l = Done (final l) /\ ts_snapshot X (final l) spl_token_id = Done (ROk c) /\
  ts_load X ts_empty spl_token_id (le 4 n ++ c) = Done (ts', ROk tt) /\
  ts_get (final l) 77 Finalized = Done (ROk None) /\ amount_of (ts_get ts' 77 Finalized) = Some 5.
Proof.
  assert (ops_ok orphan1) as Hok by repeat constructor.
  exists XS, orphan1, 4096, (snap_of orphan1), (load_into ts_empty orphan1). split; [apply sample_lawful|]. split; [done|]. split; [apply final_runs; [done|by vm_compute]|].
  split; [apply snap_made; by vm_compute|]. split; [apply load_ok; by vm_compute|]. split; by vm_compute.
Qed.
Print Assumptions C51_resurrect_refuted.
