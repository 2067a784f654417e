(** The gauges of the token store (C96) and its memory (C97). *)
From Verif Require Import Base SMap DataModel BincodeModel BincodeProofs FilterModel StoreModel TokenModel TokenProofs SplModel SplProofs TokenUtilsModel
  TokenUtilsProofs TokenPendModel TokenPendSpec TokenPendProofs TokenPendProps TokenUtilsProps TokenStoreModel TokenStoreSpec TokenStoreProofs TokenStoreViews
  TokenStoreQuery TokenStoreProps TokenStoreSafe TokenStoreQueryProps Lz4Model TokenSnapSpec TokenSnapProofs TokenSnapLoad TokenSnapReads TokenSnapProps GaugeModel.
#[local] Arguments le : simpl never.
#[local] Arguments unle : simpl never.
#[local] Opaque to_bytes from_bytes peek_pubkey.

(** ** What the gauges are compared with. *)
(** The number of pending versions. *)
Definition held (p : pend) : nat := sum_list ((fun x => size (ps_accounts x.2)) <$> p).
(** The table has a token account [pk] ([get_by_pubkey] answers it). *)
Definition kept (ts : tstore) (pk : pubkey) : Prop := exists t, tb_get (ts_table ts) pk = Done (Some t).

(** ** Records in the table, and what the gauges count. *)
Lemma g_token_len tb t G G' tb' i b : tb_save tb t = Done (tb', i, b) -> g_token tb t G = Done G' ->
  (tg_stored G' = tg_stored G + Z.of_nat (length (tb_accounts tb')) - Z.of_nat (length (tb_accounts tb)))%Z /\
  tg_deleted G' = tg_deleted G /\ tg_mints G' = tg_mints G /\ tg_pend G' = tg_pend G.
Proof.
  intros H HG. unfold g_token in HG. rewrite H in HG. cbn [mbind res_bind] in HG. injection HG as <-. unfold tb_save in H.
  assert (forall v, Z.of_nat (length (tb_accounts tb ++ [v])) = Z.of_nat (length (tb_accounts tb)) + 1)%Z as Ha by (intros v; rewrite app_length; simpl; lia).
  destruct (tb_index tb !! _) as [ixs|]; [|injection H as <- <- <-; cbn [tb_accounts]; rewrite Ha; simpl; split_and!; lia].
  destruct (find_pk _ _ _) as [[j|]|]; cbn [mbind res_bind] in H; [..|done]; injection H as <- <- <-; cbn [tb_accounts].
  - rewrite insert_length. split_and!; lia.
  - rewrite Ha. simpl. split_and!; lia.
Qed.
Lemma tb_delete_len tb pk tb' : tb_delete tb pk = Done tb' -> length (tb_accounts tb') = length (tb_accounts tb).
Proof.
  unfold tb_delete. destruct (_ !! _); [|by intros [= <-]]. destruct (find_pk _ _ _) as [[j|]|]; cbn [mbind res_bind]; [..|done]; intros [= <-]; cbn [tb_accounts]; [|done].
  by rewrite insert_length.
Qed.
Definition recs (ts : tstore) : nat := length (tb_accounts (ts_table ts)).
Lemma add_token_len ts t ts' G G' : add_token ts t = Done ts' -> g_token (ts_table ts) t G = Done G' ->
  (tg_stored G' = tg_stored G + Z.of_nat (recs ts') - Z.of_nat (recs ts))%Z.
Proof.
  unfold add_token. destruct (tb_save _ _) as [[[tb i] b]|] eqn:Hs; [|done]. cbn [mbind res_bind]. intros [= <-] HG.
  destruct (g_token_len _ _ _ _ _ _ _ Hs HG) as [-> _]. unfold recs. by destruct b.
Qed.
Lemma g_finalized_len ts a ts' G G' : add_finalized ts a = Done ts' -> g_finalized ts a G = Done G' ->
  (tg_stored G' = tg_stored G + Z.of_nat (recs ts') - Z.of_nat (recs ts))%Z.
Proof.
  destruct a as [t|m|m pk|pk]; cbn [add_finalized g_finalized].
  - apply add_token_len.
  - destruct (_ !! _); intros [= <-] [= <-]; unfold recs; simpl; lia.
  - intros [= <-] [= <-]. unfold recs. simpl. lia.
  - destruct (ts_mint_ix ts !! pk); [intros [= <-] [= <-]; unfold recs; simpl; lia|].
    destruct (tb_delete _ _) as [tb|] eqn:Hd; [|done]. cbn [mbind res_bind]. intros [= <-]. apply tb_delete_len in Hd. unfold g_delete, recs.
    simpl. rewrite Hd. destruct (_ !! _); [|intros [= <-]; lia]. destruct (find_pk _ _ _) as [[j|]|]; [..|done]; intros [= <-]; simpl; lia.
Qed.
Lemma g_all_len l ts ts' G G' : add_all ts l = Done ts' -> g_all ts l G = Done G' ->
  (tg_stored G' = tg_stored G + Z.of_nat (recs ts') - Z.of_nat (recs ts))%Z.
Proof.
  revert ts G. induction l as [|a l IH]; intros ts G; cbn [add_all g_all]; [intros [= <-] [= <-]; lia|].
  destruct (add_finalized ts a) as [ts1|] eqn:H1; [|by destruct (g_finalized ts a G)]. destruct (g_finalized ts a G) as [G1|] eqn:HG; [|done]. cbn [mbind res_bind].
  intros H HG'. rewrite (IH _ _ H HG'), (g_finalized_len _ _ _ _ _ H1 HG). lia.
Qed.
Lemma g_walk_rest fuel p cur G : tg_stored (g_walk fuel p cur G) = tg_stored G /\ tg_deleted (g_walk fuel p cur G) = tg_deleted G /\ tg_mints (g_walk fuel p cur G) = tg_mints G.
Proof.
  revert p cur G. induction fuel as [|fuel IH]; intros p cur G; cbn [g_walk]; [done|]. destruct cur as [s|]; [|done]. destruct (sm_get s p) as [b|]; [|done].
  destruct (IH (sm_del s p) (ps_parent b) (tg_add G (TGauge 0 0 0 (- Z.of_nat (size (ps_accounts b)))))) as (-> & -> & ->). simpl. split_and!; lia.
Qed.
Lemma load_mints_table l : forall ts m ts' m', load_mints ts m l = (ts', m') -> ts_table ts' = ts_table ts /\ ts_pend ts' = ts_pend ts.
Proof.
  induction l as [|[i x] l IH]; intros ts m ts' m'; cbn [load_mints]; [by intros [= <- <-]|].
  destruct (_ !! _); intros H; apply IH in H as [-> ->]; done.
Qed.
Lemma load_multis_table l : forall ts, let ts' := foldl (fun ts m => set_multi ts (<[mu_pubkey m := m]> (ts_multi ts))) ts l in ts_table ts' = ts_table ts /\ ts_pend ts' = ts_pend ts.
Proof. induction l as [|x l IH]; intros ts; [done|]. cbn [foldl]. destruct (IH (set_multi ts (<[mu_pubkey x := x]> (ts_multi ts)))) as [-> ->]. done. Qed.
Lemma g_tokens_len l : forall ts m ts' G G', load_tokens ts m l = Done ts' -> g_tokens ts m l G = Done G' ->
  (tg_stored G' = tg_stored G + Z.of_nat (recs ts') - Z.of_nat (recs ts))%Z.
Proof.
  induction l as [|v l IH]; intros ts m ts' G G'; cbn [load_tokens g_tokens]; [intros [= <-] [= <-]; lia|].
  destruct (from_bytes v) as [t|]; [|done]. cbn [mbind res_bind]. destruct (unwrap _) as [i|]; [|done]. cbn [mbind res_bind].
  destruct (add_token ts _) as [ts1|] eqn:H1; [|by destruct (g_token _ _ _)]. destruct (g_token _ _ _) as [G1|] eqn:HG; [|done]. cbn [mbind res_bind].
  intros H HG'. rewrite (IH _ _ _ _ _ H HG'), (add_token_len _ _ _ _ _ H1 HG). lia.
Qed.
Lemma g_tstep_len E X ts o ts' G G' : ts_step E X ts o = Done ts' -> g_tstep E X ts o G = Done G' ->
  (tg_stored G' = tg_stored G + Z.of_nat (recs ts') - Z.of_nat (recs ts))%Z.
Proof.
  destruct o as [a c|a|ord si c|p b]; cbn [ts_step g_tstep].
  - unfold ts_update, g_tupdate. destruct (is_token ts a) as [[]|]; cbn [mbind res_bind]; [|intros [= <-] [= <-]; lia|done].
    destruct (account_type _ _ _ _) as [[[[ty ix] ctr]|]|]; cbn [mbind res_bind]; [|intros [= <-] [= <-]; lia|done].
    assert (forall p, (tg_stored (g_insert (ts_pend (set_ix ts ix ctr)) (d_pubkey a) (d_slot a) G) = tg_stored G + Z.of_nat (recs (set_pend (set_ix ts ix ctr) p)) - Z.of_nat (recs ts))%Z) as Hp.
    { intros p. unfold g_insert, recs. simpl. destruct (sm_get _ _) as [b|]; [destruct (_ !! _)|]; simpl; lia. }
    destruct c.
    + destruct (pd_insert _ _ _ _ _) as [p b]. cbn [mbind res_bind]. intros [= <-] [= <-]. apply Hp.
    + destruct (pd_insert _ _ _ _ _) as [p b]. cbn [mbind res_bind]. intros [= <-] [= <-]. apply Hp.
    + destruct (add_finalized _ ty) as [ts1|] eqn:H1; [|done]. cbn [mbind res_bind]. intros [= <-] HG. by apply (g_finalized_len _ _ _ _ _ H1).
  - unfold ts_init, g_tinit, g_tupdate. destruct (is_token ts a) as [[]|]; cbn [mbind res_bind]; [|intros [= <-] [= <-]; lia|done].
    destruct (account_type _ _ _ _) as [[[[ty ix] ctr]|]|]; cbn [mbind res_bind]; [|intros [= <-] [= <-]; lia|done].
    intros H HG. by apply (g_finalized_len _ _ _ _ _ H).
  - unfold ts_slot, g_tslot. destruct c.
    + cbn [mbind res_bind]. intros [= <-] [= <-]. unfold recs. simpl. lia.
    + destruct (pd_for_slot _ _ _) as [[p l]|]; [|done]. cbn [mbind res_bind]. intros [= <-] [= <-]. unfold recs. destruct (_ <? _); simpl; lia.
    + set (ts1 := if ts_fin ts <? si_slot si then _ else ts). assert (recs ts1 = recs ts) as <- by (unfold ts1, recs; by destruct (_ <? _)).
      destruct (pd_finalize _ _) as [p m]. destruct (to_accts _ _) as [r|]; [|done]. cbn [mbind res_bind].
      rewrite <- list_fmap_compose. destruct (add_all _ _) as [ts2|] eqn:H2; [|done]. cbn [mbind res_bind]. intros [= <-] HG.
      rewrite (g_all_len _ _ _ _ _ H2 HG). by destruct (g_walk_rest (S (length (ts_pend ts1))) (ts_pend ts1) (Some (si_slot si)) G) as [-> _].
  - unfold ts_load, g_tload. destruct (lz4_decompress X b) as [d|]; [|intros [= <-] [= <-]; lia]. destruct (d_snap d) as [[s r]|]; [|intros [= <-] [= <-]; lia].
    unfold load_content. set (ts1 := foldl _ _ _). destruct (load_mints ts1 ∅ (sn_mints s)) as [ts2 m] eqn:Hm.
    destruct (load_tokens ts2 m _) as [ts3|] eqn:Ht; [|done]. cbn [mbind res_bind]. intros [= <-] HG. rewrite (g_tokens_len _ _ _ _ _ _ Ht HG).
    apply load_mints_table in Hm as [Hm _]. unfold recs. rewrite Hm. unfold ts1. pose proof (proj1 (load_multis_table (sn_multis s) ts)) as Hf. cbv zeta in Hf. rewrite Hf. lia.
Qed.
Lemma g_trun_run E X l : forall ts G ts' G', g_trun E X ts G l = Done (ts', G') -> ts_run E X ts l = Done ts' /\
  (tg_stored G' = tg_stored G + Z.of_nat (recs ts') - Z.of_nat (recs ts))%Z.
Proof.
  induction l as [|o l IH]; intros ts G ts' G'; cbn [g_trun ts_run]; [intros [= <- <-]; split; [done|lia]|].
  destruct (g_tstep E X ts o G) as [G1|] eqn:HG; [|done]. cbn [mbind res_bind]. destruct (ts_step E X ts o) as [ts1|] eqn:H1; [|done]. cbn [mbind res_bind].
  intros H. apply IH in H as [Hr ->]. split; [done|]. rewrite (g_tstep_len _ _ _ _ _ _ _ H1 HG). lia.
Qed.

(** ** The three gauges of finalized data. *)
Definition tg_eq (a b : tgauge) : Prop := tg_stored a = tg_stored b /\ tg_deleted a = tg_deleted b /\ tg_mints a = tg_mints b.
Lemma g_insert_eq p pk s G : tg_eq (g_insert p pk s G) G.
Proof. unfold g_insert, tg_eq. destruct (sm_get _ _) as [b|]; [destruct (_ !! _)|]; simpl; split_and!; lia. Qed.
Lemma g_shape E X ts o ts' G G' : ts_step E X ts o = Done ts' -> g_tstep E X ts o G = Done G' -> op_ok o -> tinv ts -> ts_ctr ts' <= 2 ^ 32 ->
  exists ts1, add_all ts1 (fst <$> deliveries E ts o) = Done ts' /\ tinv ts1 /\ same_fin E o ts ts1 /\
    Forall (fun x => tpa_ok (ts_ctr ts1) x) (fst <$> deliveries E ts o) /\
    exists G1, g_all ts1 (fst <$> deliveries E ts o) G1 = Done G' /\ tg_eq G1 G.
Proof.
  intros H HG Hok Hi Hc. assert (same_fin E o ts ts) as Hrefl by (constructor; try done; congruence).
  assert (forall a ty ix ctr, op_acct o = Some a -> d_pubkey a < 2 ^ 256 -> account_type E a (ts_mint_ix ts) (ts_ctr ts) = Done (Some (ty, ix, ctr)) ->
    tinv (set_ix ts ix ctr) /\ same_fin E o ts (set_ix ts ix ctr) /\ tpa_ok ctr ty /\ tpa_pubkey ty = d_pubkey a) as Hacc.
  { intros a ty ix ctr Hop Hp Ht. destruct (accepted_ok _ _ _ _ _ _ _ Ht Hp (ti_ix _ Hi)) as (Hix & Hle & Hty & Hpk & Hsub & Hnew & _).
    split; [by apply tinv_set_ix|]. split; [|done]. constructor; try done. simpl. intros p i Hpi Hn.
    destruct (Hnew p i Hpi Hn) as (-> & _). split.
    - destruct (ts_mints ts !! ts_ctr ts) as [m|] eqn:Hm; [|done]. apply (mints_below _ _ _ Hi) in Hm. lia.
    - destruct (account_type_names _ _ _ _ _ _ _ _ _ Ht Hpi Hn) as (v & r & Hv & Hr & Hm). exists a, v, r. done. }
  destruct o as [a c|a|ord si c|p b]; simpl in H, HG, Hok; [| | |done].
  - unfold ts_update in H. unfold g_tupdate in HG. cbn [deliveries]. unfold accepted. destruct (is_token ts a) as [[]|]; [|injection H as <-; injection HG as <-|done].
    2:{ exists ts. destruct c; simpl; split_and!; try done; try constructor; exists G; done. }
    cbn [mbind res_bind] in H, HG. destruct (account_type _ _ _ _) as [[[[ty ix] ctr]|]|] eqn:Ht; [|injection H as <-; injection HG as <-|done].
    2:{ exists ts. destruct c; simpl; split_and!; try done; try constructor; exists G; done. }
    cbn [mbind res_bind] in H, HG. destruct (Hacc a ty ix ctr eq_refl Hok Ht) as (Hi1 & Hsf & Hty & Hpk).
    assert (forall p b0, pd_insert (ts_pend (set_ix ts ix ctr)) (d_pubkey a) ty (d_wv a) (d_slot a) = (p, b0) ->
       tinv (set_pend (set_ix ts ix ctr) p)) as Hpd.
    { intros p b0 Hpi. pose proof (pd_insert_sorted _ (d_pubkey a) ty (d_wv a) (d_slot a) (ti_sorted _ Hi1)) as Hsp.
      rewrite Hpi in Hsp. simpl in Hsp. apply tinv_set_pend; [done..|]. intros s pk v Hv.
      pose proof (insert_version _ (d_pubkey a) ty (d_wv a) (d_slot a) s pk v (ti_sorted _ Hi1)) as Hiv. rewrite Hpi in Hiv. simpl in Hiv.
      apply Hiv in Hv. destruct (decide _) as [[-> ->]|Hne]; [destruct Hv as [[-> _]|[Hv _]]|]; [done| |];
        by apply (ti_pend _ Hi1 _ _ _) in Hv. }
    destruct c.
    + destruct (pd_insert _ _ _ _ _) as [p b0] eqn:Hpi. injection H as <-. injection HG as <-. eexists. split; [done|]. split; [by eapply Hpd|]. split; [destruct Hsf; by constructor|].
      split; [constructor|]. eexists. split; [done|]. apply g_insert_eq.
    + destruct (pd_insert _ _ _ _ _) as [p b0] eqn:Hpi. injection H as <-. injection HG as <-. eexists. split; [done|]. split; [by eapply Hpd|]. split; [destruct Hsf; by constructor|].
      split; [constructor|]. eexists. split; [done|]. apply g_insert_eq.
    + destruct (add_finalized _ ty) as [ts1|] eqn:H1; [|done]. cbn [mbind res_bind] in H. injection H as <-.
      exists (set_ix ts ix ctr). simpl. rewrite H1. split; [done|]. split; [done|]. split; [done|]. split; [by constructor|].
      exists G. rewrite HG. cbn [mbind res_bind]. done.
  - unfold ts_init in H. unfold g_tinit, g_tupdate in HG. cbn [deliveries]. unfold accepted. destruct (is_token ts a) as [[]|]; [|injection H as <-; injection HG as <-|done].
    2:{ exists ts. simpl. split_and!; try done; try constructor; exists G; done. }
    cbn [mbind res_bind] in H, HG. destruct (account_type _ _ _ _) as [[[[ty ix] ctr]|]|] eqn:Ht; [|injection H as <-; injection HG as <-|done].
    2:{ exists ts. simpl. split_and!; try done; try constructor; exists G; done. }
    cbn [mbind res_bind] in H, HG. destruct (Hacc a ty ix ctr eq_refl Hok Ht) as (Hi1 & Hsf & Hty & Hpk).
    exists (set_ix ts ix ctr). simpl. rewrite H. split; [done|]. split; [done|]. split; [done|]. split; [by constructor|]. exists G. rewrite HG. cbn [mbind res_bind]. done.
  - unfold ts_slot in H. unfold g_tslot in HG. assert (tinv (set_pend ts (pd_slot_info (ts_pend ts) si))) as Hinfo.
    { apply tinv_set_pend; [done|apply pd_slot_info_sorted, ti_sorted, Hi|]. intros s pk v Hv. apply (slot_info_version _ _ _ _ _ (ti_sorted _ Hi)) in Hv.
      by apply (ti_pend _ Hi _ _ _) in Hv. }
    destruct c; cbn [deliveries].
    + cbn [mbind res_bind] in H. injection H as <-. injection HG as <-. eexists. split; [done|]. split; [done|]. split; [by destruct Hrefl|]. split; [constructor|]. exists G. done.
    + set (ts1 := if ts_conf ts <? si_slot si then _ else _) in H. assert (tinv ts1 /\ same_fin E (TSlot ord si Confirmed) ts ts1) as [Hi1 Hsf].
      { unfold ts1. destruct (_ <? _); [|done]. split; [|by destruct Hrefl].
        apply tinv_set_pend; [by apply tinv_set_conf|apply (ti_sorted _ Hinfo)|apply (ti_pend _ Hinfo)]. }
      destruct (pd_for_slot _ _ _) as [[p l]|] eqn:Hfs; [|done]. cbn [mbind res_bind] in H. injection H as <-. injection HG as <-.
      apply pd_for_slot_pend in Hfs. eexists. split; [done|]. split; [|split; [by destruct Hsf|split; [constructor|exists G; done]]].
      subst p. destruct (sm_get _ _); apply tinv_set_pend; try done; try (by apply ti_sorted).
      * apply (ti_pend _ Hi1).
      * apply pd_slot_info_sorted, ti_sorted, Hi1.
      * intros s pk v Hv. apply (slot_info_version _ _ _ _ _ (ti_sorted _ Hi1)) in Hv. by apply (ti_pend _ Hi1 _ _ _) in Hv.
    + set (p0 := if ts_fin ts <? si_slot si then pd_slot_info (ts_pend ts) si else ts_pend ts).
      set (ts1 := if ts_fin ts <? si_slot si then _ else _) in H, HG. assert (tinv ts1 /\ same_fin E (TSlot ord si Finalized) ts ts1 /\ ts_pend ts1 = p0) as (Hi1 & Hsf & Hp0).
      { unfold ts1, p0. destruct (_ <? _); [|done]. split; [by apply tinv_set_fin|]. split; [by destruct Hrefl|done]. }
      rewrite Hp0 in H, HG. pose proof (ti_sorted _ Hi1) as Hs1. rewrite Hp0 in Hs1.
      destruct (finalize_versions p0 (si_slot si) Hs1) as (Hs2 & Hv1 & Hv2).
      destruct (pd_finalize p0 (si_slot si)) as [p m]. cbn [fst snd] in Hs2, Hv1, Hv2 |- *.
      destruct (to_accts _ _) as [r|]; [|done]. cbn [mbind res_bind] in H. destruct (add_all _ _) as [ts2|] eqn:H2; [|done].
      cbn [mbind res_bind] in H. injection H as <-. exists (set_pend ts1 p).
      assert ((λ x : pacct * N, x.1.1) <$> ((λ x : pubkey * (pacct * N), x.2) <$> ord m) = fst <$> ((λ x : pubkey * (pacct * N), (x.2.1.1, Some x.2.2)) <$> ord m)) as He.
      { rewrite <- !list_fmap_compose. apply list_fmap_ext. by intros ? []. }
      rewrite <- He. split; [done|]. pose proof (ti_pend _ Hi1) as Hpd. rewrite Hp0 in Hpd. split; [|split; [|split]].
      * apply tinv_set_pend; [done..|]. intros s pk v Hv. by apply (Hpd s pk), Hv1.
      * by destruct Hsf.
      * apply Forall_forall. intros x Hx. apply elem_of_list_fmap in Hx as ([v s] & -> & Hx). apply elem_of_list_fmap in Hx as ([pk [v' s']] & [= <- <-] & Hx).
        rewrite (Hok m) in Hx. apply elem_of_map_to_list in Hx. apply Hv2 in Hx. by apply (Hpd s pk) in Hx as [? _].
      * rewrite <- list_fmap_compose. eexists. split; [exact HG|]. apply g_walk_rest.
Qed.
Lemma g_all_ind (P : tstore -> tgauge -> Prop) :
  (forall ts a ts' G G', tinv ts -> ts_ctr ts <= 2 ^ 32 -> tpa_ok (ts_ctr ts) a -> P ts G -> add_finalized ts a = Done ts' -> g_finalized ts a G = Done G' -> P ts' G') ->
  forall l ts ts' G G', tinv ts -> Forall (tpa_ok (ts_ctr ts)) l -> add_all ts l = Done ts' -> g_all ts l G = Done G' -> ts_ctr ts' <= 2 ^ 32 -> P ts G -> P ts' G'.
Proof.
  intros Hstep l. induction l as [|a l IH]; intros ts ts' G G' Hi Hf H HG Hc HP; cbn [add_all g_all] in H, HG; [by injection H as <-; injection HG as <-|].
  destruct (add_finalized ts a) as [ts1|] eqn:H1; [|done]. destruct (g_finalized ts a G) as [G1|] eqn:HG1; [|done]. cbn [mbind res_bind] in H, HG.
  pose proof (add_all_ctr _ _ _ H). pose proof (add_finalized_ctr _ _ _ H1). apply Forall_cons in Hf as [Ha Hf].
  destruct (add_finalized_inv ts a Hi Ha) as (ts2 & H2' & Hi2 & Hle & _); [lia|]. rewrite H1 in H2'. injection H2' as <-.
  eapply IH; [done| |done|done|done|]; [|eapply (Hstep ts a ts1 G); [done|lia|done..]]. eapply Forall_impl; [exact Hf|]. intros x Hx. by eapply tpa_ok_mono.
Qed.
Lemma g_run_ind E X (P : tstore -> tgauge -> Prop) (O : tstore -> tsop -> Prop) :
  (forall ts o ts1 G G1, tinv ts -> tinv ts1 -> O ts o -> P ts G -> same_fin E o ts ts1 -> tg_eq G1 G -> P ts1 G1) ->
  (forall ts a ts' G G', tinv ts -> ts_ctr ts <= 2 ^ 32 -> tpa_ok (ts_ctr ts) a -> P ts G -> add_finalized ts a = Done ts' -> g_finalized ts a G = Done G' -> P ts' G') ->
  forall l ts ts' G G', g_trun E X ts G l = Done (ts', G') -> ops_ok l -> tinv ts -> ts_ctr ts' <= 2 ^ 32 ->
    (forall l1 o l2 ts1, l = l1 ++ o :: l2 -> ts_run E X ts l1 = Done ts1 -> O ts1 o) -> P ts G -> P ts' G'.
Proof.
  intros Hsame Hstep l. induction l as [|o l IH]; intros ts ts' G G' H Hok Hi Hc HO HP; cbn [g_trun] in H; [by injection H as <- <-|].
  apply Forall_cons in Hok as [Ho Hok]. destruct (g_tstep E X ts o G) as [G1|] eqn:HG; [|done]. cbn [mbind res_bind] in H.
  destruct (ts_step E X ts o) as [ts1|] eqn:H1; [|done]. cbn [mbind res_bind] in H.
  pose proof (run_ctr _ _ _ _ _ (proj1 (g_trun_run _ _ _ _ _ _ _ H)) Hok). assert (ts_ctr ts1 <= 2 ^ 32) as Hc1 by lia.
  pose proof (step_inv _ _ _ _ _ H1 Ho Hi Hc1) as Hi1. destruct (g_shape _ _ _ _ _ _ _ H1 HG Ho Hi Hc1) as (ts0 & Ha & Hi0 & Hsf & Hf & G0 & HG0 & Heq).
  eapply (IH ts1 ts'); [done..| |].
  - intros l1 o' l2 ts2 -> H2. apply (HO (o :: l1) o' l2 ts2); [done|]. cbn [ts_run]. rewrite H1. exact H2.
  - eapply (g_all_ind P Hstep); [exact Hi0|exact Hf|exact Ha|exact HG0|done|]. eapply Hsame; [exact Hi|done| |exact HP|done|done]. by apply (HO [] o l ts).
Qed.

(** Positions of live records. *)
Definition is_live (v : bytes) : bool := match from_bytes v with Done t => negb (ta_deleted t) | Panic => false end.
Definition live (tb : table) : nat := length (filter (fun v => is_live v = true) (tb_accounts tb)).
Lemma is_live_to t : good t -> is_live (to_bytes t) = negb (ta_deleted t).
Proof. intros H. unfold is_live. by rewrite (good_from _ H). Qed.
Lemma filter_insert (P : bytes -> bool) (l : list bytes) i v w : l !! i = Some v ->
  (length (filter (fun v => P v = true) (<[i := w]> l)) + (if P v then 1 else 0) = length (filter (fun v => P v = true) l) + (if P w then 1 else 0))%nat.
Proof.
  revert i. induction l as [|x l IH]; intros [|i]; simpl; try done.
  - intros [= ->]. rewrite !filter_cons. destruct (P v) eqn:Hv, (P w) eqn:Hw; repeat case_decide; simpl; try done; lia.
  - intros H. apply IH in H. rewrite !filter_cons. repeat case_decide; simpl; lia.
Qed.
Definition live_ok (ts : tstore) (G : tgauge) : Prop := Z.of_nat (live (ts_table ts)) = (tg_stored G - tg_deleted G)%Z.
Lemma live_step ts a ts' G G' : tinv ts -> ts_ctr ts <= 2 ^ 32 -> tpa_ok (ts_ctr ts) a -> live_ok ts G ->
  add_finalized ts a = Done ts' -> g_finalized ts a G = Done G' -> live_ok ts' G'.
Proof.
  intros Hi Hc Ha HP H HG. destruct a as [t|m|m q|q]; simpl in H, HG.
  - pose proof (tpa_ok_good _ _ Ha Hc) as Hg. unfold add_token in H. unfold g_token in HG.
    destruct (tb_save_spec _ t (ti_table _ Hi) Hg) as (tb & i & b & Hs & Htb & Hat & Hoth & Hb0 & Hb1 & Hsame & Hle). rewrite Hs in H, HG. cbn [mbind res_bind] in H, HG.
    injection H as <-. injection HG as <-. unfold live_ok in *.
    assert (ts_table (if b then set_table ts (push_at (ta_mint t) i (ts_by_mint ts)) (push_at (prefix4 (ta_owner t)) i (ts_by_owner ts)) tb
        else set_table ts (ts_by_mint ts) (ts_by_owner ts) tb) = tb) as -> by (by destruct b).
    assert (ta_deleted t = false) as Hdt by (by destruct Ha as (_ & _ & ?)).
    assert (tb_accounts tb !! i = Some (to_bytes t)) as Hit by (by destruct Hat as ((_ & ?) & _)).
    destruct b.
    + destruct Hb1 as [-> _]; [done|]. assert (tb_accounts tb = tb_accounts (ts_table ts) ++ [to_bytes t]) as Hap.
      { unfold tb_save in Hs. destruct (tb_index _ !! _); [|by simplify_eq]. destruct (find_pk _ _ _) as [[j|]|]; cbn [mbind res_bind] in Hs; by simplify_eq. }
      unfold live in *. rewrite Hap, filter_app, app_length, filter_cons. rewrite (is_live_to _ Hg), Hdt. simpl. lia.
    + destruct Hb0 as (t0 & Hat0); [done|]. pose proof (ti_live _ Hi _ _ _ Hat0) as Hd0. destruct Hat0 as ((Hg0 & Hi0) & _).
      assert (tb_accounts tb = <[i := to_bytes t]> (tb_accounts (ts_table ts))) as Hap.
      { unfold tb_save in Hs. destruct (tb_index _ !! _); [|by simplify_eq]. destruct (find_pk _ _ _) as [[j|]|]; cbn [mbind res_bind] in Hs; by simplify_eq. }
      unfold live in *. rewrite Hap. pose proof (filter_insert is_live _ _ _ (to_bytes t) Hi0) as Hf.
      rewrite (is_live_to _ Hg), (is_live_to _ Hg0), Hdt, Hd0 in Hf. simpl in Hf. lia.
  - destruct (ts_mint_ix ts !! ma_pubkey m); simplify_eq; unfold live_ok in *; simpl; lia.
  - by simplify_eq.
  - destruct (ts_mint_ix ts !! q); [simplify_eq; unfold live_ok in *; simpl; lia|].
    unfold tb_delete in H. unfold g_delete in HG. destruct (tb_index (ts_table ts) !! prefix4 q) as [ixs|] eqn:Hk.
    2:{ cbn [mbind res_bind] in H. by simplify_eq. }
    destruct (bucket_find _ _ _ (ti_table _ Hi) Hk) as (o & Hf & Ho). rewrite Hf in H, HG. cbn [mbind res_bind] in H, HG.
    destruct o as [i|]; cbn [mbind res_bind] in H; injection H as <-; injection HG as <-; [|exact HP]. unfold live_ok in *. simpl. destruct Ho as (_ & t0 & Hat0). pose proof (ti_live _ Hi _ _ _ Hat0) as Hd0. destruct Hat0 as ((Hg0 & Hi0) & _).
    unfold live in *. simpl. pose proof (filter_insert is_live _ _ _ (to_bytes deleted_account) Hi0) as Hfi.
    rewrite (is_live_to _ good_deleted), (is_live_to _ Hg0), Hd0 in Hfi. simpl in Hfi. lia.
Qed.
Lemma run_live_ok E X l ts G : g_trun E X ts_empty tg_zero l = Done (ts, G) -> ops_ok l -> ts_ctr ts <= 2 ^ 32 -> live_ok ts G.
Proof.
  intros H Hok Hc. eapply (g_run_ind E X live_ok (fun _ _ => True)) with (l := l) (ts := ts_empty) (G := tg_zero); try done.
  - intros ts0 o ts1 G0 G1 _ _ _ HP Hsf (H1 & H2 & _). unfold live_ok in *. by rewrite (sf_table _ _ _ _ Hsf), H1, H2.
  - apply live_step.
  - apply tinv_empty.
Qed.

(** Records that reads find are distinct live records. *)
Definition at_key (tb : table) (pk : pubkey) (i : nat) : Prop := exists t, at_pos tb pk i t.
Lemma kept_at ts pk : tinv ts -> kept ts pk <-> exists i t, at_pos (ts_table ts) pk i t.
Proof.
  intros Hi. destruct (rep_exists _ (ti_table _ Hi)) as [m Hm]. unfold kept. rewrite (tb_get_spec _ m pk (ti_table _ Hi) Hm). split.
  - intros [t [= Ht]]. apply Hm in Ht as [i Ha]. eauto.
  - intros (i & t & Ha). exists t. f_equal. apply Hm. eauto.
Qed.
(** The positions of the live records. *)
Definition live_at (l : list bytes) : list nat := filter (fun i => match l !! i with Some v => is_live v | None => false end = true) (seq 0 (length l)).
Lemma filter_ext_in {A} (P Q : A -> Prop) `{forall x, Decision (P x)} `{forall x, Decision (Q x)} (l : list A) :
  (forall x, x ∈ l -> P x <-> Q x) -> filter P l = filter Q l.
Proof.
  induction l as [|x l IH]; intros Hx; [done|]. rewrite !filter_cons, IH by (intros; apply Hx; by right).
  pose proof (Hx x (elem_of_list_here _ _)). by repeat case_decide; try done; tauto.
Qed.
Lemma live_at_length l : length (live_at l) = length (filter (fun v => is_live v = true) l).
Proof.
  induction l as [|v l IH] using rev_ind; [done|]. unfold live_at in *. rewrite app_length. simpl length. rewrite Nat.add_1_r, seq_S, !filter_app, !app_length, <- IH. f_equal.
  - f_equal. apply filter_ext_in. intros i Hi. apply elem_of_seq in Hi. by rewrite lookup_app_l by lia.
  - rewrite !filter_cons. simpl. rewrite lookup_app_r by lia. rewrite Nat.sub_diag. simpl. by case_decide.
Qed.
Lemma live_at_elem tb i : tb_ok tb -> i ∈ live_at (tb_accounts tb) <-> exists t, stored tb i t /\ ta_deleted t = false.
Proof.
  intros Hok. unfold live_at. rewrite elem_of_list_filter, elem_of_seq. split.
  - intros [H _]. destruct (tb_accounts tb !! i) as [v|] eqn:Hv; [|done]. destruct (to_all _ Hok _ _ Hv) as (t & Hg & ->).
    rewrite (is_live_to _ Hg) in H. apply negb_true_iff in H. exists t. done.
  - intros (t & [Hg Hv] & Hd). rewrite Hv, (is_live_to _ Hg), Hd. split; [done|]. apply lookup_lt_Some in Hv. lia.
Qed.
Lemma kept_positions ts ks : tinv ts -> NoDup ks -> (forall k, k ∈ ks -> kept ts k) ->
  exists ps, length ps = length ks /\ NoDup ps /\ forall i, i ∈ ps <-> exists k t, k ∈ ks /\ at_pos (ts_table ts) k i t.
Proof.
  intros Hi. induction ks as [|k ks IH]; intros Hnd Hk.
  { exists []. split; [done|]. split; [constructor|]. intros i. split; [by intros ?%elem_of_nil|]. intros (k & t & ?%elem_of_nil & _). done. }
  apply NoDup_cons in Hnd as [Hn Hnd]. destruct IH as (ps & Hl & Hps & Hin); [done|intros; apply Hk; by right|].
  destruct (proj1 (kept_at _ _ Hi) (Hk k (elem_of_list_here _ _))) as (i & t & Ha). exists (i :: ps). split; [simpl; lia|]. split.
  - apply NoDup_cons. split; [|done]. intros (k' & t' & Hk' & Ha')%Hin. destruct Ha as (Hs & Hp & _), Ha' as (Hs' & Hp' & _).
    rewrite (stored_fun _ _ _ _ Hs Hs') in Hp. congruence.
  - intros j. rewrite elem_of_cons, Hin. split.
    + intros [->|(k' & t' & ? & ?)]; [exists k, t; split; [left|done]|exists k', t'; split; [by right|done]].
    + intros (k' & t' & [->|Hk']%elem_of_cons & Ha'); [left; by destruct (at_pos_fun _ _ _ _ _ _ (ti_table _ Hi) Ha Ha')|right; eauto].
Qed.
Lemma kept_bound ts G ks : tinv ts -> live_ok ts G -> NoDup ks -> (forall k, k ∈ ks -> kept ts k) -> (Z.of_nat (length ks) <= tg_stored G - tg_deleted G)%Z.
Proof.
  intros Hi HP Hnd Hk. destruct (kept_positions _ _ Hi Hnd Hk) as (ps & Hl & Hps & Hin). unfold live_ok, live in HP. rewrite <- live_at_length in HP.
  enough (length ps <= length (live_at (tb_accounts (ts_table ts))))%nat by lia. apply submseteq_length, NoDup_submseteq; [done|].
  intros i (k & t & _ & Ha)%Hin. apply live_at_elem; [apply (ti_table _ Hi)|]. exists t. split; [by destruct Ha|by eapply ti_live].
Qed.
Lemma tok_state_in L pk t : tok_state L pk = Some t -> TPToken t ∈ L /\ ta_pubkey t = pk.
Proof.
  induction L as [|a L IH] using rev_ind; intros H; [done|]. rewrite tok_state_snoc in H. rewrite elem_of_app, elem_of_list_singleton.
  destruct a as [t'|m|m q|q]; simpl in H; [| | |].
  - destruct (N.eqb_spec (ta_pubkey t') pk); [injection H as ->; auto|]. apply IH in H as [? ?]; auto.
  - apply IH in H as [? ?]; auto.
  - apply IH in H as [? ?]; auto.
  - destruct (N.eqb_spec q pk); [done|]. apply IH in H as [? ?]; auto.
Qed.
Lemma kept_state E X l ts pk : ts_run E X ts_empty l = Done ts -> ops_ok l -> ts_ctr ts <= 2 ^ 32 -> tidy E l ->
  kept ts pk <-> is_Some (tok_state (ts_log E X ts_empty l).*1 pk).
Proof.
  intros H Hok Hc Htd. pose proof (run_inv _ _ _ _ _ H Hok tinv_empty Hc) as Hi. rewrite (kept_at _ _ Hi). split.
  - intros (i & t & Ha). pose proof (proj1 (run_live _ _ _ _ H Hok Hc Htd) _ _ _ Ha) as Hin. destruct (log_tidy _ _ _ _ H Hok Hc t Htd Hin) as (H1 & H2 & _).
    assert (ta_pubkey t = pk) as Hp by (by destruct Ha as (_ & ? & _)). rewrite Hp in H1, H2. exists t.
    apply (proj2 (run_holds _ _ _ _ _ H Hok Hc H1 H2)). eauto.
  - intros [t Ht]. destruct (tok_state_in _ _ _ Ht) as [Hin <-]. destruct (log_tidy _ _ _ _ H Hok Hc t Htd Hin) as (H1 & H2 & _).
    apply (proj2 (run_holds _ _ _ _ _ H Hok Hc H1 H2)) in Ht as [i Ha]. eauto.
Qed.

(** ** Mints. *)
Definition mints_le (ts : tstore) (G : tgauge) : Prop := (tg_mints G <= Z.of_nat (size (ts_mints ts)))%Z.
Definition mints_eq (ts : tstore) (G : tgauge) : Prop := tg_mints G = Z.of_nat (size (ts_mints ts)) /\ forall q i, ts_mint_ix ts !! q = Some i -> is_Some (ts_mints ts !! i).
Lemma add_token_rest ts t ts' : add_token ts t = Done ts' -> ts_mints ts' = ts_mints ts /\ ts_mint_ix ts' = ts_mint_ix ts.
Proof. unfold add_token. destruct (tb_save _ _) as [[[tb i] b]|]; [|done]. cbn [mbind res_bind]. intros [= <-]. by destruct b. Qed.
Lemma g_token_rest tb t G G' : g_token tb t G = Done G' -> tg_mints G' = tg_mints G.
Proof. unfold g_token. destruct (tb_save _ _) as [[[tb' i] b]|]; [|done]. cbn [mbind res_bind]. intros [= <-]. destruct b; simpl; lia. Qed.
Lemma g_delete_rest tb q G G' : g_delete tb q G = Done G' -> tg_mints G' = tg_mints G.
Proof.
  unfold g_delete. destruct (_ !! _); [|by intros [= <-]]. destruct (find_pk _ _ _) as [o|]; [|done]. cbn [mbind res_bind]. intros [= <-]. destruct o; simpl; lia.
Qed.
Lemma mints_le_step ts a ts' G G' : tinv ts -> mints_le ts G -> add_finalized ts a = Done ts' -> g_finalized ts a G = Done G' -> mints_le ts' G'.
Proof.
  intros Hi HP H HG. unfold mints_le in *. destruct a as [t|m|m q|q]; simpl in H, HG.
  - by rewrite (proj1 (add_token_rest _ _ _ H)), (g_token_rest _ _ _ _ HG).
  - destruct (ts_mint_ix ts !! ma_pubkey m) as [i|]; simplify_eq; simpl.
    + destruct (ts_mints ts !! i) as [m0|] eqn:Hm; [rewrite map_size_insert_Some; eauto|rewrite map_size_insert_None by done; lia].
    + rewrite map_size_insert_None; [lia|]. destruct (ts_mints ts !! ts_ctr ts) as [m0|] eqn:Hm; [|done]. apply (mints_below _ _ _ Hi) in Hm. lia.
  - by simplify_eq.
  - destruct (ts_mint_ix ts !! q) as [i|]; [simplify_eq; simpl|].
    + destruct (ts_mints ts !! i) as [m0|] eqn:Hm; [|rewrite delete_notin by done; lia]. rewrite map_size_delete_Some by eauto.
      assert (size (ts_mints ts) <> 0%nat) by (intros Hz; apply map_size_empty_inv in Hz; rewrite Hz, lookup_empty in Hm; done). lia.
    + destruct (tb_delete _ _); [|done]. cbn [mbind res_bind] in H. injection H as <-. by rewrite (g_delete_rest _ _ _ _ HG).
Qed.
Lemma mints_eq_step ts a ts' G G' : tinv ts -> mints_eq ts G -> add_finalized ts a = Done ts' -> g_finalized ts a G = Done G' -> mints_eq ts' G'.
Proof.
  intros Hi [HP Hall] H HG. unfold mints_eq in *. destruct a as [t|m|m q|q]; simpl in H, HG.
  - destruct (add_token_rest _ _ _ H) as [-> ->]. by rewrite (g_token_rest _ _ _ _ HG).
  - destruct (ts_mint_ix ts !! ma_pubkey m) as [i|] eqn:Hix; simplify_eq; simpl.
    + destruct (Hall _ _ Hix) as [m0 Hm]. rewrite map_size_insert_Some by eauto. split; [done|]. intros q j Hj. rewrite lookup_insert_is_Some. destruct (decide (i = j)); eauto.
    + rewrite map_size_insert_None; [split; [lia|]|].
      * intros q j Hj. rewrite lookup_insert_is_Some. apply lookup_insert_Some in Hj as [[_ <-]|[_ Hj]]; [by left|]. destruct (decide (ts_ctr ts = j)); [by left|right; eauto].
      * destruct (ts_mints ts !! ts_ctr ts) as [m0|] eqn:Hm; [|done]. apply (mints_below _ _ _ Hi) in Hm. lia.
  - by simplify_eq.
  - destruct (ts_mint_ix ts !! q) as [i|] eqn:Hix; [simplify_eq; simpl|].
    + destruct (Hall _ _ Hix) as [m0 Hm]. rewrite map_size_delete_Some by eauto.
      assert (size (ts_mints ts) <> 0%nat) by (intros Hz; apply map_size_empty_inv in Hz; rewrite Hz, lookup_empty in Hm; done). split; [lia|].
      intros p j [Hne Hj]%lookup_delete_Some. rewrite lookup_delete_ne; [eauto|]. intros ->. destruct (ti_ix _ Hi) as [Hinj _]. apply Hne. by apply (Hinj _ _ j).
    + destruct (tb_delete _ _); [|done]. cbn [mbind res_bind] in H. injection H as <-. by rewrite (g_delete_rest _ _ _ _ HG).
Qed.
Lemma mints_counted ts L ks : tinv ts -> agrees ts L -> NoDup ks -> (forall k, k ∈ ks <-> is_Some (mint_state L k)) -> length ks = size (ts_mints ts).
Proof.
  intros Hi [_ Hag] Hnd Hk. set (kk := (ma_pubkey ∘ snd) <$> map_to_list (ts_mints ts)).
  assert (size (ts_mints ts) = length kk) as -> by (unfold kk; by rewrite fmap_length). apply Permutation_length, NoDup_Permutation; [done|..].
  - unfold kk. apply NoDup_fmap_2_strong; [|apply NoDup_map_to_list]. intros [i m] [j m'] H1%elem_of_map_to_list H2%elem_of_map_to_list He. simpl in He.
    pose proof (ti_mints _ Hi _ _ H1) as G1. pose proof (ti_mints _ Hi _ _ H2) as G2. rewrite He in G1. congruence.
  - intros k. rewrite Hk. unfold kk. rewrite elem_of_list_fmap. split.
    + intros [m (i & H1 & H2)%Hag]. exists (i, m). rewrite elem_of_map_to_list. split; [|done]. simpl. destruct (ti_ix _ Hi) as [Hinj _]. apply (Hinj _ _ i); [done|].
      by apply (ti_mints _ Hi).
    + intros ([i m] & -> & H1%elem_of_map_to_list). exists m. apply Hag. exists i. split; [by apply (ti_mints _ Hi)|done].
Qed.

(** ** Pending versions. *)
Lemma held_cons k b (p : pend) : held ((k, b) :: p) = (size (ps_accounts b) + held p)%nat.
Proof. done. Qed.
Lemma held_put k b (p : pend) : sm_sorted p ->
  (held (sm_put k b p) + match sm_get k p with Some b0 => size (ps_accounts b0) | None => 0 end = held p + size (ps_accounts b))%nat.
Proof.
  induction p as [|[k' b'] p IH]; intros Hs; simpl; [unfold held; simpl; lia|]. apply sm_sorted_cons in Hs as [Hs Hlt].
  destruct (N.ltb_spec k k') as [Hk|Hk].
  - destruct (N.eqb_spec k k'); [lia|]. assert (sm_get k p = None) as ->; [|rewrite !held_cons; lia].
    apply sm_get_None. intros v Hv%Hlt. lia.
  - destruct (N.eqb_spec k k'); [rewrite !held_cons; lia|]. specialize (IH Hs). rewrite !held_cons. lia.
Qed.
Lemma held_del k (p : pend) b : sm_get k p = Some b -> held p = (held (sm_del k p) + size (ps_accounts b))%nat.
Proof.
  induction p as [|[k' b'] p IH]; simpl; [done|]. destruct (N.eqb_spec k k') as [->|Hne].
  - intros [= ->]. rewrite held_cons. lia.
  - intros H. apply IH in H. rewrite !held_cons. lia.
Qed.
Lemma held_pop slot (p : pend) : (held (pop_upto slot p) <= held p)%nat.
Proof. induction p as [|[k b] p IH]; simpl; [done|]. destruct (k <=? slot); [|done]. rewrite held_cons. lia. Qed.
Lemma held_pop_empty slot (p : pend) : (forall k b, (k, b) ∈ p -> k <= slot -> ps_accounts b = ∅) -> held (pop_upto slot p) = held p.
Proof.
  induction p as [|[k b] p IH]; intros H; simpl; [done|]. destruct (N.leb_spec k slot) as [Hk|Hk]; [|done].
  rewrite IH by (intros k' b' H'; apply H; by right). rewrite held_cons, (H k b (elem_of_list_here _ _) Hk), map_size_empty. lia.
Qed.
Lemma held_walk fuel : forall p cur acc G, tg_pend (g_walk fuel p cur G) = (tg_pend G + Z.of_nat (held (fin_walk fuel p cur acc).1) - Z.of_nat (held p))%Z.
Proof.
  induction fuel as [|fuel IH]; intros p cur acc G; cbn [g_walk fin_walk]; [simpl; lia|]. destruct cur as [s|]; [|simpl; lia].
  destruct (sm_get s p) as [b|] eqn:Hb; [|simpl; lia]. rewrite (IH _ _ (acc ∪ ((fun a => (a, s)) <$> ps_accounts b))). rewrite (held_del _ _ _ Hb). simpl. lia.
Qed.
Lemma held_insert p pk a wv s G : sm_sorted p ->
  (tg_pend (g_insert p pk s G) = tg_pend G + Z.of_nat (held (pd_insert p pk a wv s).1) - Z.of_nat (held p))%Z.
Proof.
  intros Hs. unfold g_insert, pd_insert. destruct (sm_get s p) as [b|] eqn:Hb; [destruct (ps_accounts b !! pk) as [[x w]|] eqn:Hx|].
  - destruct (w <? wv); simpl; [|lia]. pose proof (held_put s (PSlot (<[pk:=(a, wv)]> (ps_accounts b)) (ps_parent b)) p Hs) as H. rewrite Hb in H. simpl in H.
    rewrite map_size_insert_Some in H by eauto. lia.
  - simpl. pose proof (held_put s (PSlot (<[pk:=(a, wv)]> (ps_accounts b)) (ps_parent b)) p Hs) as H. rewrite Hb in H. simpl in H.
    rewrite map_size_insert_None in H by done. lia.
  - simpl. pose proof (held_put s (PSlot {[pk := (a, wv)]} None) p Hs) as H. rewrite Hb in H. simpl in H. rewrite map_size_singleton in H. lia.
Qed.
Lemma held_info p si : sm_sorted p -> held (pd_slot_info p si) = held p.
Proof.
  intros Hs. unfold pd_slot_info. destruct (sm_get _ p) as [b|] eqn:Hb.
  - pose proof (held_put (si_slot si) (PSlot (ps_accounts b) (Some (si_parent si))) p Hs) as H. rewrite Hb in H. simpl in H. lia.
  - pose proof (held_put (si_slot si) (PSlot ∅ None) p Hs) as H. rewrite Hb in H. simpl in H. rewrite map_size_empty in H. lia.
Qed.
Lemma add_token_pend ts t ts' : add_token ts t = Done ts' -> ts_pend ts' = ts_pend ts.
Proof. unfold add_token. destruct (tb_save _ _) as [[[tb i] b]|]; [|done]. cbn [mbind res_bind]. intros [= <-]. by destruct b. Qed.
Lemma add_finalized_pend ts a ts' : add_finalized ts a = Done ts' -> ts_pend ts' = ts_pend ts.
Proof.
  destruct a as [t|m|m q|q]; simpl; [apply add_token_pend| |by intros [= <-]|].
  - destruct (_ !! _); by intros [= <-].
  - destruct (_ !! _); [by intros [= <-]|]. destruct (tb_delete _ _); [|done]. cbn [mbind res_bind]. by intros [= <-].
Qed.
Lemma g_token_pend tb t G G' : g_token tb t G = Done G' -> tg_pend G' = tg_pend G.
Proof. unfold g_token. destruct (tb_save _ _) as [[[tb' i] b]|]; [|done]. cbn [mbind res_bind]. intros [= <-]. destruct b; simpl; lia. Qed.
Lemma g_finalized_pend ts a G G' : g_finalized ts a G = Done G' -> tg_pend G' = tg_pend G.
Proof.
  destruct a as [t|m|m q|q]; simpl; [apply g_token_pend| |by intros [= <-]|].
  - destruct (_ !! _); intros [= <-]; simpl; lia.
  - destruct (_ !! _); [intros [= <-]; simpl; lia|]. unfold g_delete. destruct (_ !! _); [|by intros [= <-]]. destruct (find_pk _ _ _) as [o|]; [|done].
    cbn [mbind res_bind]. intros [= <-]. destruct o; simpl; lia.
Qed.
Lemma g_all_pend l : forall ts ts' G G', add_all ts l = Done ts' -> g_all ts l G = Done G' -> ts_pend ts' = ts_pend ts /\ tg_pend G' = tg_pend G.
Proof.
  induction l as [|a l IH]; intros ts ts' G G'; cbn [add_all g_all]; [by intros [= <-] [= <-]|].
  destruct (add_finalized ts a) as [ts1|] eqn:H1; [|done]. destruct (g_finalized ts a G) as [G1|] eqn:HG; [|done]. cbn [mbind res_bind].
  intros H HG'. destruct (IH _ _ _ _ H HG') as [-> ->]. split; [by eapply add_finalized_pend|by eapply g_finalized_pend].
Qed.
Lemma load_tokens_pend l : forall ts m ts' G G', load_tokens ts m l = Done ts' -> g_tokens ts m l G = Done G' -> ts_pend ts' = ts_pend ts /\ tg_pend G' = tg_pend G.
Proof.
  induction l as [|v l IH]; intros ts m ts' G G'; cbn [load_tokens g_tokens]; [by intros [= <-] [= <-]|].
  destruct (from_bytes v) as [t|]; [|done]. cbn [mbind res_bind]. destruct (unwrap _) as [i|]; [|done]. cbn [mbind res_bind].
  destruct (add_token ts _) as [ts1|] eqn:H1; [|by destruct (g_token _ _ _)]. destruct (g_token _ _ _) as [G1|] eqn:HG; [|done]. cbn [mbind res_bind].
  intros H HG'. destruct (IH _ _ _ _ _ H HG') as [-> ->]. split; [by eapply add_token_pend|by eapply g_token_pend].
Qed.
(** The slot was announced before with the same parent, and every version the notification throws out is on its chain. *)
Definition no_fork (ts : tstore) (o : tsop) : Prop :=
  match o with
  | TSlot _ si Finalized => (forall b, (si_slot si, b) ∈ ts_pend ts -> ps_parent b = Some (si_parent si)) /\
      forall s pk v, version (ts_pend ts) s pk v -> s <= si_slot si -> on_chain (ts_pend ts) (si_slot si) s
  | _ => True
  end.
Lemma pend_step E X ts o ts' G G' : ts_step E X ts o = Done ts' -> g_tstep E X ts o G = Done G' -> sm_sorted (ts_pend ts) ->
  sm_sorted (ts_pend ts') /\
  (tg_pend G - Z.of_nat (held (ts_pend ts)) <= tg_pend G' - Z.of_nat (held (ts_pend ts')))%Z /\
  (no_fork ts o -> tg_pend G' - Z.of_nat (held (ts_pend ts')) = tg_pend G - Z.of_nat (held (ts_pend ts)))%Z.
Proof.
  intros H HG Hs. destruct o as [a c|a|ord si c|p b]; cbn [ts_step g_tstep] in H, HG.
  - unfold ts_update in H. unfold g_tupdate in HG. destruct (is_token ts a) as [[]|]; cbn [mbind res_bind] in H, HG; [|by simplify_eq|done].
    destruct (account_type _ _ _ _) as [[[[ty ix] ctr]|]|]; cbn [mbind res_bind] in H, HG; [|by simplify_eq|done].
    assert (forall p b, pd_insert (ts_pend ts) (d_pubkey a) ty (d_wv a) (d_slot a) = (p, b) -> sm_sorted p /\
      tg_pend (g_insert (ts_pend ts) (d_pubkey a) (d_slot a) G) = (tg_pend G + Z.of_nat (held p) - Z.of_nat (held (ts_pend ts)))%Z) as Hp.
    { intros p b Hp. pose proof (pd_insert_sorted _ (d_pubkey a) ty (d_wv a) (d_slot a) Hs) as H1.
      pose proof (held_insert (ts_pend ts) (d_pubkey a) ty (d_wv a) (d_slot a) G Hs) as H2. rewrite Hp in H1, H2. done. }
    destruct c.
    + change (ts_pend (set_ix ts ix ctr)) with (ts_pend ts) in H, HG. destruct (pd_insert _ _ _ _ _) as [p b]. destruct (Hp p b eq_refl) as [Hsp Hpp].
      cbn [mbind res_bind] in H, HG. injection H as <-. injection HG as <-. simpl. rewrite Hpp. split; [done|]. split; [lia|]. intros _. lia.
    + change (ts_pend (set_ix ts ix ctr)) with (ts_pend ts) in H, HG. destruct (pd_insert _ _ _ _ _) as [p b]. destruct (Hp p b eq_refl) as [Hsp Hpp].
      cbn [mbind res_bind] in H, HG. injection H as <-. injection HG as <-. simpl. rewrite Hpp. split; [done|]. split; [lia|]. intros _. lia.
    + destruct (add_finalized _ ty) as [ts1|] eqn:H1; [|done]. cbn [mbind res_bind] in H. injection H as <-.
      rewrite (add_finalized_pend _ _ _ H1), (g_finalized_pend _ _ _ _ HG). simpl. split; [done|]. split; [lia|]. intros _. lia.
  - unfold ts_init in H. unfold g_tinit, g_tupdate in HG. destruct (is_token ts a) as [[]|]; cbn [mbind res_bind] in H, HG; [|by simplify_eq|done].
    destruct (account_type _ _ _ _) as [[[[ty ix] ctr]|]|]; cbn [mbind res_bind] in H, HG; [|by simplify_eq|done].
    rewrite (add_finalized_pend _ _ _ H), (g_finalized_pend _ _ _ _ HG). simpl. split; [done|]. split; [lia|]. intros _. lia.
  - unfold ts_slot in H. unfold g_tslot in HG. destruct c.
    + cbn [mbind res_bind] in H. injection H as <-. injection HG as <-. simpl. rewrite held_info by done. split; [by apply pd_slot_info_sorted|]. split; [lia|]. intros _. lia.
    + destruct (pd_for_slot _ _ _) as [[p l]|] eqn:Hf; [|done]. cbn [mbind res_bind] in H. injection H as <-. injection HG as <-.
      apply pd_for_slot_pend in Hf. simpl.
      match type of Hf with context [sm_get _ ?q] => set (p0 := q) in Hf end.
      assert (sm_sorted p0 /\ held p0 = held (ts_pend ts)) as [Hs0 Hh0].
      { unfold p0. destruct (_ <? _); simpl; [|done]. split; [by apply pd_slot_info_sorted|by apply held_info]. }
      assert (sm_sorted p /\ held p = held (ts_pend ts)) as [Hsp ->].
      { subst p. destruct (sm_get _ p0); [done|]. split; [by apply pd_slot_info_sorted|]. by rewrite held_info. }
      split; [done|]. split; [lia|]. intros _. lia.
    + set (ts1 := if ts_fin ts <? si_slot si then _ else ts) in H, HG.
      assert (sm_sorted (ts_pend ts1) /\ held (ts_pend ts1) = held (ts_pend ts)) as [Hs1 Hh1].
      { unfold ts1. destruct (_ <? _); simpl; [|done]. split; [by apply pd_slot_info_sorted|by apply held_info]. }
      destruct (pd_finalize (ts_pend ts1) (si_slot si)) as [p m] eqn:Hpf. destruct (to_accts _ _) as [r|]; [|done]. cbn [mbind res_bind] in H.
      rewrite <- list_fmap_compose in H. destruct (add_all _ _) as [ts2|] eqn:H2; [|done]. cbn [mbind res_bind] in H. injection H as <-.
      destruct (g_all_pend _ _ _ _ _ H2 HG) as [-> ->]. rewrite (held_walk _ _ _ ∅). change (ts_pend (set_pend ts1 p)) with p.
      pose proof (finalize_spec (ts_pend ts1) (si_slot si) Hs1) as Hfs. rewrite Hpf in Hfs. destruct Hfs as [Hsp _]. simpl in Hsp.
      destruct (fin_walk_spec (S (length (ts_pend ts1))) (ts_pend ts1) (Some (si_slot si)) ∅ Hs1) as (Hsw & _ & H3 & H4); [lia|].
      unfold pd_finalize in Hpf. destruct (fin_walk _ _ _ _) as [p' m'] eqn:Hw. injection Hpf as <- <-.
      cbn [fst snd] in Hsw, H3, H4 |- *. rewrite Hh1. pose proof (held_pop (si_slot si) p') as Hle. split; [done|]. split; [lia|].
      intros [Hpar Hch]. rewrite held_pop_empty; [lia|]. intros k b Hkb Hk. apply (sm_get_spec _ _ _ Hsw) in Hkb. pose proof (H3 _ _ Hkb) as Hkb1.
      apply map_empty. intros pk. destruct (ps_accounts b !! pk) as [v|] eqn:Hv; [|done]. exfalso.
      assert (ts_pend ts1 = ts_pend ts \/ sm_get (si_slot si) (ts_pend ts) = None /\ ts_pend ts1 = sm_put (si_slot si) (PSlot ∅ None) (ts_pend ts)) as Hcase.
      { unfold ts1. destruct (_ <? _); [|by left]. simpl. unfold pd_slot_info. destruct (sm_get (si_slot si) (ts_pend ts)) as [b0|] eqn:Hb0; [left|by right].
        rewrite sm_put_same; [done..|]. rewrite Hb0. f_equal. apply sm_get_elem, Hpar in Hb0. destruct b0. simpl in *. by subst. }
      destruct Hcase as [Heq|[Hno Heq]].
      * assert (on_chain (ts_pend ts) (si_slot si) k) as Hoc.
        { apply (Hch k pk v); [|done]. exists b. rewrite Heq in Hkb1. split; [by apply sm_get_elem|done]. }
        assert (sm_get k p' = None) as Hn; [|congruence]. apply H4. right. exists (si_slot si). rewrite Heq. done.
      * assert (k <> si_slot si) as Hne by (intros ->; rewrite Heq, sm_get_put in Hkb1; injection Hkb1 as <-; simpl in Hv; by rewrite lookup_empty in Hv).
        rewrite Heq, sm_get_put_ne in Hkb1 by done.
        assert (on_chain (ts_pend ts) (si_slot si) k) as Hoc.
        { apply (Hch k pk v); [|done]. exists b. split; [by apply sm_get_elem|done]. }
        inversion Hoc as [s0 [b0 Hp0]|s0 s' t0 [b0 [Hb0 _]] Hoc']; subst; [done|]. by apply (proj1 (sm_get_None _ _) Hno b0).
  - unfold ts_load in H. unfold g_tload in HG. destruct (lz4_decompress X b) as [d|]; [|cbn [mbind res_bind] in H; by injection H as <-; injection HG as <-].
    destruct (d_snap d) as [[s r]|]; [|cbn [mbind res_bind] in H; by injection H as <-; injection HG as <-].
    unfold load_content in H. set (ts1 := foldl _ _ _) in H, HG. destruct (load_mints ts1 ∅ (sn_mints s)) as [ts2 m] eqn:Hm.
    destruct (load_tokens ts2 m _) as [ts3|] eqn:Ht; [|done]. cbn [mbind res_bind] in H. injection H as <-. destruct (load_tokens_pend _ _ _ _ _ _ Ht HG) as [-> ->].
    apply load_mints_table in Hm as [_ ->]. pose proof (proj2 (load_multis_table (sn_multis s) ts)) as Hf. cbv zeta in Hf. unfold ts1. rewrite Hf.
    split; [done|]. split; [lia|]. intros _. lia.
Qed.
Lemma pend_run E X l : forall ts G ts' G', g_trun E X ts G l = Done (ts', G') -> sm_sorted (ts_pend ts) ->
  (tg_pend G - Z.of_nat (held (ts_pend ts)) <= tg_pend G' - Z.of_nat (held (ts_pend ts')))%Z /\
  ((forall l1 o l2 ts1, l = l1 ++ o :: l2 -> ts_run E X ts l1 = Done ts1 -> no_fork ts1 o) ->
   tg_pend G' - Z.of_nat (held (ts_pend ts')) = tg_pend G - Z.of_nat (held (ts_pend ts)))%Z.
Proof.
  induction l as [|o l IH]; intros ts G ts' G' H Hs; cbn [g_trun] in H; [injection H as <- <-; split; [lia|done]|].
  destruct (g_tstep E X ts o G) as [G1|] eqn:HG; [|done]. cbn [mbind res_bind] in H. destruct (ts_step E X ts o) as [ts1|] eqn:H1; [|done]. cbn [mbind res_bind] in H.
  destruct (pend_step _ _ _ _ _ _ _ H1 HG Hs) as (Hs1 & Hle & Heq). destruct (IH _ _ _ _ H Hs1) as [IH1 IH2]. split; [lia|]. intros HO. rewrite IH2.
  - apply Heq. by apply (HO [] o l ts).
  - intros l1 o' l2 ts2 -> H2. apply (HO (o :: l1) o' l2 ts2); [done|]. cbn [ts_run]. by rewrite H1.
Qed.

(** ** C96.  The gauges of the token store.  "Token accounts stored" is the number of records of the table, whatever is called,
    snapshots included. *)
Theorem C96_records E X l ts G : g_trun E X ts_empty tg_zero l = Done (ts, G) -> tg_stored G = Z.of_nat (length (tb_accounts (ts_table ts))).
Proof. intros H. destruct (g_trun_run _ _ _ _ _ _ _ H) as [_ ->]. simpl. unfold recs. simpl. lia. Qed.
Print Assumptions C96_records.
(** The gauges never change what is stored. *)
Theorem C96_same_store E X l ts G : g_trun E X ts_empty tg_zero l = Done (ts, G) -> ts_run E X ts_empty l = Done ts.
Proof. intros H. by destruct (g_trun_run _ _ _ _ _ _ _ H). Qed.
Print Assumptions C96_same_store.
(** Stored minus deleted bounds the number of token accounts that can be read ... *)
Theorem C96_tokens_bounded E X l ts G ks : g_trun E X ts_empty tg_zero l = Done (ts, G) -> ops_ok l -> ts_ctr ts <= 2 ^ 32 ->
  NoDup ks -> (forall k, k ∈ ks -> kept ts k) -> (Z.of_nat (length ks) <= tg_stored G - tg_deleted G)%Z.
Proof.
  intros H Hok Hc. apply kept_bound; [|by eapply run_live_ok]. eapply run_inv; [by eapply C96_same_store|done|apply tinv_empty|done].
Qed.
Print Assumptions C96_tokens_bounded.
(** ... and is that number when keys of token accounts are used for nothing else and collide with no other account. *)
Theorem C96_tokens_partial E X l ts G ks : g_trun E X ts_empty tg_zero l = Done (ts, G) -> ops_ok l -> ts_ctr ts <= 2 ^ 32 -> tidy E l ->
  NoDup ks -> (forall k, k ∈ ks <-> is_Some (tok_state (ts_log E X ts_empty l).*1 k)) ->
  (forall k, k ∈ ks <-> kept ts k) /\ (tg_stored G - tg_deleted G)%Z = Z.of_nat (length ks).
Proof.
  intros H Hok Hc Htd Hnd Hks. pose proof (C96_same_store _ _ _ _ _ H) as Hr. pose proof (run_inv _ _ _ _ _ Hr Hok tinv_empty Hc) as Hi.
  assert (forall k, k ∈ ks <-> kept ts k) as Hk by (intros k; rewrite Hks; symmetry; by eapply kept_state). split; [done|].
  destruct (kept_positions ts ks Hi Hnd) as (ps & Hl & Hps & Hin); [intros k; by apply Hk|]. pose proof (run_live_ok _ _ _ _ _ H Hok Hc) as HP.
  unfold live_ok, live in HP. rewrite <- live_at_length in HP. rewrite <- HP, <- Hl. f_equal. apply Permutation_length, NoDup_Permutation; [|done|].
  { unfold live_at. apply NoDup_filter, NoDup_seq. }
  intros i. rewrite Hin, (live_at_elem _ _ (ti_table _ Hi)). split.
  - intros (t & Hs & Hd). pose proof (proj2 (run_live _ _ _ _ Hr Hok Hc Htd) _ _ Hs Hd) as Ha. exists (ta_pubkey t), t. split; [|done]. apply Hk, (kept_at _ _ Hi). eauto.
  - intros (k & t & _ & Ha). exists t. split; [by destruct Ha|by eapply ti_live].
Qed.
Print Assumptions C96_tokens_partial.
(** "Mints in memory" never exceeds the number of mints known ... *)
Theorem C96_mints_bounded E X l ts G ks : g_trun E X ts_empty tg_zero l = Done (ts, G) -> ops_ok l -> ts_ctr ts <= 2 ^ 32 ->
  NoDup ks -> (forall k, k ∈ ks <-> is_Some (mint_state (ts_log E X ts_empty l).*1 k)) -> (tg_mints G <= Z.of_nat (length ks))%Z.
Proof.
  intros H Hok Hc Hnd Hks. pose proof (C96_same_store _ _ _ _ _ H) as Hr. pose proof (run_inv _ _ _ _ _ Hr Hok tinv_empty Hc) as Hi.
  rewrite (mints_counted _ _ _ Hi (run_agrees _ _ _ _ Hr Hok Hc) Hnd Hks).
  eapply (g_run_ind E X mints_le (fun _ _ => True)) with (l := l) (ts := ts_empty) (G := tg_zero); try done.
  - intros ts0 o ts1 G0 G1 _ _ _ HP Hsf (_ & _ & H3). unfold mints_le in *. by rewrite (sf_mints _ _ _ _ Hsf), H3.
  - intros ts0 a ts1 G0 G1 Hi0 _ _ HP H1 H2. by eapply mints_le_step.
  - apply tinv_empty.
Qed.
Print Assumptions C96_mints_bounded.
(** ... and is that number when every mint is finalized before a token account names it. *)
Theorem C96_mints_partial E X l ts G ks : g_trun E X ts_empty tg_zero l = Done (ts, G) -> ops_ok l -> ts_ctr ts <= 2 ^ 32 -> mints_first E X l ->
  NoDup ks -> (forall k, k ∈ ks <-> is_Some (mint_state (ts_log E X ts_empty l).*1 k)) -> tg_mints G = Z.of_nat (length ks).
Proof.
  intros H Hok Hc Hmf Hnd Hks. pose proof (C96_same_store _ _ _ _ _ H) as Hr. pose proof (run_inv _ _ _ _ _ Hr Hok tinv_empty Hc) as Hi.
  rewrite (mints_counted _ _ _ Hi (run_agrees _ _ _ _ Hr Hok Hc) Hnd Hks).
  apply (g_run_ind E X mints_eq (names_known E)) with (l := l) (ts := ts_empty) (G := tg_zero); try done.
  - intros ts0 o ts1 G0 G1 _ _ Hn [HP Hall] Hsf (_ & _ & H3). unfold mints_eq in *. rewrite (sf_mints _ _ _ _ Hsf), H3. split; [done|]. intros q i Hq.
    destruct (ts_mint_ix ts0 !! q) as [j|] eqn:Hj.
    + apply (Hall q). pose proof (sf_ix _ _ _ _ Hsf _ _ Hj). congruence.
    + destruct (sf_new _ _ _ _ Hsf _ _ Hq Hj) as [_ Hnm]. destruct (Hn _ Hnm) as [? ?]. congruence.
  - intros ts0 a ts1 G0 G1 Hi0 _ _ HP H1 H2. by eapply mints_eq_step.
  - apply tinv_empty.
  - intros l1 o l2 ts1 -> H1 q Hq. destruct (Hmf l1 o l2 q eq_refl Hq) as [m Hm]. apply Forall_app in Hok as [Hok1 Hok2].
    rewrite (run_app_done _ _ _ _ _ _ H1) in Hr. apply run_ctr in Hr; [|done]. apply (run_agrees _ _ _ _ H1 Hok1) in Hm as (i & ? & _); [eauto|lia].
Qed.
Print Assumptions C96_mints_partial.
(** "Token accounts pending" never falls below the number of versions that are pending, and what it is too large by never shrinks
    again ... *)
Theorem C96_pending_bounded E X l1 l2 ts1 G1 ts2 G2 : g_trun E X ts_empty tg_zero l1 = Done (ts1, G1) -> g_trun E X ts1 G1 l2 = Done (ts2, G2) ->
  (Z.of_nat (held (ts_pend ts1)) <= tg_pend G1 /\
   tg_pend G1 - Z.of_nat (held (ts_pend ts1)) <= tg_pend G2 - Z.of_nat (held (ts_pend ts2)))%Z.
Proof.
  intros H1 H2. destruct (pend_run _ _ _ _ _ _ _ H1) as [Hle _]; [constructor|]. simpl in Hle. unfold held in Hle at 1. simpl in Hle. split; [lia|].
  apply (pend_run _ _ _ _ _ _ _ H2). clear -H1. assert (sm_sorted (ts_pend ts_empty)) as Hs by constructor. revert H1 Hs. generalize ts_empty tg_zero.
  induction l1 as [|o l IH]; intros ts G H Hs; cbn [g_trun] in H; [by injection H as <- <-|].
  destruct (g_tstep E X ts o G) as [G0|] eqn:HG; [|done]. cbn [mbind res_bind] in H. destruct (ts_step E X ts o) as [ts0|] eqn:H1; [|done]. cbn [mbind res_bind] in H.
  apply (IH _ _ H). by destruct (pend_step _ _ _ _ _ _ _ H1 HG Hs).
Qed.
Print Assumptions C96_pending_bounded.
(** ... and is that number as long as no Finalized slot notification throws out a version of another fork. *)
Theorem C96_pending_partial E X l ts G : g_trun E X ts_empty tg_zero l = Done (ts, G) ->
  (forall l1 o l2 ts1, l = l1 ++ o :: l2 -> ts_run E X ts_empty l1 = Done ts1 -> no_fork ts1 o) -> tg_pend G = Z.of_nat (held (ts_pend ts)).
Proof. intros H HO. destruct (pend_run _ _ _ _ _ _ _ H) as [_ Heq]; [constructor|]. specialize (Heq HO). simpl in Heq. unfold held in Heq at 2. simpl in Heq. lia. Qed.
Print Assumptions C96_pending_partial.

(** ** Examples and findings. *)
Definition gauges (l : list tsop) : tgauge := match g_trun E0 X0 ts_empty tg_zero l with Done (_, G) => G | Panic => tg_zero end.
Definition gran (l : list tsop) : bool := match g_trun E0 X0 ts_empty tg_zero l with Done _ => true | Panic => false end.
Lemma gauges_run l : gran l = true -> g_trun E0 X0 ts_empty tg_zero l = Done (final l, gauges l).
Proof.
  unfold gran, gauges, final. destruct (g_trun E0 X0 ts_empty tg_zero l) as [[ts G]|] eqn:H; [|done]. intros _. by rewrite (C96_same_store _ _ _ _ _ H).
Qed.
(** A mint and two token accounts arrive, one through the pending route; one is closed.  At the end an update is pending. *)
Definition life2 : list tsop := life1 ++ [TUpdate (tokd 77 1001 1002 12 13 5) Processed; TUpdate (tokd 77 1001 1002 13 13 6) Processed].
Definition mints_first_b (l : list tsop) : bool :=
  forallb (fun n => match l !! n with
    | Some o => match tok_of o with Some (_, r) => bool_decide (is_Some (mint_state (ts_log E0 X0 ts_empty (take n l)).*1 (sa_mint r))) | None => true end
    | None => true end) (seq 0 (length l)).
Lemma mints_first_check l : forallb raw_b l = true -> mints_first_b l = true -> mints_first E0 X0 l.
Proof.
  intros Hr H l1 o l2 q -> Hn. apply op_names_b with (l := l1 ++ o :: l2) in Hn; [|done|apply elem_of_app; right; left].
  unfold mints_first_b in H. rewrite forallb_forall in H. specialize (H (length l1)). rewrite list_lookup_middle, take_app in H by done.
  unfold names_b in Hn. destruct (tok_of o) as [[pk r]|]; [|done]. apply N.eqb_eq in Hn as <-. refine (proj1 (bool_decide_eq_true _) (H _)). apply in_seq. rewrite app_length. simpl. lia.
Qed.
Definition no_fork_b (p : pend) (o : tsop) : bool :=
  match o with
  | TSlot _ si Finalized => forallb (fun x => if x.1 =? si_slot si then bool_decide (ps_parent x.2 = Some (si_parent si)) else
      negb (x.1 <=? si_slot si) || bool_decide (map_to_list (ps_accounts x.2) = [])) p
  | _ => true
  end.
Lemma no_fork_check ts o : no_fork_b (ts_pend ts) o = true -> no_fork ts o.
Proof.
  destruct o as [| |ord si c|]; try done. destruct c; try done. simpl. rewrite forallb_forall. intros H. split.
  - intros b Hb. specialize (H _ (proj1 (elem_of_list_In _ _) Hb)). simpl in H. rewrite N.eqb_refl in H. by apply bool_decide_eq_true in H.
  - intros s pk v (b & Hb & Hv) Hle. pose proof (H _ (proj1 (elem_of_list_In _ _) Hb)) as Hx. simpl in Hx. destruct (N.eqb_spec s (si_slot si)) as [->|Hne].
    + constructor. by exists b.
    + apply N.leb_le in Hle. rewrite Hle in Hx. simpl in Hx. apply bool_decide_eq_true in Hx. rewrite map_to_list_empty_iff in Hx. rewrite Hx, lookup_empty in Hv. done.
Qed.
Definition no_forks_b (l : list tsop) : bool := forallb (fun n => match l !! n with Some o => no_fork_b (ts_pend (final (take n l))) o | None => true end) (seq 0 (length l)).
Lemma no_forks_check l : no_forks_b l = true -> forall l1 o l2 ts1, l = l1 ++ o :: l2 -> ts_run E0 X0 ts_empty l1 = Done ts1 -> no_fork ts1 o.
Proof.
  intros H l1 o l2 ts1 -> H1. apply no_fork_check. unfold no_forks_b in H. rewrite forallb_forall in H. specialize (H (length l1)).
  rewrite list_lookup_middle, take_app in H by done. unfold final in H. rewrite H1 in H. apply H. apply in_seq. rewrite app_length. simpl. lia.
Qed.
Example C96_example_hyps : g_trun E0 X0 ts_empty tg_zero life2 = Done (final life2, gauges life2) /\ ops_ok life2 /\ ts_ctr (final life2) <= 2 ^ 32 /\
  tidy E0 life2 /\ mints_first E0 X0 life2 /\ (forall l1 o l2 ts1, life2 = l1 ++ o :: l2 -> ts_run E0 X0 ts_empty l1 = Done ts1 -> no_fork ts1 o).
Proof.
  split; [apply gauges_run; by vm_compute|]. split; [apply Forall_app; split; [apply life1_ok|repeat constructor]|]. split; [by vm_compute|].
  split; [apply tidy_check; by vm_compute|]. split; [apply mints_first_check; by vm_compute|]. apply no_forks_check. by vm_compute.
Qed.
(** Two records, one of them deleted, one mint, one pending version (of the two deliveries in slot 13). *)
Example C96_example : gauges life2 = TGauge 2 1 1 1 /\ (forall k, k ∈ [77] -> kept (final life2) k) /\ held (ts_pend (final life2)) = 1%nat /\
  tg_pend (gauges (take 3 life2)) = 1%Z /\ tg_pend (gauges (take 5 life2)) = 0%Z.
Proof.
  split; [by vm_compute|]. split; [intros k ->%elem_of_list_singleton; eexists; by vm_compute|]. split; [by vm_compute|]. split; by vm_compute.
Qed.
Example C96_example_keys k : k ∈ [77] <-> is_Some (tok_state (ts_log E0 X0 ts_empty life2).*1 k).
Proof.
  rewrite elem_of_list_singleton. split; [intros ->; vm_compute; eauto|]. intros [t Ht]. destruct (tok_state_in _ _ _ Ht) as [Hin Hk].
  assert (Forall (fun x => match x with TPToken t => ta_pubkey t = 77 \/ ta_pubkey t = 78 | _ => True end) (ts_log E0 X0 ts_empty life2).*1) as Hf by (vm_compute; repeat constructor; auto).
  rewrite Forall_forall in Hf. apply Hf in Hin. rewrite Hk in Hin. destruct Hin as [->| ->]; [done|]. vm_compute in Ht. done.
Qed.
(** Without the conditions the gauges are wrong.  A record that another account of the same key prefix made unreachable stays counted. *)
Theorem C96_tokens_refuted : exists l, ops_ok l /\ g_trun E0 X0 ts_empty tg_zero l = Done (final l, gauges l) /\ ts_ctr (final l) <= 2 ^ 32 /\
  tg_stored (gauges l) = 1%Z /\ tg_deleted (gauges l) = 0%Z /\ forall k, ~ kept (final l) k.
Proof.
  exists wipe1. split; [repeat constructor|]. split; [apply gauges_run; by vm_compute|]. split; [by vm_compute|]. split; [by vm_compute|]. split; [by vm_compute|].
  intros k [t Ht]. unfold tb_get in Ht. assert (tb_index (ts_table (final wipe1)) = ∅) as Hn by (apply map_to_list_empty_iff; by vm_compute). by rewrite Hn, lookup_empty in Ht.
Qed.
Print Assumptions C96_tokens_refuted.
(** A mint that a token account names first is not counted when it arrives but is when it is closed: the gauge goes below zero. *)
Definition mint_late : list tsop := [TUpdate (tokd 77 1001 1002 5 10 1) Finalized; TUpdate (mintd 1001 50 11 2) Finalized; TUpdate (closed 1001 12 3) Finalized].
Theorem C96_mints_refuted : exists l, ops_ok l /\ g_trun E0 X0 ts_empty tg_zero l = Done (final l, gauges l) /\ ts_ctr (final l) <= 2 ^ 32 /\
  is_Some (mint_state (ts_log E0 X0 ts_empty (take 2 l)).*1 1001) /\ tg_mints (gauges (take 2 l)) = 0%Z /\ tg_mints (gauges l) = (-1)%Z.
Proof.
  exists mint_late. split; [repeat constructor|]. split; [apply gauges_run; by vm_compute|]. split; [by vm_compute|]. split; [vm_compute; eauto|]. split; by vm_compute.
Qed.
Print Assumptions C96_mints_refuted.
(** A version of an abandoned fork stays counted as pending for ever. *)
Definition forked : list tsop :=
  [TInit (mintd 1001 50 1 1); TUpdate (tokd 77 1001 1002 5 10 1) Processed; TSlot ord0 (SlotInfo 10 9 0) Processed; TSlot ord0 (SlotInfo 11 9 0) Processed; TSlot ord0 (SlotInfo 11 9 0) Finalized].
Theorem C96_pending_refuted : exists l, ops_ok l /\ g_trun E0 X0 ts_empty tg_zero l = Done (final l, gauges l) /\ ts_ctr (final l) <= 2 ^ 32 /\
  held (ts_pend (final l)) = 0%nat /\
  forall l2 ts2 G2, g_trun E0 X0 (final l) (gauges l) l2 = Done (ts2, G2) -> (Z.of_nat (held (ts_pend ts2)) < tg_pend G2)%Z.
Proof.
  assert (gran forked = true) as Hg by (by vm_compute). exists forked. split; [repeat constructor; simpl; try done; intros m; done|]. split; [by apply gauges_run|]. split; [by vm_compute|].
  split; [by vm_compute|]. intros l2 ts2 G2 H2. destruct (C96_pending_bounded _ _ _ _ _ _ _ _ (gauges_run _ Hg) H2) as [_ Hle].
  assert (tg_pend (gauges forked) = 1%Z /\ held (ts_pend (final forked)) = 0%nat) as [H1 H0] by (split; by vm_compute). rewrite H1, H0 in Hle. lia.
Qed.
Print Assumptions C96_pending_refuted.
Example C96_example_mints k : k ∈ [1001] <-> is_Some (mint_state (ts_log E0 X0 ts_empty life2).*1 k).
Proof.
  rewrite elem_of_list_singleton. split; [intros ->; vm_compute; eauto|]. intros [m Hm].
  assert (agrees (final life2) (ts_log E0 X0 ts_empty life2).*1) as [_ Ha].
  { apply run_agrees; [apply final_run; by vm_compute|apply C96_example_hyps|by vm_compute]. }
  apply Ha in Hm as (i & Hi & _). assert (map_to_list (ts_mint_ix (final life2)) = [(1001, 0)]) as Hl by (by vm_compute).
  apply elem_of_map_to_list in Hi. pose proof (eq_ind _ (fun l => (k, i) ∈ l) Hi _ Hl) as Hi'.
  apply elem_of_list_singleton in Hi'. by injection Hi'.
Qed.

(** ** C97.  The memory of the token table: records are never given back ... *)
Theorem C97_table_never_shrinks E X l1 l2 ts1 ts2 : ts_run E X ts_empty l1 = Done ts1 -> ops_ok l1 -> ops_ok l2 -> ts_run E X ts1 l2 = Done ts2 -> ts_ctr ts2 <= 2 ^ 32 ->
  (length (tb_accounts (ts_table ts1)) <= length (tb_accounts (ts_table ts2)))%nat.
Proof.
  intros H1 Hok1 Hok2 H2 Hc. pose proof (run_ctr _ _ _ _ _ H2 Hok2) as Hle. assert (tinv ts1) as Hi by (eapply run_inv; [done..|apply tinv_empty|lia]).
  refine (run_ind E X (fun ts _ => (length (tb_accounts (ts_table ts1)) <= length (tb_accounts (ts_table ts)))%nat) (fun _ => True) (fun _ => True)
    _ _ l2 ts1 ts2 [] H2 Hok2 _ _ Hi Hc _); [| | | |done].
  - intros ts o ts' _ _ _ _ HP Hs. by rewrite (sf_table _ _ _ _ Hs).
  - intros ts a ts' _ Hi0 Hc0 Ha _ HP H. etrans; [exact HP|]. destruct a as [t|m|m q|q]; simpl in H.
    + pose proof (tpa_ok_good _ _ Ha Hc0) as Hg. unfold add_token in H. destruct (tb_save_spec _ t (ti_table _ Hi0) Hg) as (tb & i & b & Hs & _ & _ & _ & _ & _ & _ & Hlen).
      rewrite Hs in H. cbn [mbind res_bind] in H. injection H as <-. by destruct b.
    + by destruct (_ !! _); injection H as <-.
    + by injection H as <-.
    + destruct (_ !! _); [by injection H as <-|]. destruct (tb_delete _ _) as [tb|] eqn:Hd; [|done]. cbn [mbind res_bind] in H. injection H as <-. simpl.
      by rewrite (tb_delete_len _ _ _ Hd).
  - by apply Forall_true.
  - by apply Forall_true.
Qed.
Print Assumptions C97_table_never_shrinks.
(** ... and a token account opened and closed [n] times leaves [n] records behind. *)
Definition open77 : tsop := TUpdate (tokd 77 1001 1002 5 10 1) Finalized.
Definition close77 : tsop := TUpdate (closed 77 11 2) Finalized.
Fixpoint tok_reopened (n : nat) : list tsop := match n with O => [] | S n' => open77 :: close77 :: tok_reopened n' end.
Definition tok77 : token_account := of_spl_account TokenP (tokd 77 1001 1002 5 10 1) (SplAccount 1001 1002 5 None Init None 0 None) 0 None.
Lemma tok_type E a ix ctr v s i : (d_lamports a =? 0) = false -> d_owner a = spl_token_id -> data_len (d_data a) = 165 -> data_bytes E (d_data a) = Done v ->
  unpack_account v = Some s -> ix !! sa_mint s = Some i -> account_type E a ix ctr = Done (Some (TPToken (of_spl_account TokenP a s i None), ix, ctr)).
Proof.
  intros H1 H2 H3 H4 H5 H6. unfold account_type. rewrite H1, H2, N.eqb_refl. cbn [orb andb negb]. rewrite H3.
  assert ((spl_token_id =? spl_2022_id) = false) as -> by (by vm_compute). rewrite H4. cbn [mbind res_bind]. cbv zeta.
  change (165 =? 82) with false. change (165 =? 165) with true. cbv iota. rewrite H5. unfold mint_index. by rewrite H6.
Qed.
Lemma tok77_type ix ctr : ix !! 1001 = Some 0 -> account_type E0 (tokd 77 1001 1002 5 10 1) ix ctr = Done (Some (TPToken tok77, ix, ctr)).
Proof.
  intros Hix. unfold tok77. eapply tok_type; [by vm_compute|done|by vm_compute|reflexivity|by vm_compute|exact Hix].
Qed.
Definition at_rest (n : nat) (ts : tstore) : Prop := ts_mint_ix ts !! (1001 : pubkey) = Some 0 /\ ts_mint_ix ts !! (77 : pubkey) = None /\ tb_index (ts_table ts) = ∅ /\ length (tb_accounts (ts_table ts)) = n.
Lemma reopen_once n ts : at_rest n ts -> exists ts1 ts2, ts_step E0 X0 ts open77 = Done ts1 /\ ts_step E0 X0 ts1 close77 = Done ts2 /\ at_rest (S n) ts2.
Proof.
  intros (H1 & H2 & H3 & H4).
  assert (good tok77) as Hg.
  { split; [|done]. unfold ta_ok. split_and!; [by vm_compute..|intros d ? Hd|intros m Hd|intros p Hd]; vm_compute in Hd; done. }
  assert (ts_step E0 X0 ts open77 = Done (set_table (set_ix ts (ts_mint_ix ts) (ts_ctr ts)) (push_at 0 n (ts_by_mint ts)) (push_at (prefix4 1002) n (ts_by_owner ts))
    (Table {[prefix4 77 := [n]]} (tb_accounts (ts_table ts) ++ [to_bytes tok77])))) as Hs1.
  { unfold open77. cbn [ts_step]. unfold ts_update, is_token. change (d_owner (tokd 77 1001 1002 5 10 1) =? spl_token_id) with true. rewrite orb_true_r. simpl orb.
    cbn [mbind res_bind]. rewrite (tok77_type _ _ H1). cbn [mbind res_bind]. unfold add_finalized, add_token, tb_save. change (ts_table (set_ix ts (ts_mint_ix ts) (ts_ctr ts))) with (ts_table ts).
    change (ta_pubkey tok77) with 77. rewrite H3, lookup_empty, H4. cbn [mbind res_bind]. done. }
  eexists. eexists. split; [exact Hs1|]. set (tb := Table {[prefix4 77 := [n]]} (tb_accounts (ts_table ts) ++ [to_bytes tok77])) in *.
  assert (find_pk (tb_accounts tb) 77 [n] = Done (Some n)) as Hf.
  { cbn [find_pk tb tb_accounts]. rewrite lookup_app_r, H4, Nat.sub_diag by lia. cbn [lookup list_lookup unwrap mbind res_bind]. rewrite (good_peek _ Hg). done. }
  assert (tb_delete tb 77 = Done (Table (delete (prefix4 77) {[prefix4 77 := [n]]}) (<[n := to_bytes deleted_account]> (tb_accounts tb)))) as Hd.
  { unfold tb_delete. change (tb_index tb) with ({[prefix4 77 := [n]]} : gmap N (list nat)). rewrite lookup_singleton, Hf. done. }
  split.
  - unfold close77. cbn [ts_step]. unfold ts_update, is_token. change (d_pubkey (closed 77 11 2)) with 77. cbn [ts_mint_ix ts_multi set_table set_ix ts_table].
    assert (tb_contains tb 77 = Done (Some n)) as -> by (unfold tb_contains, tb; cbn [tb_index]; rewrite lookup_singleton; done).
    assert (forall b, (if b : bool then Done true else Done true : res bool) = Done true) as Hb by (by intros []).
    cbn [mbind res_bind]. rewrite Hb. cbn [mbind res_bind]. unfold account_type. change (d_lamports (closed 77 11 2) =? 0) with true. cbn [orb mbind res_bind].
    unfold add_finalized. cbn [ts_mint_ix set_ix ts_table set_table d_pubkey]. change (d_pubkey (closed 77 11 2)) with 77. rewrite H2, Hd. cbn [mbind res_bind]. reflexivity.
  - split; [done|]. split; [done|]. split; [cbn; apply delete_singleton|]. cbn. rewrite insert_length, app_length. simpl. lia.
Qed.
Lemma reopen_run m n ts : at_rest n ts -> exists ts', ts_run E0 X0 ts (tok_reopened m) = Done ts' /\ at_rest (n + m) ts'.
Proof.
  revert n ts. induction m as [|m IH]; intros n ts H; [exists ts; by rewrite Nat.add_0_r|]. destruct (reopen_once n ts H) as (ts1 & ts2 & H1 & H2 & H3).
  destruct (IH _ _ H3) as (ts' & Hr & Ht). exists ts'. cbn [tok_reopened ts_run]. rewrite H1. cbn [mbind res_bind]. rewrite H2. cbn [mbind res_bind]. split; [done|].
  by replace (n + S m)%nat with (S n + m)%nat by lia.
Qed.
Theorem C97_records_never_reused_refuted : forall n, exists l ts, ops_ok l /\ ts_run E0 X0 ts_empty l = Done ts /\ token_key E0 l 77 /\
  (forall pk, token_key E0 l pk -> pk = 77) /\ (forall k, ~ kept ts k) /\ length (tb_accounts (ts_table ts)) = S n.
Proof.
  intros n. set (l0 := [TInit (mintd 1001 50 1 1)]). assert (at_rest 0 (final l0)) as H0 by (split_and!; [by vm_compute|by vm_compute|done|by vm_compute]).
  destruct (reopen_run (S n) 0 _ H0) as (ts & Hr & _ & _ & H3 & H4). exists (l0 ++ tok_reopened (S n)), ts.
  assert (forall m, Forall (fun o => raw_b o = true /\ op_ok o /\ match tok_of o with Some (k, _) => k = 77 | None => True end) (tok_reopened m)) as Hall.
  { clear. induction m as [|m IH]; [constructor|]. cbn [tok_reopened]. constructor; [split; [done|]; split; [done|by vm_compute]|]. constructor; [split; [done|]; split; [done|by vm_compute]|exact IH]. }
  split; [apply Forall_app; split; [repeat constructor|]; eapply Forall_impl; [apply Hall|]; intros o (_ & ? & _); done|].
  assert (ts_run E0 X0 ts_empty l0 = Done (final l0)) as Hr0 by (apply final_run; by vm_compute).
  split; [rewrite (run_app_done _ _ _ _ _ _ Hr0); exact Hr|]. split; [|split; [|split]].
  - exists open77, (SplAccount 1001 1002 5 None Init None 0 None). split; [right; left|]. eexists _, _. split; [done|]. split; [done|]. split; [done|]. by vm_compute.
  - intros pk (o & r & Ho & Hop). assert (forallb raw_b (l0 ++ tok_reopened (S n)) = true) as Hraw.
    { apply forallb_forall. intros x Hx%elem_of_list_In. apply elem_of_app in Hx as [->%elem_of_list_singleton|Hx]; [done|]. pose proof (Hall (S n)) as Ha. rewrite Forall_forall in Ha. by apply Ha. }
    apply (op_token_b _ Hraw _ _ _ Ho) in Hop. apply elem_of_app in Ho as [->%elem_of_list_singleton|Hx]; [by vm_compute in Hop|].
    pose proof (Hall (S n)) as Ha. rewrite Forall_forall in Ha. destruct (Ha _ Hx) as (_ & _ & Hk). by rewrite Hop in Hk.
  - intros k [t Ht]. unfold tb_get in Ht. by rewrite H3, lookup_empty in Ht.
  - done.
Qed.
Print Assumptions C97_records_never_reused_refuted.
Example C97_table_example : ts_run E0 X0 ts_empty (take 6 life1) = Done (final (take 6 life1)) /\ ts_run E0 X0 (final (take 6 life1)) (drop 6 life1) = Done (final life1) /\
  ts_ctr (final life1) <= 2 ^ 32 /\ length (tb_accounts (ts_table (final (take 2 life1)))) = 1%nat /\ length (tb_accounts (ts_table (final (take 6 life1)))) = 2%nat /\
  length (tb_accounts (ts_table (final life1))) = 2%nat.
Proof. split; [apply final_run; by vm_compute|]. split; [rewrite <- (take_drop 6 life1) at 2; apply final_app; by vm_compute|]. split_and!; by vm_compute. Qed.
