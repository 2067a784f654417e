(** Panics of the token program store (C50). *)
From Verif Require Import Base SMap DataModel BincodeModel BincodeProofs FilterModel FilterProofs StoreModel TokenModel TokenProofs TokenProps SplModel SplProofs TokenUtilsModel
  TokenUtilsProofs TokenPendModel TokenPendSpec TokenPendProofs TokenPendProps TokenUtilsProps TokenStoreModel TokenStoreSpec TokenStoreProofs TokenStoreViews TokenStoreProps TokenStoreOrder
  TokenStoreQuery TokenStoreQueryProps.
#[local] Arguments le : simpl never.
#[local] Arguments unle : simpl never.
#[local] Opaque to_bytes from_bytes peek_pubkey.

(** ** Single calls *)
(** The data of the account can be read and has the length it claims. *)
Definition readable (E : ext) (a : acct) : Prop := exists v, data_bytes E (d_data a) = Done v /\ lenN v = data_len (d_data a).
Lemma account_type_done E a ix ctr : readable E a -> exists r, account_type E a ix ctr = Done r.
Proof.
  intros (v & Hv & Hlen). unfold account_type. rewrite <- Hlen, Hv. destruct (_ || _); [eauto|]. cbn [mbind res_bind].
  assert (165 <? lenN v = true -> exists x, v !! 165%nat = Some x) as H165.
  { intros Hl. apply N.ltb_lt in Hl. apply lookup_lt_is_Some_2. unfold lenN in Hl. lia. }
  destruct (d_owner a =? spl_2022_id).
  - destruct (lenN v =? 82); [eauto|]. destruct (lenN v =? 165); [eauto|]. destruct (lenN v =? 355); [eauto|].
    destruct (165 <? lenN v); [|eauto]. destruct H165 as [x Hx]; [done|]. rewrite Hx. cbn [unwrap mbind res_bind].
    destruct (b2n x =? 1); [eauto|]. destruct (b2n x =? 2); eauto.
  - destruct (lenN v =? 82); [eauto|]. destruct (lenN v =? 165); eauto.
Qed.
Lemma tpa_to_acct_done c a slot wv (mints : gmap N mint_account) : tpa_ok c a -> (forall t, a = TPToken t -> is_Some (mints !! ta_mint t)) -> exists r, tpa_to_acct a slot wv mints = Done r.
Proof.
  intros Hok Hm. destruct a as [t|m|m q|q]; simpl; [|eauto| |eauto].
  - unfold token_to_acct. destruct (ta_deleted t); [eauto|]. destruct (Hm t eq_refl) as [m ->]. cbn [unwrap mbind res_bind]. eauto.
  - unfold multisig_to_acct. simpl in Hok. rewrite (proj2 (Nat.leb_le _ _)) by done. cbn [mbind res_bind]. eauto.
Qed.
Lemma to_accts_done c (mints : gmap N mint_account) l : (forall x, x ∈ l -> tpa_ok c x.1.1) -> (forall t s wv, (TPToken t, s, wv) ∈ l -> is_Some (mints !! ta_mint t)) -> exists r, to_accts mints l = Done r.
Proof.
  induction l as [|[[a s] wv] l IH]; intros H1 H2; simpl; [eauto|].
  destruct (tpa_to_acct_done c a s wv mints) as [r Hr]; [apply (H1 (a, s, wv)); left|intros t ->; eapply H2; left|]. rewrite Hr. cbn [mbind res_bind].
  destruct IH as [r' Hr']; [intros x Hx; apply H1; by right|intros t s' wv' Hx; eapply H2; by right|]. rewrite Hr'. cbn [mbind res_bind]. eauto.
Qed.
Lemma add_finalized_done ts a : tb_ok (ts_table ts) -> (forall t, a = TPToken t -> good t) -> exists ts', add_finalized ts a = Done ts' /\ tb_ok (ts_table ts').
Proof.
  intros Hok Hg. destruct a as [t|m|m q|q]; simpl.
  - unfold add_token. destruct (tb_save_spec _ t Hok (Hg t eq_refl)) as (tb & i & b & -> & Htb & _). cbn [mbind res_bind]. destruct b; eauto.
  - destruct (_ !! _); eauto.
  - eauto.
  - destruct (_ !! _); [eauto|]. destruct (tb_delete_spec _ q Hok) as (tb & -> & Htb & _). cbn [mbind res_bind]. eauto.
Qed.
Lemma add_all_done l ts : tb_ok (ts_table ts) -> (forall t, TPToken t ∈ l -> good t) -> exists ts', add_all ts l = Done ts'.
Proof.
  revert ts. induction l as [|a l IH]; intros ts Hok Hg; simpl; [eauto|].
  destruct (add_finalized_done ts a Hok) as (ts1 & -> & Hok1); [intros t ->; apply Hg; left|]. cbn [mbind res_bind]. apply IH; [done|]. intros t Ht. apply Hg. by right.
Qed.
Lemma is_token_done ts a : tb_ok (ts_table ts) -> exists b, is_token ts a = Done b.
Proof.
  intros Hok. unfold is_token. destruct (_ || _); [eauto|]. destruct (rep_exists (ts_table ts) Hok) as [m Hm].
  destruct (tb_contains_spec _ m (d_pubkey a) Hok Hm) as (o & -> & _). cbn [mbind res_bind]. eauto.
Qed.

(** ** Every index has its mint *)
Section known.
Context (E : ext) (L0 : list tsop).
(** What the finalized part satisfies. *)
Record finv (ts : tstore) : Prop := FInv {
  fi_tok : forall i t, stored (ts_table ts) i t -> ta_deleted t = false -> is_Some (ts_mints ts !! ta_mint t);
  fi_ix : forall q i, ts_mint_ix ts !! q = Some i -> is_Some (ts_mints ts !! i);
  fi_from : forall q i, ts_mint_ix ts !! q = Some i -> exists o, o ∈ L0 /\ (op_names E o q \/ op_mint E o q);
}.
Lemma add_finalized_finv ts a ts' : tinv ts -> finv ts -> (forall t, a = TPToken t -> good t /\ is_Some (ts_mints ts !! ta_mint t)) ->
  (forall m, a = TPMint m -> exists o, o ∈ L0 /\ op_mint E o (ma_pubkey m)) -> (forall q, a = TPDeleted q -> ts_mint_ix ts !! q = None) ->
  add_finalized ts a = Done ts' -> finv ts' /\ forall i, is_Some (ts_mints ts !! i) -> is_Some (ts_mints ts' !! i).
Proof.
  intros Hi [F1 F2 F3] Ht Hm Hd H. destruct a as [t|m|m q|q]; simpl in H.
  - destruct (Ht t eq_refl) as [Hg Hmt]. unfold add_token in H.
    destruct (tb_save_spec _ t (ti_table _ Hi) Hg) as (tb & i & b & Hs & Htb & Hat & _ & _ & _ & Hsame & _). rewrite Hs in H. cbn [mbind res_bind] in H. injection H as <-.
    assert (forall j t', stored tb j t' -> ta_deleted t' = false -> is_Some (ts_mints ts !! ta_mint t')) as Hst.
    { intros j t' Hj Hdl. destruct (decide (j = i)) as [->|Hne]; [by rewrite (stored_fun _ _ _ _ Hj (proj1 Hat))|]. apply (F1 j); [|done].
      destruct Hj as [Hgj Hj]. split; [done|]. by rewrite <- Hsame. }
    by destruct b; (split; [constructor|]).
  - destruct (Hm m eq_refl) as (o & Ho & Hop). assert (forall i' j, is_Some (ts_mints ts !! j) -> is_Some (<[i' := m]> (ts_mints ts) !! j)) as Hmono.
    { intros i' j Hj. destruct (decide (i' = j)) as [->|]; [rewrite lookup_insert; eauto|by rewrite lookup_insert_ne]. }
    destruct (ts_mint_ix ts !! ma_pubkey m) as [k|] eqn:Hk; injection H as <-; (split; [constructor; simpl|]).
    + intros j t Hj Hdl. by eapply Hmono, F1.
    + intros q j Hq. by eapply Hmono, F2.
    + done.
    + apply Hmono.
    + intros j t Hj Hdl. by eapply Hmono, F1.
    + intros q j Hq. apply lookup_insert_Some in Hq as [[<- <-]|[_ Hq]]; [rewrite lookup_insert; eauto|by eapply Hmono, F2].
    + intros q j Hq. apply lookup_insert_Some in Hq as [[<- <-]|[_ Hq]]; [eauto|by eapply F3].
    + apply Hmono.
  - injection H as <-. by split; [constructor|].
  - rewrite (Hd q eq_refl) in H. destruct (tb_delete _ _) as [tb|] eqn:Hdel; [|done]. cbn [mbind res_bind] in H. injection H as <-. split; [|done]. constructor; simpl; try done.
    intros j t Hj Hdl. destruct (stored_deleted_pos _ _ _ _ (ti_table _ Hi) Hdel t Hj) as [Hj'| ->]; [by eapply F1|done].
Qed.
(** Tokens waiting to be finalized have their mint as well. *)
Record kinv (ts : tstore) : Prop := KInv {
  ki_fin : finv ts;
  ki_pend : forall s pk v t, version (ts_pend ts) s pk v -> v.1 = TPToken t -> is_Some (ts_mints ts !! ta_mint t);
  ki_orig : forall s pk v, version (ts_pend ts) s pk v -> exists o, o ∈ L0 /\ comes_from E o v.1;
  ki_before : parents_before (ts_pend ts);
}.
Lemma add_all_finv l ts ts' : tinv ts -> ts_ctr ts' <= 2 ^ 32 -> finv ts -> Forall (tpa_ok (ts_ctr ts)) l -> mints_stay E L0 ->
  (forall x, x ∈ l -> exists o, o ∈ L0 /\ comes_from E o x) -> (forall t, TPToken t ∈ l -> is_Some (ts_mints ts !! ta_mint t)) ->
  add_all ts l = Done ts' -> finv ts' /\ forall i, is_Some (ts_mints ts !! i) -> is_Some (ts_mints ts' !! i).
Proof.
  intros Hi Hc Hf Hok Hst. revert ts Hi Hf Hok. induction l as [|a l IH]; intros ts Hi Hf Hok Ho Ht H; cbn [add_all] in H; [by injection H as <-|].
  apply Forall_cons in Hok as [Ha Hok]. destruct (add_finalized ts a) as [ts1|] eqn:H1; [|done]. cbn [mbind res_bind] in H.
  pose proof (add_finalized_ctr _ _ _ H1) as Hc1. pose proof (add_all_ctr _ _ _ H) as Hc2.
  destruct (add_finalized_inv ts a Hi Ha) as (ts2 & H2 & Hi1 & _); [lia|]. rewrite H1 in H2. injection H2 as <-.
  destruct (add_finalized_finv ts a ts1 Hi Hf) as [Hf1 Hm1]; [| | |done|].
  - intros t ->. split; [eapply tpa_ok_good; [done|lia]|]. apply Ht. left.
  - intros m ->. destruct (Ho (TPMint m)) as (o & ? & Hcf); [left|]. exists o. split; [done|]. by apply comes_mint.
  - intros q ->. destruct (ts_mint_ix ts !! q) as [i|] eqn:Hq; [|done]. destruct (fi_from _ Hf _ _ Hq) as (o & Hin & Hn).
    destruct (Ho (TPDeleted q)) as (o' & Hin' & Hcf); [left|]. apply comes_closes in Hcf. by destruct (Hst o o' q Hin Hin' Hn).
  - destruct (IH ts1) as [IH1 IH2]; try done.
    + eapply Forall_impl; [exact Hok|]. intros x Hx. by eapply tpa_ok_mono.
    + intros x Hx. apply Ho. by right.
    + intros t Hx. apply Hm1, Ht. by right.
    + split; [done|]. intros i Hx. by apply IH2, Hm1.
Qed.

(** The mint of every delivered token account is known. *)
Definition names_known (ts : tstore) (o : tsop) : Prop := forall q, op_names E o q -> is_Some (ts_mint_ix ts !! q).
Lemma now_known ts ts' o t : tinv ts -> finv ts -> names_known ts o -> comes_now E ts ts' o (TPToken t) -> is_Some (ts_mints ts !! ta_mint t).
Proof.
  intros Hi Hf Hk (a & ix' & ctr' & Ho & Hp & Ht & Hix).
  apply account_type_inv in Ht as [(? & _)|[Hl (p & v & Hw & Hv & [(m' & y & Hu & ? & _)|[(m' & Hu & ? & _)|(s & i & Hu & Hmi & [= ->])]])]]; try done.
  destruct (Hk (sa_mint s)) as [j Hj]; [by exists a, v, s|]. unfold mint_index in Hmi. rewrite Hj in Hmi. injection Hmi as <- _ _.
  cbn [of_spl_account ta_mint]. by apply (fi_ix _ Hf (sa_mint s)).
Qed.
Definition parent_ok (o : tsop) : Prop := match o with TSlot _ si _ => si_parent si < si_slot si | _ => True end.
Lemma step_before X ts o ts' : ts_step E X ts o = Done ts' -> op_ok o -> tinv ts -> parent_ok o -> parents_before (ts_pend ts) -> parents_before (ts_pend ts').
Proof.
  intros H Hok Hi Hpo Hpb. pose proof (ti_sorted _ Hi) as Hs. destruct o as [a c|a|ord si c|p b]; simpl in H, Hok; [| | |done].
  - unfold ts_update in H. destruct (is_token ts a) as [[]|]; [|by injection H as <-|done].
    cbn [mbind res_bind] in H. destruct (account_type _ _ _ _) as [[[[ty ix] ctr]|]|] eqn:Ht; [|by injection H as <-|done].
    cbn [mbind res_bind] in H. assert (parents_before (pd_insert (ts_pend ts) (d_pubkey a) ty (d_wv a) (d_slot a)).1) as Hp1.
    { intros s s' Hp. apply (insert_parent _ _ _ _ _ _ _ Hs) in Hp. by apply Hpb. }
    destruct c; cbn [set_ix ts_pend] in H.
    1, 2: destruct (pd_insert _ _ _ _ _) as [p b0]; by injection H as <-.
    destruct (add_finalized _ ty) as [ts1|] eqn:H1; [|done]. cbn [mbind res_bind] in H. injection H as <-. apply add_finalized_pend in H1. by rewrite H1.
  - unfold ts_init in H. destruct (is_token ts a) as [[]|]; [|by injection H as <-|done].
    cbn [mbind res_bind] in H. destruct (account_type _ _ _ _) as [[[[ty ix] ctr]|]|] eqn:Ht; [|by injection H as <-|done].
    cbn [mbind res_bind] in H. apply add_finalized_pend in H. by rewrite H.
  - simpl in Hpo. pose proof (info_before _ _ Hs Hpb Hpo) as Hpb'. pose proof (pd_slot_info_sorted _ si Hs) as Hs'.
    unfold ts_slot in H. destruct c.
    + cbn [mbind res_bind] in H. by injection H as <-.
    + set (ts1 := if ts_conf ts <? si_slot si then _ else _) in H. destruct (pd_for_slot _ _ _) as [[p l]|] eqn:Hfs; [|done]. cbn [mbind res_bind] in H. injection H as <-.
      apply pd_for_slot_pend in Hfs. assert (parents_before (ts_pend ts1) /\ sm_sorted (ts_pend ts1)) as [Hb1 Hs1]. { unfold ts1. by destruct (_ <? _). }
      subst p. destruct (sm_get _ _); [done|]. by apply info_before.
    + set (p0 := if ts_fin ts <? si_slot si then pd_slot_info (ts_pend ts) si else ts_pend ts).
      set (ts1 := if ts_fin ts <? si_slot si then _ else _) in H. assert (ts_pend ts1 = p0) as Hp0. { unfold ts1, p0. by destruct (_ <? _). }
      rewrite Hp0 in H. assert (sm_sorted p0 /\ parents_before p0) as (Hs1 & Hb0). { unfold p0. by destruct (_ <? _). }
      destruct (finalize_spec p0 (si_slot si) Hs1) as (Hs2 & Hm & Hget & Hnone).
      destruct (pd_finalize p0 (si_slot si)) as [p m]. simpl in Hs2, Hm, Hget, Hnone.
      destruct (to_accts _ _) as [r|]; [|done]. cbn [mbind res_bind] in H. destruct (add_all _ _) as [ts2|] eqn:H2; [|done].
      cbn [mbind res_bind] in H. injection H as <-. apply add_all_pend in H2. rewrite H2. intros s s' Hp. apply Hb0. by apply (parent_sub p0 p).
Qed.
Lemma step_kinv X ts o ts' : ts_step E X ts o = Done ts' -> op_ok o -> o ∈ L0 -> mints_stay E L0 -> tinv ts -> ts_ctr ts' <= 2 ^ 32 -> parent_ok o -> names_known ts o ->
  kinv ts -> kinv ts'.
Proof.
  intros H Hok Hin Hst Hi Hc Hpo Hn [K1 K2 K3 K4].
  destruct (step_shape _ _ _ _ _ H Hok Hi Hc) as (ts1 & Ha & Hi1 & Hsf & Hf).
  destruct (step_origin_now _ _ _ _ _ H Hok Hi Hc) as [Hv Hd].
  assert (finv ts1) as Hf1.
  { destruct K1 as [F1 F2 F3]. assert (forall q i, ts_mint_ix ts1 !! q = Some i -> ts_mint_ix ts !! q = Some i) as Hsub.
    { intros q i Hq. destruct (ts_mint_ix ts !! q) as [j|] eqn:Hj; [by rewrite <- (sf_ix _ _ _ _ Hsf _ _ Hj)|].
      destruct (sf_new _ _ _ _ Hsf _ _ Hq Hj) as [_ Hnm]. apply Hn in Hnm as [? ?]. congruence. }
    constructor.
    - rewrite (sf_table _ _ _ _ Hsf), (sf_mints _ _ _ _ Hsf). done.
    - rewrite (sf_mints _ _ _ _ Hsf). intros q i Hq. by eapply F2, Hsub.
    - intros q i Hq. by eapply F3, Hsub. }
  assert (forall x, x ∈ (deliveries E ts o).*1 -> exists o', o' ∈ L0 /\ comes_from E o' x) as Hor.
  { intros x Hx. destruct (Hd x Hx) as [(s & pk & v & Hy & <-)|Hy]; [by eapply K3|]. exists o. split; [done|]. exact (comes_now_from _ _ _ _ _ Hi Hy). }
  destruct (add_all_finv (deliveries E ts o).*1 ts1 ts') as [Hf' Hm']; try done.
  - intros t Hx. rewrite (sf_mints _ _ _ _ Hsf). destruct (Hd _ Hx) as [(s & pk & v & Hy & He)|Hy]; [by eapply K2|]. exact (now_known _ _ _ _ Hi K1 Hn Hy).
  - rewrite (sf_mints _ _ _ _ Hsf) in Hm'. constructor; [done| | |by eapply step_before].
    + intros s pk v t Hx Hvt. apply Hm'. destruct (Hv _ _ _ Hx) as [Hy|[Hy _]]; [by eapply K2|]. rewrite Hvt in Hy. exact (now_known _ _ _ _ Hi K1 Hn Hy).
    + intros s pk v Hx. destruct (Hv _ _ _ Hx) as [Hy|[Hy _]]; [by eapply K3|]. exists o. split; [done|]. exact (comes_now_from _ _ _ _ _ Hi Hy).
Qed.

(** *** Nothing panics in such a state *)
Definition data_ok (o : tsop) : Prop := forall a, op_acct o = Some a -> readable E a.
Lemma step_done X ts o : op_ok o -> data_ok o -> tinv ts -> ts_ctr ts <= 2 ^ 32 -> names_known ts o -> kinv ts -> exists ts', ts_step E X ts o = Done ts'.
Proof.
  intros Hok Hdo Hi Hc Hn [K1 K2 K3 K4]. pose proof (ti_sorted _ Hi) as Hs. pose proof (ti_table _ Hi) as Htb.
  assert (forall a ty ix ctr, op_acct o = Some a -> d_pubkey a < 2 ^ 256 -> account_type E a (ts_mint_ix ts) (ts_ctr ts) = Done (Some (ty, ix, ctr)) -> forall t, ty = TPToken t -> good t) as Hgood.
  { intros a ty ix ctr Ho Hp Ht t ->. destruct (accepted_ok _ _ _ _ _ _ _ Ht Hp (ti_ix _ Hi)) as (_ & _ & Hg & _).
    apply (tpa_ok_good (ts_ctr ts)); [|done]. destruct Hg as (Hg1 & Hg2 & Hg3). split; [done|]. split; [|done]. split; [|apply Hg2].
    destruct (now_known ts (set_ix ts ix ctr) o t Hi K1 Hn) as [m Hm]; [exists a, ix, ctr; split; [done|]; split; [done|]; split; done|]. by eapply mints_below. }
  destruct o as [a c|a|ord si c|p b]; simpl in Hok |- *; [| | |done].
  - unfold ts_update. destruct (is_token_done ts a Htb) as [k ->]. cbn [mbind res_bind]. destruct k; [|cbn [mbind res_bind]; eauto].
    destruct (account_type_done E a (ts_mint_ix ts) (ts_ctr ts) (Hdo a eq_refl)) as [[[[ty ix] ctr]|] Ht]; rewrite Ht; cbn [mbind res_bind]; [|eauto].
    destruct c; [destruct (pd_insert _ _ _ _ _); cbn [mbind res_bind]; eauto..|].
    destruct (add_finalized_done (set_ix ts ix ctr) ty Htb (Hgood a ty ix ctr eq_refl Hok Ht)) as (ts' & -> & _). cbn [mbind res_bind]. eauto.
  - unfold ts_init. destruct (is_token_done ts a Htb) as [k ->]. cbn [mbind res_bind]. destruct k; [|eauto].
    destruct (account_type_done E a (ts_mint_ix ts) (ts_ctr ts) (Hdo a eq_refl)) as [[[[ty ix] ctr]|] Ht]; rewrite Ht; cbn [mbind res_bind]; [|eauto].
    destruct (add_finalized_done (set_ix ts ix ctr) ty Htb (Hgood a ty ix ctr eq_refl Hok Ht)) as (ts' & -> & _). eauto.
  - unfold ts_slot. destruct c; [cbn [mbind res_bind]; eauto| |].
    + set (ts1 := if ts_conf ts <? si_slot si then _ else _). assert (ts_mints ts1 = ts_mints ts /\ sm_sorted (ts_pend ts1) /\ forall s pk v, version (ts_pend ts1) s pk v -> version (ts_pend ts) s pk v) as (Hm1 & Hs1 & Hv1).
      { unfold ts1. destruct (_ <? _); [|done]. split; [done|]. split; [by apply pd_slot_info_sorted|]. intros s pk v Hv. by apply (slot_info_version _ _ _ _ _ Hs) in Hv. }
      assert (exists x, pd_for_slot (ts_pend ts1) si (ts_mints ts1) = Done x) as [[p' l'] ->].
      { unfold pd_for_slot. destruct (sm_get _ _) as [b|] eqn:Hb; [|eauto]. apply sm_get_elem in Hb.
        destruct (to_accts_done (ts_ctr ts) (ts_mints ts1) ((fun '(_, (a, wv)) => (a, si_slot si, wv)) <$> map_to_list (ps_accounts b))) as [r Hr].
        - intros x Hx. apply elem_of_list_fmap in Hx as ([pk [ty wv]] & -> & Hx). apply elem_of_map_to_list in Hx. simpl.
          apply (ti_pend _ Hi (si_slot si) pk (ty, wv)), Hv1. by exists b.
        - intros t s wv Hx. apply elem_of_list_fmap in Hx as ([pk [ty wv']] & [= <- -> ->] & Hx). apply elem_of_map_to_list in Hx. rewrite Hm1.
          apply (K2 (si_slot si) pk (TPToken t, wv') t); [|done]. apply Hv1. by exists b.
        - rewrite Hr. cbn [mbind res_bind]. eauto. }
      cbn [mbind res_bind]. eauto.
    + set (p0 := if ts_fin ts <? si_slot si then pd_slot_info (ts_pend ts) si else ts_pend ts).
      set (ts1 := if ts_fin ts <? si_slot si then _ else _). assert (ts_pend ts1 = p0 /\ ts_mints ts1 = ts_mints ts /\ ts_table ts1 = ts_table ts) as (-> & Hm1 & Ht1). { unfold ts1, p0. by destruct (_ <? _). }
      assert (sm_sorted p0 /\ forall s pk v, version p0 s pk v -> version (ts_pend ts) s pk v) as (Hs1 & Hv0).
      { unfold p0. destruct (_ <? _); [|done]. split; [by apply pd_slot_info_sorted|]. intros s pk v Hx. by apply (slot_info_version _ _ _ _ _ Hs) in Hx. }
      destruct (finalize_versions p0 (si_slot si) Hs1) as (_ & _ & Hv2). destruct (pd_finalize p0 (si_slot si)) as [p m]. simpl in Hv2.
      assert (forall x, x ∈ snd <$> ord m -> exists pk, version (ts_pend ts) x.2 pk x.1) as Hx.
      { intros x Hx. apply elem_of_list_fmap in Hx as ([pk [v s]] & -> & Hx). rewrite (Hok m) in Hx. apply elem_of_map_to_list in Hx. exists pk. by apply Hv0, Hv2. }
      destruct (to_accts_done (ts_ctr ts) (ts_mints (set_pend ts1 p)) ((fun '((ty, wv), slot) => (ty, slot, wv)) <$> (snd <$> ord m))) as [r Hr].
      { intros y Hy. apply elem_of_list_fmap in Hy as ([[ty wv] s] & -> & Hy). apply Hx in Hy as [pk Hy]. by apply (ti_pend _ Hi) in Hy as [? _]. }
      { intros t s wv Hy. apply elem_of_list_fmap in Hy as ([[ty wv'] s'] & [= <- -> ->] & Hy). apply Hx in Hy as [pk Hy]. simpl. rewrite Hm1. by eapply K2. }
      change ((λ x : pubkey * (pacct * N), x.2) <$> ord m) with (snd <$> ord m). rewrite Hr. cbn [mbind res_bind].
      destruct (add_all_done ((fun x => x.1.1) <$> (snd <$> ord m)) (set_pend ts1 p)) as [ts' Hts].
      { simpl. by rewrite Ht1. }
      { intros t Hy. apply elem_of_list_fmap in Hy as ([[ty wv'] s'] & He & Hy). simpl in He. subst ty. apply Hx in Hy as [pk Hy].
        apply (tpa_ok_good (ts_ctr ts)); [|done]. by apply (ti_pend _ Hi) in Hy as [? _]. }
      rewrite Hts. cbn [mbind res_bind]. eauto.
Qed.
Lemma get_fin_done ts pk : tinv ts -> finv ts -> exists r, get_fin ts pk = Done r.
Proof.
  intros Hi [F1 F2 F3]. unfold get_fin. destruct (ts_multi ts !! pk) as [m|] eqn:Hm.
  - unfold multisig_to_acct. rewrite (proj2 (Nat.leb_le _ _)) by (by eapply ti_multi). cbn [mbind res_bind]. eauto.
  - destruct (ts_mint_ix ts !! pk) as [i|] eqn:Hix; [destruct (F2 _ _ Hix) as [m ->]; cbn [unwrap mbind res_bind]; eauto|].
    destruct (rep_exists _ (ti_table _ Hi)) as [m0 Hrep]. rewrite (tb_get_spec _ _ pk (ti_table _ Hi) Hrep). cbn [mbind res_bind].
    destruct (m0 !! pk) as [t|] eqn:Ht; [|eauto]. destruct (ta_deleted t) eqn:Hdl; [eauto|]. apply Hrep in Ht as [i [Hst _]].
    unfold token_to_acct. rewrite Hdl. destruct (F1 _ _ Hst Hdl) as [x ->]. cbn [unwrap mbind res_bind]. eauto.
Qed.
Lemma pend_to_acct ts s pk v wv : tinv ts -> kinv ts -> version (ts_pend ts) s pk v -> exists r, tpa_to_acct v.1 s wv (ts_mints ts) = Done r.
Proof.
  intros Hi HK Hv. apply (tpa_to_acct_done (ts_ctr ts)); [by apply (ti_pend _ Hi) in Hv as [? _]|]. intros t Ht. by eapply ki_pend.
Qed.
Lemma fill_len b s pks ret : length (fill b s pks ret) = length ret.
Proof. revert ret. induction pks as [|pk pks IH]; intros [|o ret]; simpl; auto. Qed.
Lemma conf_walk_len fuel p pks cur ret r : conf_walk fuel p pks cur ret = Some r -> length r = length ret.
Proof.
  revert cur ret. induction fuel as [|fuel IH]; intros cur ret; simpl; [done|]. destruct cur as [s|]; [|by intros [= <-]]. destruct (sm_get s p) as [b|]; [|by intros [= <-]].
  destruct (all_found _); [intros [= <-]; apply fill_len|]. intros H. apply IH in H. by rewrite fill_len in H.
Qed.
Lemma read_length p pks c conf r : pd_get p pks c conf = Done r -> length r = length pks.
Proof.
  unfold pd_get, pd_get_fuel. destruct c; cbn [mbind res_bind]; [| |done].
  - assert (forall l ret r, proc_walk (S (length p)) p pks conf l ret = Some r -> length r = length ret) as Hp.
    { induction l as [|[s b] l IH]; intros ret r'; cbn [proc_walk]; [by intros [= <-]|]. destruct (conf <? s); [|apply conf_walk_len].
      destruct (all_found _); [intros [= <-]; apply fill_len|]. intros H. apply IH in H. by rewrite fill_len in H. }
    destruct (proc_walk _ _ _ _ _ _) as [x|] eqn:Hx; [|done]. intros [= <-]. apply Hp in Hx. by rewrite replicate_length in Hx.
  - destruct (conf_walk _ _ _ _ _) as [x|] eqn:Hx; [|done]. intros [= <-]. apply conf_walk_len in Hx. by rewrite replicate_length in Hx.
Qed.
Lemma read_version p pks c conf r i x : sm_sorted p -> c <> Finalized -> pd_get p pks c conf = Done r -> r !! i = Some (Some x) -> exists pk, version p x.2 pk x.1.
Proof.
  intros Hs Hc Hr Hx. pose proof (read_length _ _ _ _ _ Hr) as Hl.
  destruct (lookup_lt_is_Some_2 pks i) as [pk Hpk]; [rewrite <- Hl; by eapply lookup_lt_Some|]. exists pk. destruct c; [| |done].
  - pose proof (proc_read_spec p pks conf r Hs Hr) as H. destruct (H i pk Hpk) as (g & Hg & Hgx). rewrite Hx in Hg. injection Hg as <-.
    destruct (proj1 (Hgx x) eq_refl) as [[_ [Hv _]]|[_ Hn]]; [done|]. by apply nearest_chain in Hn as [_ ?].
  - destruct (conf_read_spec p pks conf r Hs Hr) as [_ H]. destruct (H i pk Hpk) as (g & Hg & Hgx). rewrite Hx in Hg. injection Hg as <-.
    pose proof (proj1 (Hgx x) eq_refl) as Hn. by apply nearest_chain in Hn as [_ ?].
Qed.
Lemma get_done ts pk c : tinv ts -> kinv ts -> exists r, ts_get ts pk c = Done r.
Proof.
  intros Hi HK. destruct (get_fin_done ts pk Hi (ki_fin _ HK)) as [r0 Hr0]. pose proof (ti_sorted _ Hi) as Hs.
  assert (c <> Finalized -> exists r, (l ← pd_get (ts_pend ts) [pk] c (ts_conf ts); o ← unwrap (head l);
      match o with Some ((a, _), slot) => x ← tpa_to_acct a slot 0 (ts_mints ts); Done (ROk x) | None => x ← get_fin ts pk; Done (ROk x) end) = Done r) as H.
  { intros Hc. destruct (reads_end (ts_pend ts) [pk] c (ts_conf ts) Hc Hs (before_acyclic _ (ki_before _ HK))) as [l Hl]. rewrite Hl. cbn [mbind res_bind].
    pose proof (read_length _ _ _ _ _ Hl) as Hlen.
    destruct l as [|o l]; [done|]. cbn [head unwrap mbind res_bind]. destruct o as [[[ty wv] s]|]; [|rewrite Hr0; cbn [mbind res_bind]; eauto].
    destruct (read_version _ _ _ _ _ 0%nat _ Hs Hc Hl eq_refl) as [pk' Hv]. destruct (pend_to_acct ts s pk' (ty, wv) 0 Hi HK Hv) as [x Hx]. simpl in Hx. rewrite Hx. cbn [mbind res_bind]. eauto. }
  unfold ts_get. destruct c; [by apply H|by apply H|]. rewrite Hr0. cbn [mbind res_bind]. eauto.
Qed.
Lemma tokens_done ts l : (forall t, t ∈ l -> ta_deleted t = false -> is_Some (ts_mints ts !! ta_mint t)) -> exists r, tokens_to_accts ts l = Done r.
Proof.
  induction l as [|t l IH]; intros H; simpl; [eauto|]. unfold token_to_acct. destruct IH as [r Hr]; [intros x Hx; apply H; by right|].
  destruct (ta_deleted t) eqn:Hd; [|destruct (H t) as [m ->]; [left|done|]]; cbn [unwrap mbind res_bind]; rewrite Hr; cbn [mbind res_bind]; eauto.
Qed.
Lemma keep_all_done cs l : (forall a, a ∈ l -> exists v, data_bytes E (d_data a) = Done v) -> (forall c v, c ∈ cs -> exists b, allows E c v = Done b) -> exists r, keep_all E cs l = Done r.
Proof.
  induction l as [|a l IH]; intros Hl Hcs; simpl; [eauto|]. destruct (Hl a) as [v Hv]; [left|].
  assert (all_r (fun c => d ← data_bytes E (d_data a); allows E c d) cs <> Panic) as Hk.
  { apply all_r_nopanic. intros c Hc. rewrite Hv. cbn [mbind res_bind]. by destruct (Hcs c v Hc) as [b ->]. }
  destruct (all_r _ cs) as [k|]; [|done]. cbn [mbind res_bind]. destruct IH as [r Hr]; [intros x Hx; apply Hl; by right|done|]. rewrite Hr. cbn [mbind res_bind]. eauto.
Qed.
Lemma by_index_done ts (S : gset nat) : tinv ts -> finv ts -> exists l, tb_by_index (ts_table ts) S = Done l /\ forall t, t ∈ l -> ta_deleted t = false -> is_Some (ts_mints ts !! ta_mint t).
Proof.
  intros Hi Hf. unfold tb_by_index. destruct (from_all_spec (ts_table ts) (elements S) (ti_table _ Hi) (NoDup_elements _)) as (js & l & Hl & _ & _ & Hf2 & _).
  exists l. split; [done|]. intros t Ht Hd. apply elem_of_list_lookup in Ht as [k Hk]. destruct (Forall2_lookup_r _ _ _ _ _ Hf2 Hk) as (j & _ & Hst). by eapply fi_tok.
Qed.
Lemma gpa_fin_done ts p fl : tinv ts -> finv ts -> (forall cs c v, fl = Some cs -> c ∈ cs -> exists b, allows E c v = Done b) ->
  (forall cs o m, fl = Some cs -> owner_mint_filter p cs = (Some o, Some m) -> is_Some (ts_mint_ix ts !! m)) -> exists r, gpa_fin E ts p fl = Done r.
Proof.
  intros Hi Hf Hcs Hm. unfold gpa_fin. destruct fl as [cs|]; [|eauto]. destruct (owner_mint_filter p cs) as [owner mint] eqn:Hom. destruct owner as [o|].
  - assert (exists mi, (match mint with None => Done None | Some m => i ← unwrap (ts_mint_ix ts !! m); Done (Some i) end) = Done mi) as [mi ->].
    { destruct mint as [m|]; [|eauto]. destruct (Hm cs o m eq_refl Hom) as [i ->]. cbn [unwrap mbind res_bind]. eauto. }
    cbn [mbind res_bind]. destruct (ts_by_owner ts !! _) as [ixs|]; [|eauto]. destruct (by_index_done ts (list_to_set ixs) Hi Hf) as (l & -> & Hl). cbn [mbind res_bind].
    destruct (tokens_done ts (filter (fun t => keep_token o mi t = true) l)) as [r ->]; [|cbn [mbind res_bind]; eauto].
    intros t Ht Hd. apply elem_of_list_filter in Ht as [_ Ht]. by apply Hl.
  - destruct mint as [m|].
    + destruct (ts_mint_ix ts !! m) as [i|]; [|eauto]. destruct (ts_by_mint ts !! i) as [ixs|]; [|eauto].
      destruct (by_index_done ts (list_to_set ixs) Hi Hf) as (l & -> & Hl). cbn [mbind res_bind]. destruct (tokens_done ts l Hl) as [r ->]. cbn [mbind res_bind]; eauto.
    + case_bool_decide; [|eauto]. destruct (keep_all_done cs ((fun m => mint_to_acct m.2 (ts_fin ts) 0) <$> map_to_list (ts_mints ts))) as [r ->]; [| |cbn [mbind res_bind]; eauto].
      * intros a Ha. apply elem_of_list_fmap in Ha as ([i m] & -> & _). simpl. eauto.
      * intros c v Hc. by eapply Hcs.
Qed.
Lemma overlay_done ts l ps : tinv ts -> kinv ts -> (forall i x, ps !! i = Some (Some x) -> exists pk, version (ts_pend ts) x.2 pk x.1) -> exists r, overlay (ts_mints ts) l ps = Done r.
Proof.
  intros Hi HK. revert ps. induction l as [|a l IH]; intros ps Hps; simpl; [destruct ps; eauto|]. destruct ps as [|o ps]; [eauto|].
  destruct (IH ps) as [r Hr]; [intros i x Hx; by apply (Hps (S i) x)|].
  destruct o as [[[ty wv] s]|]; cbn [mbind res_bind]; [|rewrite Hr; cbn [mbind res_bind]; eauto].
  destruct (Hps 0%nat _ eq_refl) as [pk Hv]. destruct (pend_to_acct ts s pk (ty, wv) wv Hi HK Hv) as [x Hx]. simpl in Hx. rewrite Hx. cbn [mbind res_bind]. rewrite Hr. cbn [mbind res_bind]. eauto.
Qed.
Lemma gpa_done ts p fl c : tinv ts -> kinv ts -> (forall cs d v, fl = Some cs -> d ∈ cs -> exists b, allows E d v = Done b) ->
  (forall cs o m, fl = Some cs -> owner_mint_filter p cs = (Some o, Some m) -> is_Some (ts_mint_ix ts !! m)) -> exists r, ts_gpa E ts p fl c = Done r.
Proof.
  intros Hi HK Hcs Hm. unfold ts_gpa. destruct (_ && _); [eauto|]. destruct (gpa_fin_done ts p fl Hi (ki_fin _ HK) Hcs Hm) as [r ->]. cbn [mbind res_bind].
  destruct r as [l|e]; [|eauto]. pose proof (ti_sorted _ Hi) as Hs.
  assert (c <> Finalized -> exists r, (ps ← pd_get (ts_pend ts) (d_pubkey <$> l) c (ts_conf ts); l' ← overlay (ts_mints ts) l ps; Done (ROk l')) = Done r) as H.
  { intros Hc. destruct (reads_end (ts_pend ts) (d_pubkey <$> l) c (ts_conf ts) Hc Hs (before_acyclic _ (ki_before _ HK))) as [ps Hp]. rewrite Hp. cbn [mbind res_bind].
    destruct (overlay_done ts l ps Hi HK) as [r Hr]; [intros i x Hx; by eapply read_version|]. rewrite Hr. cbn [mbind res_bind]. eauto. }
  destruct c; [by apply H|by apply H|eauto].
Qed.
End known.

(** ** C50.  In a history in which data can be read, parents come before their slots, the mint of every delivered token account was
    finalized before and never closed, and fewer than 2^32 mint indices were handed out, nothing panics: the history runs to
    its end, every account can be read at every commitment and every query is answered, unless it asks for the accounts of
    an owner and an unknown mint or has a condition that panics by itself (C07).  The full statement is false, see below. *)
Definition mints_first (E : ext) (X : lz4x) (l : list tsop) : Prop :=
  forall l1 o l2 q, l = l1 ++ o :: l2 -> op_names E o q -> is_Some (mint_state (ts_log E X ts_empty l1).*1 q).
Definition few_mints (E : ext) (X : lz4x) (l : list tsop) : Prop :=
  forall l1 l2 ts, l = l1 ++ l2 -> ts_run E X ts_empty l1 = Done ts -> ts_ctr ts <= 2 ^ 32.
Definition calm (E : ext) (X : lz4x) (l : list tsop) : Prop :=
  ops_ok l /\ Forall (data_ok E) l /\ Forall parent_ok l /\ mints_stay E l /\ mints_first E X l /\ few_mints E X l.
Lemma calm_run E X l0 l rest : l0 = l ++ rest -> calm E X l0 -> exists ts, ts_run E X ts_empty l = Done ts /\ tinv ts /\ kinv E l0 ts.
Proof.
  intros -> (H1 & H2 & H3 & H4 & H5 & H6). revert rest H1 H2 H3 H4 H5 H6. induction l as [|o l IH] using rev_ind; intros rest H1 H2 H3 H4 H5 H6.
  - exists ts_empty. split; [done|]. split; [apply tinv_empty|]. constructor; [constructor|..]; simpl.
    + intros i t [_ H]. done.
    + intros q i H. by rewrite lookup_empty in H.
    + intros q i H. by rewrite lookup_empty in H.
    + intros s pk v t (b & Hb & _). by apply elem_of_nil in Hb.
    + intros s pk v (b & Hb & _). by apply elem_of_nil in Hb.
    + intros s s' (b & Hb & _). by apply elem_of_nil in Hb.
  - rewrite <- (app_assoc l [o] rest) in *. cbn [app] in *. destruct (IH (o :: rest)) as (ts & Hr & Hi & HK); try done.
    assert (op_ok o /\ data_ok E o /\ parent_ok o) as (Ho & Hdo & Hpo).
    { split; [|split]; [eapply Forall_forall in H1|eapply Forall_forall in H2|eapply Forall_forall in H3]; try done; apply elem_of_app; right; left. }
    pose proof (H6 l (o :: rest) ts eq_refl Hr) as Hc. assert (names_known E ts o) as Hn.
    { intros q Hq. destruct (H5 l o rest q eq_refl Hq) as [m Hm]. apply Forall_app in H1 as [Hol _].
      destruct (run_agrees E X l ts Hr Hol Hc) as [_ Hag]. apply Hag in Hm as (i & Hix & _). eauto. }
    destruct (step_done E (l ++ o :: rest) X ts o Ho Hdo Hi Hc Hn HK) as [ts' Hs]. exists ts'.
    assert (ts_run E X ts_empty (l ++ [o]) = Done ts') as Hr'.
    { rewrite (run_app_done _ _ _ _ _ _ Hr). cbn [ts_run]. rewrite Hs. done. }
    assert (ts_ctr ts' <= 2 ^ 32) as Hc' by (apply (H6 (l ++ [o]) rest); [by rewrite <- app_assoc|done]).
    split; [done|]. split; [by eapply step_inv|]. eapply step_kinv; try done. apply elem_of_app. right. left.
Qed.
Theorem C50_no_panic_partial E X l : calm E X l -> exists ts, ts_run E X ts_empty l = Done ts /\
  (forall pk c, exists r, ts_get ts pk c = Done r) /\
  (forall p fl c, (forall cs d v, fl = Some cs -> d ∈ cs -> allows E d v <> Panic) ->
    (forall cs o m, fl = Some cs -> owner_mint_filter p cs = (Some o, Some m) -> is_Some (mint_state (ts_log E X ts_empty l).*1 m)) ->
    exists r, ts_gpa E ts p fl c = Done r).
Proof.
  intros H. destruct (calm_run E X l l []) as (ts & Hr & Hi & HK); [by rewrite app_nil_r|done|]. exists ts. split; [done|].
  destruct H as (H1 & _ & _ & _ & _ & H6). pose proof (H6 l [] ts) as Hc. rewrite app_nil_r in Hc. specialize (Hc eq_refl Hr).
  split; [intros pk c; by eapply get_done|]. intros p fl c Hal Hm. eapply gpa_done; [done|done| |].
  - intros cs d v Hfl Hd. specialize (Hal cs d v Hfl Hd). destruct (allows E d v); [eauto|done].
  - intros cs o m Hfl Hom. destruct (Hm cs o m Hfl Hom) as [x Hx]. destruct (run_agrees E X l ts Hr H1 Hc) as [_ Hag]. apply Hag in Hx as (i & Hix & _). eauto.
Qed.
Print Assumptions C50_no_panic_partial.
(** Reading never panics in the states on the way either: [calm] is closed under prefixes. *)
Theorem C50_prefix E X l1 l2 : calm E X (l1 ++ l2) -> calm E X l1.
Proof.
  intros (H1 & H2 & H3 & H4 & H5 & H6). apply Forall_app in H1 as [H1 _], H2 as [H2 _], H3 as [H3 _]. split; [done|]. split; [done|]. split; [done|]. split; [|split].
  - intros o o' pk Ho Ho'. apply H4; apply elem_of_app; by left.
  - intros l o l' q -> Hq. apply (H5 l o (l' ++ l2) q); [by rewrite <- app_assoc|done].
  - intros l l' ts -> Hr. apply (H6 l (l' ++ l2) ts); [by rewrite <- app_assoc|done].
Qed.
Print Assumptions C50_prefix.

(** Checking [calm] on a concrete history. *)
Definition calm2 : list tsop :=
  [TInit (mintd 1001 50 1 1); TUpdate (tokd 77 1001 1002 5 10 1) Finalized; TUpdate (tokd 78 1001 1003 6 11 2) Confirmed; TUpdate (tokd 77 1001 1002 7 11 3) Processed;
   TSlot ord0 (SlotInfo 11 10 0) Processed; TUpdate (closed 78 12 4) Processed; TSlot ord0 (SlotInfo 11 10 0) Confirmed; TSlot ord0 (SlotInfo 11 10 0) Finalized;
   TUpdate (multid 300 12 5) Processed].
Lemma run_inits l : ran l = true -> forall l1 l2 ts, l = l1 ++ l2 -> ts_run E0 X0 ts_empty l1 = Done ts -> ops_ok l -> ts_ctr ts <= ts_ctr (final l).
Proof.
  intros Hr l1 l2 ts -> H1 Hok. apply final_run in Hr. rewrite (run_app_done _ _ _ _ _ _ H1) in Hr. apply Forall_app in Hok as [_ Hok]. by eapply run_ctr.
Qed.
Example C50_example_hyps : calm E0 X0 calm2 /\
  (exists r, ts_get (final calm2) 78 Processed = Done r) /\ amount_of (ts_get (final calm2) 77 Finalized) = Some 7 /\
  owner_mint_filter spl_token_id (by_owner 1002 ++ by_mint 1001) = (Some 1002, Some 1001) /\
  (forall d v, d ∈ by_owner 1002 ++ by_mint 1001 -> allows E0 d v <> Panic).
Proof.
  assert (ops_ok calm2) as Hok by (repeat constructor; simpl; try done; intros m; done).
  split; [|split; [eexists; by vm_compute|split; [by vm_compute|split; [by vm_compute|]]]].
  - split; [done|]. split.
    { assert (forallb raw_b calm2 = true) as Hraw by done. apply Forall_forall. intros o Ho a Ha. rewrite forallb_forall in Hraw.
      specialize (Hraw o (proj1 (elem_of_list_In _ _) Ho)). unfold raw_b in Hraw. rewrite Ha in Hraw. unfold readable. destruct (d_data a) as [v| |]; try done. by exists v. }
    split; [repeat constructor|]. split; [apply stay_check; [done|by vm_compute]|]. split.
    + intros l1 o l2 q Hl Hn. unfold calm2 in Hl. destruct Hn as (a & v & r & Ha & Hv & Hu & <-).
      assert (forallb (fun k => match take 1 (drop k calm2) with
        | [o] => match tok_of o with Some (_, r) => bool_decide (is_Some (mint_state (ts_log E0 X0 ts_empty (take k calm2)).*1 (sa_mint r))) | None => true end | _ => true end) (seq 0 9) = true) as Hchk by (by vm_compute).
      rewrite forallb_forall in Hchk. assert (length l1 < 9)%nat as Hlt.
      { apply (f_equal length) in Hl. rewrite app_length in Hl. simpl in Hl. lia. }
      specialize (Hchk (length l1)). feed specialize Hchk; [apply in_seq; lia|]. fold calm2 in Hl.
      assert (take 1 (drop (length l1) calm2) = [o]) as Hto by (rewrite Hl, drop_app; done). assert (take (length l1) calm2 = l1) as Htl by (rewrite Hl, take_app; done).
      rewrite Hto, Htl in Hchk.
      assert (forallb raw_b calm2 = true) as Hraw by done. assert (o ∈ calm2) as Ho by (rewrite Hl; apply elem_of_app; right; left).
      assert (tok_of o = Some (d_pubkey a, r)) as Htok.
      { unfold tok_of. rewrite (op_raw calm2 Hraw o a v Ho Ha Hv). simpl. by rewrite Hu. }
      rewrite Htok in Hchk. by apply bool_decide_eq_true in Hchk.
    + intros l1 l2 ts Hl Hr. transitivity (ts_ctr (final calm2)); [|by vm_compute]. eapply run_inits; [by vm_compute|exact Hl|exact Hr|done].
  - intros d v Hd. unfold by_owner, by_mint in Hd. rewrite elem_of_app, !elem_of_cons, elem_of_nil in Hd.
    assert (forall m, allows E0 (MemcmpC m) v = Done (match allows E0 (MemcmpC m) v with Done b => b | Panic => false end) -> allows E0 (MemcmpC m) v <> Panic) as Hm by (intros m ->; done).
    destruct_or! Hd; subst d; try done.
Qed.

(** *** Findings *)
(** A token account of a mint the store has not seen can be stored, and then reading it panics. *)
Theorem C50_unknown_mint_refuted : exists l pk, ops_ok l /\ ts_run E0 X0 ts_empty l = Done (final l) /\ tok_state (ts_log E0 X0 ts_empty l).*1 pk <> None /\
  (forall o q, o ∈ l -> ~ op_mint E0 o q) /\ ts_get (final l) pk Finalized = Panic.
Proof.
  exists [TUpdate (tokd 77 1001 1002 5 10 1) Finalized], 77. split; [repeat constructor|]. split; [apply final_run; by vm_compute|]. split; [by vm_compute|]. split; [|by vm_compute].
  intros o q ->%elem_of_list_singleton (a & v & Ha & _ & Hv & Hu). injection Ha as <-. vm_compute in Hv. injection Hv as <-. vm_compute in Hu. by destruct Hu.
Qed.
Print Assumptions C50_unknown_mint_refuted.
Lemma to_accts_panics (mints : gmap N mint_account) l t s wv : (TPToken t, s, wv) ∈ l -> ta_deleted t = false -> mints !! ta_mint t = None -> to_accts mints l = Panic.
Proof.
  intros Hin Hd Hm. induction l as [|[[ty s'] wv'] l IH]; [by apply elem_of_nil in Hin|]. apply elem_of_cons in Hin as [[= <- <- <-]|Hin]; simpl.
  - unfold token_to_acct. by rewrite Hd, Hm.
  - destruct (tpa_to_acct _ _ _ _); [|done]. cbn [mbind res_bind]. by rewrite (IH Hin).
Qed.
(** A new mint and its first token account in one slot: finalizing (and confirming) the slot panics, in whatever order the
    map is drained: the mint only becomes known after the report was built. *)
Definition same_slot : list tsop := [TUpdate (mintd 1001 50 10 1) Confirmed; TUpdate (tokd 77 1001 1002 5 10 2) Confirmed].
Theorem C50_same_slot_refuted : ops_ok same_slot /\ ts_run E0 X0 ts_empty same_slot = Done (final same_slot) /\
  forall ord, (forall m, ord m ≡ₚ map_to_list m) -> ts_slot ord (final same_slot) (SlotInfo 10 9 0) Finalized = Panic /\ ts_slot ord (final same_slot) (SlotInfo 10 9 0) Confirmed = Panic.
Proof.
  split; [repeat constructor|]. split; [apply final_run; by vm_compute|]. intros ord Hord. split; [|by vm_compute].
  unfold ts_slot. destruct (ts_fin _ <? _); cbn [set_pend set_fin ts_pend].
  2: idtac.
  all: match goal with |- context [pd_finalize ?p ?s] => destruct (pd_finalize p s) as [p' m] eqn:Hm end.
  all: match goal with |- context [to_accts ?mm ?ll] => assert (to_accts mm ll = Panic) as ->; [|done] end.
  all: assert (exists v s, m !! 77 = Some ((TPToken v, 2), s) /\ ta_mint v = 0 /\ ta_deleted v = false) as (v & s & Hv & Hmt & Hdl).
  1, 3: pose proof (f_equal snd Hm) as Hm'; simpl in Hm'; rewrite <- Hm'; eexists _, _; split; [vm_compute; reflexivity|]; split; by vm_compute.
  all: apply (to_accts_panics _ _ v s 2); [|done|rewrite Hmt; by vm_compute].
  all: apply elem_of_list_fmap; exists ((TPToken v, 2), s); split; [done|]; apply elem_of_list_fmap; exists (77, ((TPToken v, 2), s)); split; [done|].
  all: rewrite (Hord m); by apply elem_of_map_to_list.
Qed.
Print Assumptions C50_same_slot_refuted.
(** Closing a mint makes the reads of its remaining token accounts panic. *)
Theorem C50_closed_mint_refuted : exists l pk, ops_ok l /\ ts_run E0 X0 ts_empty l = Done (final l) /\ mints_first E0 X0 l /\
  ts_get (final (take 2 l)) pk Finalized <> Panic /\ ts_get (final l) pk Finalized = Panic.
Proof.
  exists (take 3 remint), 77. split; [repeat constructor|]. split; [apply final_run; by vm_compute|]. split; [|split; by vm_compute].
  intros l1 o l2 q Hl (a & v & r & Ha & Hv & Hu & <-). destruct l1 as [|o1 [|o2 [|o3 l1]]]; simpl in Hl.
  - injection Hl as <- <-. injection Ha as <-. vm_compute in Hv. injection Hv as <-. by vm_compute in Hu.
  - injection Hl as <- <- <-. injection Ha as <-. assert (unpack_account v = Some (SplAccount 1001 1002 5 None Init None 0 None)) as Hu' by (vm_compute in Hv; injection Hv as <-; by vm_compute).
    rewrite Hu in Hu'. injection Hu' as ->. vm_compute. eauto.
  - injection Hl as <- <- <- <-. injection Ha as <-. vm_compute in Hv. injection Hv as <-. by vm_compute in Hu.
  - injection Hl as _ _ _ Hl. by destruct l1.
Qed.
Print Assumptions C50_closed_mint_refuted.
(** A query for the accounts of an owner and a mint panics when the mint is not known, even on the empty store. *)
Theorem C50_query_refuted : exists p cs, (forall d v, d ∈ cs -> allows E0 d v <> Panic) /\ ts_gpa E0 ts_empty p (Some cs) Finalized = Panic.
Proof.
  exists spl_token_id, (by_owner 1002 ++ by_mint 1001). split; [|by vm_compute]. intros d v Hd. unfold by_owner, by_mint in Hd. rewrite elem_of_app, !elem_of_cons, elem_of_nil in Hd.
  destruct_or! Hd; subst d; done.
Qed.
Print Assumptions C50_query_refuted.
(** A snapshot whose token accounts name a mint that is not in it panics when it is loaded, whatever the block codec is. *)
Theorem C50_load_refuted : exists d, forall X b p, lz4_decompress X b = Some d -> ts_load X ts_empty p b = Panic.
Proof.
  exists (e_snap (TSnap [] [] [to_bytes (TokenAccount TokenP false 77 1002 3 5 Init None None None None)])). intros X b p Hd. unfold ts_load. rewrite Hd.
  match goal with |- context [d_snap ?e] => assert (d_snap e = Some (TSnap [] [] [to_bytes (TokenAccount TokenP false 77 1002 3 5 Init None None None None)], [])) as ->; [by vm_compute|] end.
  unfold load_content. cbn [sn_multis sn_mints sn_tokens foldl load_mints load_tokens]. 
  assert (from_bytes (to_bytes (TokenAccount TokenP false 77 1002 3 5 Init None None None None)) = Done (TokenAccount TokenP false 77 1002 3 5 Init None None None None)) as -> by (by vm_compute).
  done.
Qed.
Print Assumptions C50_load_refuted.
