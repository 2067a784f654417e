(** Orderly token streams and panics (C98). *)
From Verif Require Import Base SMap DataModel BincodeModel BincodeProofs FilterModel StoreModel TokenModel TokenProofs TokenProps SplModel SplProofs TokenUtilsModel
  TokenUtilsProofs TokenPendModel TokenPendSpec TokenPendProofs TokenPendProps TokenUtilsProps TokenStoreModel TokenStoreSpec TokenStoreProofs TokenStoreViews TokenStoreProps TokenStoreOrder
  TokenStoreQuery TokenStoreQueryProps TokenStoreSafe TokenStoreServed TokenLedgerSpec TokenLedgerProofs TokenLedgerKey TokenLedgerProps TokenLedgerQueryProps TokenLedgerNotifyProps TokenLedgerEdge.
#[local] Arguments le : simpl never.
#[local] Arguments unle : simpl never.
#[local] Opaque to_bytes from_bytes peek_pubkey.
Local Notation kinv_safe := TokenStoreSafe.kinv.

(** ** Specification *)
(** At any moment, except while accounts are being loaded, the mints of all token accounts delivered so far, or by the next call, are in the ledger at
    commitment [c] (so a token account may be loaded before its mint); the key of a mint only ever carries open mints. *)
Definition loads_next (l : list tsop) : Prop := exists a, head l = Some (TInit a).
Definition mints_first_at (E : ext) (c : commitment) (l : list tsop) : Prop :=
  forall l1 l2 o q L1, l = l1 ++ l2 -> ~ loads_next l2 -> o ∈ l1 \/ head l2 = Some o -> op_names E o q -> t_orderly E l1 L1 -> exists m, tcounts L1 c m /\ d_pubkey m = q.
Definition mints_stay_mints (E : ext) (l : list tsop) : Prop :=
  forall o o' q b, o ∈ l -> op_names E o q \/ op_mint E o q -> o' ∈ l -> op_acct o' = Some b -> d_pubkey b = q -> exists p w, live_with E b p w /\ is_Some (unpack_mint w).
(** The data of every delivered account can be read and has the length it claims. *)
Definition all_readable (E : ext) (l : list tsop) : Prop :=
  forall o a, o ∈ l -> op_acct o = Some a -> exists v, data_bytes E (d_data a) = Done v /\ lenN v = data_len (d_data a).
(** There are at most 2^32 keys of mints. *)
Definition few_mint_keys (E : ext) (l : list tsop) : Prop :=
  exists M : list pubkey, lenN M <= 2 ^ 32 /\ forall o q, o ∈ l -> op_names E o q \/ op_mint E o q -> q ∈ M.
Record settled (E : ext) (c : commitment) (l : list tsop) : Prop := Settled {
  se_ops : ops_ok l; se_read : all_readable E l; se_first : mints_first_at E c l; se_mints : mints_stay_mints E l; se_few : few_mint_keys E l }.

Lemma settled_prefix E c l1 l2 : ~ loads_next l2 -> settled E c (l1 ++ l2) -> settled E c l1.
Proof.
  intros Hl [H1 H2 H3 H4 (M & HM & H5)]. constructor.
  - by apply Forall_app in H1 as [? _].
  - intros o a Ho. apply H2. set_solver.
  - intros l l' o q L1 -> Hn Ho. apply (H3 l (l' ++ l2) o); [by rewrite <- app_assoc|by destruct l'|]. destruct Ho as [?|Ho]; [by left|right; by destruct l'].
  - intros o o' q b Ho Hn Ho'. eapply H4; [|done|]; set_solver.
  - exists M. split; [done|]. intros o q Ho. apply (H5 o). set_solver.
Qed.
Lemma settled_stay E c l : settled E c l -> mints_stay E l.
Proof.
  intros H o o' q Ho Ho' Hn (b & Hb & Hk & Hcl). destruct (se_mints _ _ _ H o o' q b Ho Hn Ho' Hb Hk) as (p & w & Hl & _). apply (live_open _ _ _ _ Hl).
  destruct Hcl as [?|[? ?]]; [by left|right; by intros [?|?]].
Qed.

(** ** The counter of mint indices *)
Lemma list_set_size (M : list pubkey) : (size (list_to_set (C := gset pubkey) M) <= length M)%nat.
Proof.
  induction M as [|a M IH]; cbn [list_to_set length]; [done|]. destruct (decide (a ∈ (list_to_set M : gset pubkey))) as [Ha|Ha].
  - replace ({[a]} ∪ list_to_set M : gset pubkey) with (list_to_set M : gset pubkey) by set_solver. lia.
  - rewrite size_union by set_solver. rewrite size_singleton. lia.
Qed.
Section count.
Context (K : pubkey -> Prop).
Record counted (ts : tstore) : Prop := Counted {
  co_n : ts_ctr ts = N.of_nat (size (ts_mint_ix ts)); co_k : forall q i, ts_mint_ix ts !! q = Some i -> K q }.
Lemma counted_ix ts ts' : ts_mint_ix ts' = ts_mint_ix ts -> ts_ctr ts' = ts_ctr ts -> counted ts -> counted ts'.
Proof. intros H1 H2 [C1 C2]. constructor; rewrite H1, ?H2; done. Qed.
Lemma counted_new ts ts' q : ts_mint_ix ts !! q = None -> K q -> ts_mint_ix ts' = <[q := ts_ctr ts]> (ts_mint_ix ts) -> ts_ctr ts' = ts_ctr ts + 1 -> counted ts -> counted ts'.
Proof.
  intros Hq HK H1 H2 [C1 C2]. constructor; rewrite H1, ?H2.
  - rewrite map_size_insert_None by done. lia.
  - intros q' i [[<- _]|[_ H]]%lookup_insert_Some; [done|by eapply C2].
Qed.
Lemma add_finalized_counted ts a ts' : (forall m, a = TPMint m -> K (ma_pubkey m)) -> (forall q, a = TPDeleted q -> ~ K q) -> add_finalized ts a = Done ts' -> counted ts -> counted ts'.
Proof.
  intros Hm Hd H Hc. destruct a as [t|m|m q|q]; simpl in H.
  - unfold add_token in H. destruct (tb_save _ _) as [[[tb i] b]|]; [|done]. cbn [mbind res_bind] in H. injection H as <-. destruct b; by apply (counted_ix ts).
  - destruct (ts_mint_ix ts !! ma_pubkey m) as [i|] eqn:Hi; injection H as <-; [by apply (counted_ix ts)|]. apply (counted_new ts _ (ma_pubkey m)); try done. by apply Hm.
  - injection H as <-. by apply (counted_ix ts).
  - destruct (ts_mint_ix ts !! q) as [i|] eqn:Hi; [destruct (Hd q eq_refl); by eapply co_k|]. destruct (tb_delete _ _) as [tb|]; [|done]. cbn [mbind res_bind] in H. injection H as <-. by apply (counted_ix ts).
Qed.
Lemma add_all_counted l ts ts' : (forall m, TPMint m ∈ l -> K (ma_pubkey m)) -> (forall q, TPDeleted q ∈ l -> ~ K q) -> add_all ts l = Done ts' -> counted ts -> counted ts'.
Proof.
  revert ts. induction l as [|a l IH]; intros ts Hm Hd H Hc; cbn [add_all] in H; [by injection H as <-|]. destruct (add_finalized ts a) as [ts1|] eqn:H1; [|done]. cbn [mbind res_bind] in H.
  apply (IH ts1); [intros m ?; apply Hm; by right|intros q ?; apply Hd; by right|done|]. eapply add_finalized_counted; [| |done|done]; intros x ->; [apply Hm|apply Hd]; left.
Qed.
End count.

Section safe.
Context (E : ext) (X : lz4x) (l0 : list tsop).
Definition mint_key (q : pubkey) : Prop := exists o, o ∈ l0 /\ (op_names E o q \/ op_mint E o q).
Lemma counted_few ts : few_mint_keys E l0 -> counted mint_key ts -> ts_ctr ts <= 2 ^ 32.
Proof.
  intros (M & HM & Hin) [C1 C2]. rewrite C1. assert (size (ts_mint_ix ts) <= length M)%nat; [|unfold lenN in HM; lia]. rewrite <- (size_dom (D := gset pubkey)). etrans; [|apply list_set_size].
  apply subseteq_size. intros q Hq. apply elem_of_dom in Hq as [i Hi]. apply elem_of_list_to_set. destruct (C2 _ _ Hi) as (o & Ho & Hn). by eapply Hin.
Qed.
Lemma from_mint o x m : o ∈ l0 -> comes_from E o x -> x = TPMint m -> mint_key (ma_pubkey m).
Proof. intros Ho Hc ->. exists o. split; [done|]. right. by apply comes_mint. Qed.
Lemma from_closed o x q : mints_stay E l0 -> o ∈ l0 -> comes_from E o x -> x = TPDeleted q -> ~ mint_key q.
Proof. intros Hst Ho Hc -> (o' & Ho' & Hn). apply comes_closes in Hc. by apply (Hst o' o q Ho' Ho Hn). Qed.
Lemma step_counted ts o ts' : ts_step E X ts o = Done ts' -> op_ok o -> o ∈ l0 -> mints_stay E l0 -> tinv ts -> (forall s pk v, version (ts_pend ts) s pk v -> exists o, o ∈ l0 /\ comes_from E o v.1) -> counted mint_key ts -> counted mint_key ts'.
Proof.
  intros H Hok Hin Hst Hi HK Hc. pose proof (ti_sorted _ Hi) as Hs.
  assert (forall a ty ix ctr, op_acct o = Some a -> d_pubkey a < 2 ^ 256 -> account_type E a (ts_mint_ix ts) (ts_ctr ts) = Done (Some (ty, ix, ctr)) -> counted mint_key (set_ix ts ix ctr) /\ comes_from E o ty) as Hty.
  { intros a ty ix ctr Ho Hp Ht. split; [|exists a, (ts_mint_ix ts), (ts_ctr ts), ix, ctr; split; [done|]; split; [done|]; split; [apply (ti_ix _ Hi)|done]].
    apply account_type_inv in Ht as [(_ & -> & ->)|[Hl (p & v & Hw & Hv & [(m & x & _ & _ & -> & ->)|[(m & _ & _ & -> & ->)|(s & i & Hu & Hmi & _)]])]]; [by apply (counted_ix _ ts)..|].
    unfold mint_index in Hmi. destruct (ts_mint_ix ts !! sa_mint s) as [j|] eqn:Hj; injection Hmi as _ <- <-; [by apply (counted_ix _ ts)|].
    apply (counted_new _ ts _ (sa_mint s)); try done. exists o. split; [done|]. left. by exists a, v, s. }
  destruct o as [a c|a|ord si c|p b]; simpl in H, Hok; [| | |done].
  - unfold ts_update in H. destruct (is_token ts a) as [[]|]; [|by injection H as <-|done]. cbn [mbind res_bind] in H. destruct (account_type _ _ _ _) as [[[[ty ix] ctr]|]|] eqn:Ht; [|by injection H as <-|done].
    destruct (Hty a ty ix ctr eq_refl Hok Ht) as [Hc1 Hf]. cbn [mbind res_bind] in H. destruct c.
    1, 2: destruct (pd_insert _ _ _ _ _) as [p b0]; injection H as <-; by apply (counted_ix _ (set_ix ts ix ctr)).
    destruct (add_finalized _ ty) as [ts1|] eqn:H1; [|done]. cbn [mbind res_bind] in H. injection H as <-. eapply add_finalized_counted; [| |done|done].
    + intros m Hm. by eapply from_mint.
    + intros q Hq. by eapply from_closed.
  - unfold ts_init in H. destruct (is_token ts a) as [[]|]; [|by injection H as <-|done]. cbn [mbind res_bind] in H. destruct (account_type _ _ _ _) as [[[[ty ix] ctr]|]|] eqn:Ht; [|by injection H as <-|done].
    destruct (Hty a ty ix ctr eq_refl Hok Ht) as [Hc1 Hf]. cbn [mbind res_bind] in H. eapply add_finalized_counted; [| |done|done].
    + intros m Hm. by eapply from_mint.
    + intros q Hq. by eapply from_closed.
  - unfold ts_slot in H. destruct c.
    + cbn [mbind res_bind] in H. injection H as <-. by apply (counted_ix _ ts).
    + set (ts1 := if ts_conf ts <? si_slot si then _ else _) in H. destruct (pd_for_slot _ _ _) as [[p l]|]; [|done]. cbn [mbind res_bind] in H. injection H as <-.
      apply (counted_ix _ ts); [..|done]; unfold ts1; by destruct (_ <? _).
    + set (p0 := if ts_fin ts <? si_slot si then pd_slot_info (ts_pend ts) si else ts_pend ts).
      set (ts1 := if ts_fin ts <? si_slot si then _ else _) in H. assert (ts_pend ts1 = p0 /\ ts_mint_ix ts1 = ts_mint_ix ts /\ ts_ctr ts1 = ts_ctr ts) as (Hp0 & Hx1 & Hx2) by (unfold ts1, p0; by destruct (_ <? _)).
      rewrite Hp0 in H. assert (sm_sorted p0 /\ forall s pk v, version p0 s pk v -> version (ts_pend ts) s pk v) as (Hs1 & Hv0).
      { unfold p0. destruct (_ <? _); [|done]. split; [by apply pd_slot_info_sorted|]. intros s pk v Hx. by apply (slot_info_version _ _ _ _ _ Hs) in Hx. }
      destruct (finalize_versions p0 (si_slot si) Hs1) as (_ & _ & Hv2). destruct (pd_finalize p0 (si_slot si)) as [p m]. simpl in Hv2.
      destruct (to_accts _ _) as [r|]; [|done]. cbn [mbind res_bind] in H. destruct (add_all _ _) as [ts2|] eqn:H2; [|done]. cbn [mbind res_bind] in H. injection H as <-.
      assert (forall x, x ∈ (fun x => x.1.1) <$> ((fun x : pubkey * (pacct * N) => x.2) <$> ord m) -> exists o, o ∈ l0 /\ comes_from E o x) as Hor.
      { intros x Hx. apply elem_of_list_fmap in Hx as (y & -> & Hy). apply elem_of_list_fmap in Hy as ([pk [v s]] & -> & Hy). rewrite (Hok m) in Hy. apply elem_of_map_to_list in Hy.
        eapply (HK s pk v). by apply Hv0, Hv2. }
      eapply add_all_counted; [| |exact H2|by apply (counted_ix _ ts)].
      * intros mi Hx. destruct (Hor _ Hx) as (o & Ho & Hf). by eapply from_mint.
      * intros q Hx. destruct (Hor _ Hx) as (o & Ho & Hf). by eapply from_closed.
Qed.
End safe.

Lemma orderly_prefix E l1 l2 L : t_orderly E (l1 ++ l2) L -> exists L1, t_orderly E l1 L1.
Proof.
  revert L. induction l2 as [|o l2 IH] using rev_ind; intros L H; [rewrite app_nil_r in H; eauto|]. rewrite app_assoc in H. inversion H as [Hx|l L0 o' L' Ho Hev Hl]; [by destruct (l1 ++ l2)|].
  apply app_inj_tail in Hl as [-> ->]. by eapply IH.
Qed.
Lemma orderly_ok E l L : t_orderly E l L -> tl_ok L.
Proof. induction 1 as [|l L o L' Ho IH Hev]; [apply tl_ok_empty|by eapply tl_ok_event]. Qed.
Lemma orderly_parent E l L : t_orderly E l L -> Forall parent_ok l.
Proof.
  induction 1 as [|l L o L' Ho IH Hev]; [done|]. apply Forall_app. split; [done|]. apply Forall_singleton. destruct Hev; simpl; try done.
  apply orderly_ok in Ho. by eapply linked_lt; [apply (lk_linked _ Ho)|].
Qed.

Lemma op_is_init (o : tsop) : {exists a, o = TInit a} + {~ exists a, o = TInit a}.
Proof. destruct o; [right|left; eauto|right|right]; by intros [? ?]. Qed.
(** *** While accounts are loaded the mint of a token account may still be missing *)
Section load.
Context (E : ext) (L0 : list tsop).
Record winv (l : list tsop) (ts : tstore) : Prop := WInv {
  wi_tok : forall i t, stored (ts_table ts) i t -> ta_deleted t = false -> is_Some (ts_mints ts !! ta_mint t) \/ exists q, ts_mint_ix ts !! q = Some (ta_mint t);
  wi_ix : forall q i, ts_mint_ix ts !! q = Some i -> is_Some (ts_mints ts !! i) \/ exists o, o ∈ l /\ op_names E o q;
  wi_from : forall q i, ts_mint_ix ts !! q = Some i -> exists o, o ∈ L0 /\ (op_names E o q \/ op_mint E o q);
  wi_pend : forall s pk v t, version (ts_pend ts) s pk v -> v.1 = TPToken t -> is_Some (ts_mints ts !! ta_mint t);
  wi_orig : forall s pk v, version (ts_pend ts) s pk v -> exists o, o ∈ L0 /\ comes_from E o v.1;
  wi_before : parents_before (ts_pend ts) }.
Lemma kinv_winv l ts : kinv_safe E L0 ts -> winv l ts.
Proof. intros [[F1 F2 F3] K2 K3 K4]. constructor; try done; intros; left; eauto. Qed.
(** Once all mints are there nothing is missing. *)
Lemma winv_kinv l ts : winv l ts -> (forall o q, o ∈ l -> op_names E o q -> exists i, ts_mint_ix ts !! q = Some i /\ is_Some (ts_mints ts !! i)) -> kinv_safe E L0 ts.
Proof.
  intros [W1 W2 W3 W4 W5 W6] Hall. assert (forall q i, ts_mint_ix ts !! q = Some i -> is_Some (ts_mints ts !! i)) as Hix.
  { intros q i Hq. destruct (W2 q i Hq) as [?|(o & Ho & Hn)]; [done|]. destruct (Hall o q Ho Hn) as (j & Hj & ?). congruence. }
  constructor; try done. constructor; try done. intros i t Hs Hd. destruct (W1 i t Hs Hd) as [?|[q Hq]]; [done|by eapply Hix].
Qed.
Lemma add_finalized_winv l ts a ts' : tinv ts -> winv l ts -> (forall t, a = TPToken t -> good t /\ exists q, ts_mint_ix ts !! q = Some (ta_mint t)) ->
  (forall m, a = TPMint m -> exists o, o ∈ L0 /\ op_mint E o (ma_pubkey m)) -> (forall q, a = TPDeleted q -> ts_mint_ix ts !! q = None) ->
  add_finalized ts a = Done ts' -> winv l ts'.
Proof.
  intros Hi [W1 W2 W3 W4 W5 W6] Ht Hm Hd H. destruct a as [t|m|m q|q]; simpl in H.
  - destruct (Ht t eq_refl) as [Hg Hmt]. unfold add_token in H.
    destruct (tb_save_spec _ t (ti_table _ Hi) Hg) as (tb & i & b & Hs & Htb & Hat & _ & _ & _ & Hsame & _). rewrite Hs in H. cbn [mbind res_bind] in H. injection H as <-.
    assert (forall j t', stored tb j t' -> ta_deleted t' = false -> is_Some (ts_mints ts !! ta_mint t') \/ exists q, ts_mint_ix ts !! q = Some (ta_mint t')) as Hst.
    { intros j t' Hj Hdl. destruct (decide (j = i)) as [->|Hne]; [right; by rewrite (stored_fun _ _ _ _ Hj (proj1 Hat))|]. apply (W1 j); [|done].
      destruct Hj as [Hgj Hj]. split; [done|]. by rewrite <- Hsame. }
    by destruct b; constructor.
  - destruct (Hm m eq_refl) as (o & Ho & Hop). assert (forall i' j, is_Some (ts_mints ts !! j) -> is_Some (<[i' := m]> (ts_mints ts) !! j)) as Hmono.
    { intros i' j Hj. destruct (decide (i' = j)) as [->|]; [rewrite lookup_insert; eauto|by rewrite lookup_insert_ne]. }
    destruct (ts_mint_ix ts !! ma_pubkey m) as [k|] eqn:Hk; injection H as <-; (constructor; simpl; [| | | |done|done]).
    + intros j t Hj Hdl. destruct (W1 j t Hj Hdl) as [?|?]; [left; by apply Hmono|by right].
    + intros q j Hq. destruct (W2 q j Hq) as [?|?]; [left; by apply Hmono|by right].
    + done.
    + intros s pk v t Hv Hvt. eapply Hmono, W4; done.
    + intros j t Hj Hdl. destruct (W1 j t Hj Hdl) as [?|[q Hq]]; [left; by apply Hmono|right]. exists q. rewrite lookup_insert_ne; [done|congruence].
    + intros q j Hq. apply lookup_insert_Some in Hq as [[<- <-]|[_ Hq]]; [left; rewrite lookup_insert; eauto|]. destruct (W2 q j Hq) as [?|?]; [left; by apply Hmono|by right].
    + intros q j Hq. apply lookup_insert_Some in Hq as [[<- <-]|[_ Hq]]; [eauto|by eapply W3].
    + intros s pk v t Hv Hvt. eapply Hmono, W4; done.
  - injection H as <-. by constructor.
  - rewrite (Hd q eq_refl) in H. destruct (tb_delete _ _) as [tb|] eqn:Hdel; [|done]. cbn [mbind res_bind] in H. injection H as <-. constructor; simpl; try done.
    intros j t Hj Hdl. destruct (stored_deleted_pos _ _ _ _ (ti_table _ Hi) Hdel t Hj) as [Hj'| ->]; [by eapply W1|done].
Qed.
Lemma winv_more l l' ts : (forall o, o ∈ l -> o ∈ l') -> winv l ts -> winv l' ts.
Proof. intros Hl [W1 W2 W3 W4 W5 W6]. constructor; try done. intros q i Hq. destruct (W2 q i Hq) as [?|(o & Ho & Hn)]; [by left|right; eauto]. Qed.
Lemma init_winv X l ts a : op_ok (TInit a) -> TInit a ∈ L0 -> data_ok E (TInit a) -> mints_stay E L0 -> few_mint_keys E L0 -> tinv ts -> winv l ts -> counted (mint_key E L0) ts ->
  exists ts', ts_step E X ts (TInit a) = Done ts' /\ winv (l ++ [TInit a]) ts'.
Proof.
  intros Hok Hin Hdo Hst Hfew Hi HW Hco. assert (winv (l ++ [TInit a]) ts) as HW1 by (eapply winv_more; [|done]; set_solver). cbn [ts_step]. unfold ts_init.
  destruct (is_token_done ts a (ti_table _ Hi)) as [k ->]. cbn [mbind res_bind]. destruct k; [|eauto].
  destruct (account_type_done E a (ts_mint_ix ts) (ts_ctr ts) (Hdo a eq_refl)) as [[[[ty ix] ctr]|] Ht]; rewrite Ht; cbn [mbind res_bind]; [|eauto].
  assert (comes_from E (TInit a) ty) as Hf by (exists a, (ts_mint_ix ts), (ts_ctr ts), ix, ctr; split; [done|]; split; [done|]; split; [apply (ti_ix _ Hi)|done]).
  destruct (accepted_ok _ _ _ _ _ _ _ Ht Hok (ti_ix _ Hi)) as (Hixok & Hle & Htok & _ & Hkeep & Hnew & Hidx).
  assert (forall q i, ix !! q = Some i -> ts_mint_ix ts !! q = None -> op_names E (TInit a) q) as Hnames.
  { intros q i Hq Hno. apply account_type_inv in Ht as [(_ & -> & ->)|[Hl (p & v & Hw & Hv & [(m & x & _ & _ & -> & ->)|[(m & _ & _ & -> & ->)|(s & j & Hu & Hmi & _)]])]]; try congruence.
    unfold mint_index in Hmi. destruct (ts_mint_ix ts !! sa_mint s) as [j'|] eqn:Hj; injection Hmi as _ <- _; [congruence|]. apply lookup_insert_Some in Hq as [[<- _]|[_ Hq]]; [|congruence]. by exists a, v, s. }
  assert (counted (mint_key E L0) (set_ix ts ix ctr)) as Hco1.
  { apply account_type_inv in Ht as [(_ & -> & ->)|[Hl (p & v & Hw & Hv & [(m & x & _ & _ & -> & ->)|[(m & _ & _ & -> & ->)|(s & j & Hu & Hmi & _)]])]]; [by apply (counted_ix _ ts)..|].
    unfold mint_index in Hmi. destruct (ts_mint_ix ts !! sa_mint s) as [j'|] eqn:Hj; injection Hmi as _ <- <-; [by apply (counted_ix _ ts)|].
    apply (counted_new _ ts _ (sa_mint s)); try done. exists (TInit a). split; [done|]. left. by exists a, v, s. }
  pose proof (counted_few E _ _ Hfew Hco1) as Hc1. cbn [set_ix ts_ctr] in Hc1.
  assert (winv (l ++ [TInit a]) (set_ix ts ix ctr)) as HW2.
  { destruct HW1 as [W1 W2 W3 W4 W5 W6]. constructor; cbn [set_ix ts_table ts_mints ts_mint_ix ts_pend]; try done.
    - intros i t Hs Hd. destruct (W1 i t Hs Hd) as [?|[q Hq]]; [by left|right; eauto].
    - intros q i Hq. destruct (ts_mint_ix ts !! q) as [j|] eqn:Hj; [apply (W2 q); by rewrite (Hkeep _ _ Hj) in Hq; injection Hq as <-|].
      right. exists (TInit a). split; [apply elem_of_app; right; left|by eapply Hnames].
    - intros q i Hq. destruct (ts_mint_ix ts !! q) as [j|] eqn:Hj; [by eapply W3|]. exists (TInit a). split; [done|]. left. by eapply Hnames. }
  assert (forall t, ty = TPToken t -> good t) as Hgood by (intros t ->; by apply (tpa_ok_good ctr)).
  destruct (add_finalized_done (set_ix ts ix ctr) ty (ti_table _ Hi) Hgood) as (ts' & Hs' & _). exists ts'. split; [done|].
  assert (tinv (set_ix ts ix ctr)) as Hi1.
  { destruct Hi as [I1 I2 I3 I4 I5 I6 I7 I8]. constructor; cbn [set_ix ts_table ts_mints ts_mint_ix ts_pend ts_ctr ts_multi]; try done.
    - intros i m Hm. by apply Hkeep, I2.
    - intros i t Hs Hd. destruct (I4 i t Hs Hd). split; [lia|done].
    - intros s pk v Hv. destruct (I8 s pk v Hv). split; [by eapply tpa_ok_mono|done]. }
  eapply add_finalized_winv; [exact Hi1|exact HW2| | | |exact Hs'].
  - intros t Hty. split; [by apply Hgood|]. apply Hidx, Hty.
  - intros m ->. exists (TInit a). split; [done|]. by apply comes_mint.
  - intros q ->. cbn [set_ix ts_mint_ix]. destruct (ix !! q) as [i|] eqn:Hq; [|done]. destruct (wi_from _ _ HW2 q i Hq) as (o & Ho & Hn). apply comes_closes in Hf. by destruct (Hst o (TInit a) q Ho Hin Hn).
Qed.
End load.

Lemma settled_state E X l rest L0 ts : t_orderly E (l ++ rest) L0 -> settled E Finalized (l ++ rest) -> ts_run E X ts_empty l = Done ts -> counted (mint_key E (l ++ rest)) ts ->
  winv E (l ++ rest) l ts -> ~ loads_next rest -> kinv_safe E (l ++ rest) ts /\ forall o q, head rest = Some o -> op_names E o q -> is_Some (ts_mint_ix ts !! q).
Proof.
  intros Hord Hse Hr Hco HW Hnl. pose proof (settled_prefix _ _ _ _ Hnl Hse) as Hse1. pose proof (counted_few E _ ts (se_few _ _ _ Hse) Hco) as Hc.
  destruct (orderly_prefix _ _ _ _ Hord) as [L1 HL1].
  assert (forall o q, o ∈ l \/ head rest = Some o -> op_names E o q -> exists i, ts_mint_ix ts !! q = Some i /\ is_Some (ts_mints ts !! i)) as Hall.
  { intros o q Ho Hn. pose proof (se_first _ _ _ Hse l rest o q L1 eq_refl Hnl Ho Hn HL1) as Hm.
    destruct (mint_finalized E X l L1 ts q HL1 (se_ops _ _ _ Hse1) Hr Hc) as (a & p & v & r & _ & _ & _ & Hms); [|done|].
    { intros o' b Ho'. eapply (se_mints _ _ _ Hse o o' q b); [|by left|set_solver]. apply elem_of_app. destruct Ho as [?|Ho]; [by left|right]. destruct rest; [done|]. injection Ho as ->. left. }
    destruct (run_agrees E X l ts Hr (se_ops _ _ _ Hse1) Hc) as [_ Hag]. apply Hag in Hms as (i & Hix & Hi'). exists i. split; [done|]. by rewrite Hi'. }
  split; [eapply winv_kinv; [done|]; intros o q Ho; apply Hall; by left|]. intros o q Ho Hn. destruct (Hall o q (or_intror Ho) Hn) as (i & Hx & _). eauto.
Qed.
Lemma settled_run E X l0 l rest L0 : l0 = l ++ rest -> t_orderly E l0 L0 -> settled E Finalized l0 ->
  exists ts, ts_run E X ts_empty l = Done ts /\ tinv ts /\ counted (mint_key E l0) ts /\ winv E l0 l ts.
Proof.
  intros -> Hord Hse. revert rest Hord Hse. induction l as [|o l IH] using rev_ind; intros rest Hord Hse.
  - exists ts_empty. split; [done|]. split; [apply tinv_empty|]. split; [constructor; [done|]; intros q i H; simpl in H; by rewrite lookup_empty in H|]. constructor; simpl.
    + intros i t [_ H]. done.
    + intros q i H. by rewrite lookup_empty in H.
    + intros q i H. by rewrite lookup_empty in H.
    + intros s pk v t (b & Hb & _). by apply elem_of_nil in Hb.
    + intros s pk v (b & Hb & _). by apply elem_of_nil in Hb.
    + intros s s' (b & Hb & _). by apply elem_of_nil in Hb.
  - rewrite <- (app_assoc l [o] rest) in *. cbn [app] in *. destruct (IH (o :: rest)) as (ts & Hr & Hi & Hco & HW); try done.
    assert (o ∈ l ++ o :: rest) as Hin by (apply elem_of_app; right; left). pose proof (settled_stay _ _ _ Hse) as Hst.
    assert (op_ok o) as Ho by (pose proof (se_ops _ _ _ Hse) as H; unfold ops_ok in H; rewrite Forall_forall in H; by apply H).
    assert (parent_ok o) as Hpo by (pose proof (orderly_parent _ _ _ Hord) as H; rewrite Forall_forall in H; by apply H).
    assert (data_ok E o) as Hdo by (intros a Ha; by apply (se_read _ _ _ Hse o)).
    pose proof (counted_few E _ ts (se_few _ _ _ Hse) Hco) as Hc.
    assert (exists ts', ts_step E X ts o = Done ts' /\ (ts_ctr ts' <= 2 ^ 32 -> winv E (l ++ o :: rest) (l ++ [o]) ts')) as (ts' & Hs & HW').
    { destruct (op_is_init o) as [[a ->]|Hno].
      - destruct (init_winv E (l ++ TInit a :: rest) X l ts a) as (ts' & ? & ?); try done; [apply (se_few _ _ _ Hse)|]. by exists ts'.
      - destruct (settled_state E X l (o :: rest) L0 ts Hord Hse Hr Hco HW) as [HK Hn]; [intros (a & [= ->]); apply Hno; eauto|].
        assert (names_known E ts o) as Hn' by (intros q; by apply Hn). destruct (step_done E (l ++ o :: rest) X ts o Ho Hdo Hi Hc Hn' HK) as [ts' Hs]. exists ts'. split; [done|].
        intros Hc'. apply kinv_winv. by eapply step_kinv. }
    exists ts'. assert (ts_run E X ts_empty (l ++ [o]) = Done ts') as Hr'.
    { rewrite (run_app_done _ _ _ _ _ _ Hr). cbn [ts_run]. rewrite Hs. done. }
    pose proof (step_counted E X (l ++ o :: rest) ts o ts' Hs Ho Hin Hst Hi (wi_orig _ _ _ _ HW) Hco) as Hco'. pose proof (counted_few E _ ts' (se_few _ _ _ Hse) Hco') as Hc'.
    split; [done|]. split; [by eapply step_inv|]. split; [done|]. by apply HW'.
Qed.
Lemma not_loading : ~ loads_next [].
Proof. by intros [a Ha]. Qed.
Lemma slot_next ord si c l : ~ loads_next (TSlot ord si c :: l).
Proof. by intros [a Ha]. Qed.
Lemma update_next a c l : ~ loads_next (TUpdate a c :: l).
Proof. by intros [b Ha]. Qed.

(** ** C98.  On an orderly stream that names only mints in the finalized ledger nothing panics: every call of the stream returns, every account can be
    read at every commitment, every query whose conditions do not panic by themselves is answered, and so is every further call that keeps the stream so. *)
Theorem C98_orderly_streams_run_partial E X l L : t_orderly E l L -> settled E Finalized l -> exists ts, ts_run E X ts_empty l = Done ts /\ ts_ctr ts <= 2 ^ 32 /\
  (forall pk c, exists r, ts_get ts pk c = Done r) /\
  (forall p fl c, (forall cs d v, fl = Some cs -> d ∈ cs -> allows E d v <> Panic) ->
    (forall cs o m, fl = Some cs -> owner_mint_filter p cs = (Some o, Some m) -> mint_known E l L m) -> exists r, ts_gpa E ts p fl c = Done r) /\
  (forall a c L', tevent E L (TUpdate a c) L' -> settled E Finalized (l ++ [TUpdate a c]) -> exists r, ts_update E ts a c = Done r) /\
  (forall ord si c L', tevent E L (TSlot ord si c) L' -> settled E Finalized (l ++ [TSlot ord si c]) -> exists r, ts_slot ord ts si c = Done r).
Proof.
  intros Ho Hse. destruct (settled_run E X l l [] L) as (ts & Hr & Hi & Hco & HW); [by rewrite app_nil_r|done|done|]. exists ts. split; [done|].
  pose proof (counted_few E _ ts (se_few _ _ _ Hse) Hco) as Hc. assert (kinv_safe E l ts) as HK.
  { destruct (settled_state E X l [] L ts) as [HK _]; rewrite ?app_nil_r in *; try done. apply not_loading. } split; [done|]. split; [intros pk c; by eapply get_done|].
  assert (forall o L', tevent E L o L' -> settled E Finalized (l ++ [o]) -> exists ts', ts_step E X ts o = Done ts') as Hnext.
  { intros o L' Hev Hse'. destruct (settled_run E X (l ++ [o]) (l ++ [o]) [] L') as (ts' & Hr' & _); [by rewrite app_nil_r|by eapply to_snoc|done|].
    rewrite (run_app_done _ _ _ _ _ _ Hr) in Hr'. cbn [ts_run] in Hr'. destruct (ts_step E X ts o) as [ts1|]; [eauto|done]. }
  split; [|split].
  - intros p fl c Hal Hm. eapply gpa_done; [done|done| |].
    + intros cs d v Hfl Hd. specialize (Hal cs d v Hfl Hd). destruct (allows E d v); [eauto|done].
    + intros cs o m Hfl Hom. destruct (Hm cs o m Hfl Hom) as [Hm1 Hm2]. destruct (mint_finalized E X l L ts m Ho (se_ops _ _ _ Hse) Hr Hc Hm1 Hm2) as (a & q & v & r & _ & _ & _ & Hms).
      destruct (run_agrees E X l ts Hr (se_ops _ _ _ Hse) Hc) as [_ Hag]. apply Hag in Hms as (i & Hix & _). eauto.
  - intros a c L' Hev Hse'. destruct (Hnext _ L' Hev Hse') as [ts' Hs]. simpl in Hs. destruct (ts_update E ts a c); [eauto|done].
  - intros ord si c L' Hev Hse'. destruct (Hnext _ L' Hev Hse') as [ts' Hs]. simpl in Hs. destruct (ts_slot ord ts si c); [eauto|done].
Qed.
Print Assumptions C98_orderly_streams_run_partial.
(** So reads show the ledger (C92) and notifications report its changes (C94) with nothing assumed about the run of the store. *)
Theorem C98_reads_show_ledger_partial E X l L pk c : t_orderly E l L -> settled E Finalized l -> token_account_key E l pk -> mints_known E l L pk ->
  exists ts o x, ts_run E X ts_empty l = Done ts /\ in_tledger L pk c o /\ ts_get ts pk c = Done (ROk x) /\ answers E L o x.
Proof.
  intros Ho Hse Hk Hm. destruct (C98_orderly_streams_run_partial E X l L Ho Hse) as (ts & Hr & Hc & _). destruct (C92_token_reads_show_ledger E X l L ts pk c Ho (se_ops _ _ _ Hse) Hr Hc Hk Hm) as (o & x & H).
  by exists ts, o, x.
Qed.
Print Assumptions C98_reads_show_ledger_partial.
Theorem C98_reports_changes_partial E X l L ord si c L' : t_orderly E l L -> settled E Finalized (l ++ [TSlot ord si c]) -> tevent E L (TSlot ord si c) L' -> (c = Confirmed -> ~ is_confirmed L (si_slot si)) ->
  exists ts ts' r, ts_run E X ts_empty l = Done ts /\ ts_slot ord ts si c = Done (ts', r) /\ forall pk, good_key E l L pk -> reports E L L' c pk r.
Proof.
  intros Ho Hse Hev Hnew. pose proof (settled_prefix _ _ _ _ (slot_next _ _ _ _) Hse) as Hse1. destruct (C98_orderly_streams_run_partial E X l L Ho Hse1) as (ts & Hr & Hc & _ & _ & _ & Hsl).
  destruct (Hsl ord si c L' Hev Hse) as [[ts' r] Hs]. exists ts, ts', r. split; [done|]. split; [done|]. intros pk Hg.
  pose proof (se_ops _ _ _ Hse) as H. apply Forall_app in H as [_ H]. rewrite Forall_singleton in H.
  exact (C94_reports_changes E X l L ts ord si c L' ts' r pk Ho (se_ops _ _ _ Hse1) Hr Hc Hev H Hnew Hs Hg).
Qed.
Print Assumptions C98_reports_changes_partial.


(** ** Examples *)
Definition finb (L : tledger) (c : commitment) (a : acct) : bool :=
  bool_decide (a ∈ tl_base L) || (bool_decide (a ∈ tl_writes L) && existsb (fun x => x.1 =? d_slot a) (tl_conf L) &&
    match c with Finalized => match tl_fin L with Some f => d_slot a <=? f | None => false end | _ => true end).
Lemma finb_counts L c a : c <> Processed -> finb L c a = true -> tcounts L c a.
Proof.
  intros Hc H. unfold finb in H. apply orb_true_iff in H as [H|H]; [left; by apply bool_decide_eq_true in H|]. right. apply andb_true_iff in H as [[H1 H2]%andb_true_iff H3].
  split; [by apply bool_decide_eq_true in H1|]. assert (is_confirmed L (d_slot a)) as Hcf. { apply existsb_exists in H2 as ([s p] & Hin & He). apply N.eqb_eq in He. simpl in He. subst s. exists p. by apply elem_of_list_In. }
  destruct c; [done|done|]. split; [done|]. destruct (tl_fin L) as [f|]; [|done]. exists f. split; [done|]. by apply N.leb_le.
Qed.
Definition is_init_b (o : option tsop) : bool := match o with Some (TInit _) => true | _ => false end.
Definition first_b (c : commitment) (l : list tsop) : bool :=
  forallb (fun n => is_init_b (l !! n) ||
    forallb (fun o => match mint_of o with Some q => existsb (fun a => (d_pubkey a =? q) && finb (tledger_at (take n l)) c a) (given l) | None => true end) (take (S n) l)) (seq 0 (S (length l))).
Definition only_mints_b (l : list tsop) : bool :=
  forallb (fun o => forallb (fun b => negb (bool_decide (mint_of o = Some (d_pubkey b)) || is_mint_b o (d_pubkey b)) || (is_mintb b && negb (d_lamports b =? 0))) (given l)) l.
Definition keys_in_b (M : list pubkey) (l : list tsop) : bool :=
  forallb (fun o => match op_bytes o with
    | Some (pk, v) => (negb (bool_decide (is_Some (unpack_mint v))) || bool_decide (pk ∈ M)) && match unpack_account v with Some r => bool_decide (sa_mint r ∈ M) | None => true end
    | None => true end) l.
Lemma settled_check c M l : c <> Processed -> forallb raw_b l = true -> Forall plain_acct (given l) -> ops_ok l -> forallb (fun n => bool_decide (is_Some (tledger_of no_tledger (take n l)))) (seq 0 (S (length l))) = true -> lenN M <= 2 ^ 32 ->
  first_b c l = true -> only_mints_b l = true -> keys_in_b M l = true -> settled E0 c l.
Proof.
  intros Hc Hraw Hpl Hok Hord HM Hf Hm Hk.
  assert (forall o a, o ∈ l -> op_acct o = Some a -> exists v, d_data a = DRaw v) as Hd.
  { intros o a Ho Ha. pose proof Hraw as H. rewrite forallb_forall in H. specialize (H o (proj1 (elem_of_list_In _ _) Ho)). unfold raw_b in H. rewrite Ha in H. destruct (d_data a); try done. eauto. }
  constructor; [done| | | |exists M; split; [done|]].
  - intros o a Ho Ha. destruct (Hd o a Ho Ha) as [v ->]. by exists v.
  - intros l1 l2 o q L1 -> Hnl Ho Hn HL. unfold first_b in Hf. rewrite forallb_forall in Hf. specialize (Hf (length l1)).
    feed specialize Hf; [apply in_seq; rewrite app_length; lia|]. rewrite lookup_app_r, Nat.sub_diag in Hf by done.
    assert (is_init_b (l2 !! 0%nat) = false) as Hni. { destruct l2 as [|x l2]; [done|]. destruct x; try done. destruct Hnl. by eexists. }
    rewrite Hni in Hf. simpl orb in Hf. rewrite forallb_forall in Hf. specialize (Hf o).
    assert (o ∈ take (S (length l1)) (l1 ++ l2)) as Hin.
    { rewrite take_app_ge by lia. apply elem_of_app. destruct Ho as [?|Ho]; [by left|right]. destruct l2 as [|x l2]; [done|]. injection Ho as ->. replace (S (length l1) - length l1)%nat with 1%nat by lia. left. }
    specialize (Hf (proj1 (elem_of_list_In _ _) Hin)). apply elem_of_take in Hin as (k & Hlk & _). apply elem_of_list_lookup_2 in Hlk.
    rewrite (op_names_raw o q) in Hf; [|by intros a; apply Hd|done]. rewrite take_app in Hf.
    apply existsb_exists in Hf as (a & _ & H). apply andb_true_iff in H as [H1 H2]. exists a. split; [|by apply N.eqb_eq].
    rewrite forallb_forall in Hord. specialize (Hord (length l1)). rewrite take_app in Hord. feed specialize Hord; [apply in_seq; rewrite app_length; lia|].
    rewrite (t_orderly_fun _ _ _ _ HL (tledger_at_orderly _ Hord)). by apply finb_counts.
  - intros o o' q b Ho Hn Ho' Hb Hbk. unfold only_mints_b in Hm. rewrite forallb_forall in Hm. specialize (Hm o (proj1 (elem_of_list_In _ _) Ho)). rewrite forallb_forall in Hm.
    specialize (Hm b (proj1 (elem_of_list_In _ _) (in_given _ _ _ Ho' Hb))). rewrite Hbk in Hm.
    assert (bool_decide (mint_of o = Some q) || is_mint_b o q = true) as Hx.
    { apply orb_true_iff. destruct Hn as [Hn|Hn]; [left; apply bool_decide_eq_true; by apply op_names_raw; [intros a; apply Hd|]|right; by apply (op_mint_b l)]. }
    rewrite Hx in Hm. simpl in Hm. apply andb_true_iff in Hm as [H1 H2]. rewrite Forall_forall in Hpl. pose proof (Hpl b (in_given _ _ _ Ho' Hb)) as Hp.
    destruct Hp as [k mint owner amount slot wv ? ? ?|k supply slot wv Hs|k slot wv]; [exfalso; unfold is_mintb in H1; by vm_compute in H1| |exfalso; unfold is_mintb in H1; by vm_compute in H1].
    exists TokenP, (pack_mint (SplMint (Some 5) supply 6 true None)). split; [apply mintd_live|]. destruct (mintd_unpack supply Hs) as (Hu & _). rewrite Hu. by eexists.
  - intros o q Ho Hn. unfold keys_in_b in Hk. rewrite forallb_forall in Hk. specialize (Hk o (proj1 (elem_of_list_In _ _) Ho)). destruct Hn as [(a & v & r & Ha & Hv & Hu & <-)|(a & v & Ha & <- & Hv & Hu)].
    + rewrite (op_raw l Hraw o a v Ho Ha Hv), Hu in Hk. apply andb_true_iff in Hk as [_ Hk]. by apply bool_decide_eq_true in Hk.
    + rewrite (op_raw l Hraw o a v Ho Ha Hv) in Hk. apply andb_true_iff in Hk as [Hk _]. rewrite bool_decide_eq_true_2 in Hk by done. by apply bool_decide_eq_true in Hk.
Qed.
(** Account 77 is loaded before its mint 1001.  The mint 1004 is created in slot 10, slot 10 is finalized, and then account 80 of that mint is opened in slot 11. *)
Definition tl_new : list tsop :=
  [TInit (tokd 77 1001 1002 4 5 1); TInit (mintd 1001 50 1 1); TSlot ord0 (SlotInfo 10 9 0) Processed; TUpdate (mintd 1004 60 10 2) Processed; TUpdate (tokd 77 1001 1002 5 10 3) Processed;
   TSlot ord0 (SlotInfo 10 9 0) Confirmed; TSlot ord0 (SlotInfo 10 9 0) Finalized; TUpdate (tokd 80 1004 1002 7 11 4) Processed; TUpdate (tokd 77 1001 1002 6 11 5) Processed].
Definition conf11 : tsop := TSlot ord0 (SlotInfo 11 10 0) Confirmed.
Lemma new_settled : settled E0 Finalized (tl_new ++ [conf11]).
Proof.
  apply (settled_check Finalized [1001; 1004]); [done|by vm_compute|repeat constructor|repeat constructor; simpl; try done; intros m; done|by vm_compute|done|by vm_compute..].
Qed.
Example C98_orderly_streams_run_example : t_orderly E0 tl_new (tledger_at tl_new) /\ settled E0 Finalized tl_new /\ mint_known E0 tl_new (tledger_at tl_new) 1001 /\
  owner_mint_filter spl_token_id (by_owner 1002 ++ by_mint 1001) = (Some 1002, Some 1001) /\ amount_of (ts_get (final tl_new) 80 Processed) = Some 7 /\ amount_of (ts_get (final tl_new) 77 Confirmed) = Some 5.
Proof.
  split; [apply tledger_at_orderly; by vm_compute|]. split; [apply (settled_prefix _ _ _ [conf11] (slot_next _ _ _ _)), new_settled|]. split.
  - split; [|exists (mintd 1001 50 1 1); split; [|done]; left; assert (tl_base (tledger_at tl_new) = [tokd 77 1001 1002 4 5 1; mintd 1001 50 1 1]) as -> by (vm_compute; reflexivity); right; left].
    intros o b Ho Hb Hk. eapply (se_mints _ _ _ (settled_prefix _ _ _ [conf11] (slot_next _ _ _ _) new_settled) (TInit (mintd 1001 50 1 1)) o 1001 b); [right; left|right|done|done|done].
    eexists _, _. split; [reflexivity|]. split; [reflexivity|]. split; [apply (lw_data _ _ _ _ (mintd_live 1001 50 1 1))|]. destruct (mintd_unpack 50 eq_refl) as (-> & _). by eexists.
  - split; [by vm_compute|]. split; by vm_compute.
Qed.
Example C98_reads_show_ledger_example : token_account_key E0 tl_new 77 /\ mints_known E0 tl_new (tledger_at tl_new) 77.
Proof.
  assert (Forall plain_acct (given tl_new)) as Hp by repeat constructor. destruct (key_checked tl_new 77 Hp) as (K1 & K2 & K3 & K4); [by vm_compute|]. split.
  - apply stays_owned; [by vm_compute|by split].
  - intros o a p v r Ho Ha Hk Hl Hu. split; [by eapply K4|]. exists (mintd 1001 50 1 1). assert (tl_base (tledger_at tl_new) = [tokd 77 1001 1002 4 5 1; mintd 1001 50 1 1]) as Hb by (vm_compute; reflexivity).
    split; [left; rewrite Hb; right; left|]. pose proof (used_mint tl_new o a v r Hp Ho Ha (lw_data _ _ _ _ Hl) Hu) as Hm.
    assert (forallb (fun b => negb (d_pubkey b =? 77) || bool_decide (mint_used b = Some 1001)) (given tl_new) = true) as Hc by (by vm_compute).
    rewrite forallb_forall in Hc. specialize (Hc a (proj1 (elem_of_list_In _ _) (in_given _ _ _ Ho Ha))). rewrite Hk in Hc. apply bool_decide_eq_true in Hc. rewrite Hm in Hc. by injection Hc.
Qed.
Example C98_reports_changes_example : tevent E0 (tledger_at tl_new) conf11 (tledger_at (tl_new ++ [conf11])) /\ settled E0 Finalized (tl_new ++ [conf11]) /\ ~ is_confirmed (tledger_at tl_new) 11 /\
  good_key E0 tl_new (tledger_at tl_new) 77 /\ Permutation (reported tl_new (SlotInfo 11 10 0) Confirmed) [(77, Some 6, 11); (80, Some 7, 11)].
Proof.
  split; [by apply next_event; vm_compute|]. split; [apply new_settled|]. split.
  - intros [p Hp]. assert (tl_conf (tledger_at tl_new) = [(10, 9)]) as Hc by (by vm_compute). rewrite Hc in Hp. by apply elem_of_list_singleton in Hp.
  - split; [destruct C98_reads_show_ledger_example; by apply gk_token|]. vm_compute. solve_Permutation.
Qed.

(** ** Finding.  It is not enough that mints are confirmed first: account 80 is opened in slot 11, when its mint of slot 10 is confirmed but not yet
    finalized; the notification that slot 11 is confirmed panics. *)
Definition tl_young : list tsop :=
  [TInit (mintd 1001 50 1 1); TUpdate (mintd 1004 60 10 2) Processed; TSlot ord0 (SlotInfo 10 9 0) Confirmed; TUpdate (tokd 80 1004 1002 7 11 4) Processed].
Theorem C98_young_mint_refuted : exists E X l L ts ord si L', t_orderly E l L /\ tevent E L (TSlot ord si Confirmed) L' /\ settled E Confirmed (l ++ [TSlot ord si Confirmed]) /\
  ts_run E X ts_empty l = Done ts /\ ts_slot ord ts si Confirmed = Panic.
Proof.
  exists E0, X0, tl_young, (tledger_at tl_young), (final tl_young), ord0, (SlotInfo 11 10 0), (tledger_at (tl_young ++ [conf11])).
  split; [apply tledger_at_orderly; by vm_compute|]. split; [by apply next_event; vm_compute|]. split; [|split; [apply final_run; by vm_compute|by vm_compute]].
  apply (settled_check Confirmed [1001; 1004]); [done|by vm_compute|repeat constructor|repeat constructor; simpl; try done; intros m; done|by vm_compute|done|by vm_compute..].
Qed.
Print Assumptions C98_young_mint_refuted.
