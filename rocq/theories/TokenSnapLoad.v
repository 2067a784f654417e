(** Loading a snapshot is delivering its accounts, except that the mints are not found by their keys. *)
From Verif Require Import Base SMap DataModel BincodeModel BincodeProofs FilterModel StoreModel TokenModel TokenProofs SplModel SplProofs TokenUtilsModel
  TokenUtilsProofs TokenPendModel TokenPendSpec TokenPendProofs TokenStoreModel TokenStoreSpec TokenStoreProofs TokenStoreViews TokenStoreQuery Lz4Model TokenSnapSpec TokenSnapProofs.
#[local] Arguments le : simpl never.
#[local] Arguments unle : simpl never.
#[local] Opaque to_bytes from_bytes peek_pubkey.

Definition unix (ts : tstore) : tstore := set_ix ts ∅ (ts_ctr ts).
Lemma add_all_app ts l1 l2 : add_all ts (l1 ++ l2) = ts1 ← add_all ts l1; add_all ts1 l2.
Proof. revert ts. induction l1 as [|a l1 IH]; intros ts; [done|]. simpl. destruct (add_finalized ts a) as [ts1|]; [|done]. simpl. apply IH. Qed.

(** Multisigs. *)
Definition put_multis (ts : tstore) (l : list multisig) : tstore := foldl (fun ts m => set_multi ts (<[mu_pubkey m := m]> (ts_multi ts))) ts l.
Lemma put_multis_add ts l : add_all ts ((fun m => TPMulti m (mu_pubkey m)) <$> l) = Done (put_multis ts l).
Proof. revert ts. induction l as [|m l IH]; intros ts; [done|]. simpl. apply IH. Qed.
Lemma put_multis_same ts l : set_multi (put_multis ts l) (ts_multi ts) = ts.
Proof. revert ts. induction l as [|m l IH]; intros ts; [by destruct ts|]. simpl. specialize (IH (set_multi ts (<[mu_pubkey m := m]> (ts_multi ts)))).
  apply (f_equal (fun x => set_multi x (ts_multi ts))) in IH. simpl in IH. etrans; [exact IH|by destruct ts].
Qed.
Lemma put_multis_lookup ts l pk m : NoDup (mu_pubkey <$> l) ->
  ts_multi (put_multis ts l) !! pk = Some m <-> (m ∈ l /\ mu_pubkey m = pk) \/ (pk ∉ mu_pubkey <$> l /\ ts_multi ts !! pk = Some m).
Proof.
  revert ts. induction l as [|m0 l IH]; intros ts HN; simpl.
  - split; [intros H; right; split; [apply not_elem_of_nil|done]|]. intros [[H _]|[_ H]]; [by apply elem_of_nil in H|done].
  - rewrite fmap_cons in HN. apply NoDup_cons in HN as [Hn HN]. unfold put_multis in IH. rewrite (IH _ HN). simpl. rewrite lookup_insert_Some, elem_of_cons, not_elem_of_cons. split.
    + intros [[H1 H2]|[H1 [[H2 H3]|[H2 H3]]]]; [left; auto|subst; left; auto|right; auto].
    + intros [[[->|H1] H2]|[[H1 H2] H3]]; [right; split; [by subst|by left]|left; auto|right; split; [done|right; auto]].
Qed.

(** Mints. *)
Lemma load_mints_spec l : forall ti map, NoDup (ma_pubkey <$> l.*2) -> (forall m, m ∈ l.*2 -> ts_mint_ix ti !! ma_pubkey m = None) ->
  exists ti' map', load_mints (unix ti) map l = (unix ti', map') /\ add_all ti (TPMint <$> l.*2) = Done ti' /\
    ts_ctr ti' = ts_ctr ti + lenN l /\ ts_table ti' = ts_table ti /\ ts_multi ti' = ts_multi ti /\ ts_by_owner ti' = ts_by_owner ti /\ ts_fin ti' = ts_fin ti /\
    (forall j, j < ts_ctr ti -> ts_mints ti' !! j = ts_mints ti !! j) /\
    (forall i, i ∉ l.*1 -> map' !! i = map !! i) /\
    (NoDup l.*1 -> forall i m, (i, m) ∈ l -> exists j, map' !! i = Some j /\ ts_mints ti' !! j = Some m /\ ts_ctr ti <= j < ts_ctr ti').
Proof.
  induction l as [|[i m] l IH]; intros ti map HN Hfresh.
  - exists ti, map. split; [done|]. split; [done|]. split; [change (lenN (@nil (N * mint_account))) with 0; lia|]. do 4 (split; [done|]). split; [done|]. split; [done|]. intros _ i m H. by apply elem_of_nil in H.
  - rewrite !fmap_cons in HN. cbn [snd] in HN. apply NoDup_cons in HN as [Hn HN].
    pose proof (Hfresh m ltac:(left)) as Hm.
    set (t1 := set_ix (set_mints ti (<[ts_ctr ti := m]> (ts_mints ti))) (<[ma_pubkey m := ts_ctr ti]> (ts_mint_ix ti)) (ts_ctr ti + 1)).
    destruct (IH t1 (<[i := ts_ctr ti]> map) HN) as (ti' & map' & Hl & Ha & Hc & Ht & Hmu & Hbo & Hf & Hmi & Hmap & Hin).
    { intros m' Hm'. unfold t1. cbn [set_ix ts_mint_ix]. rewrite lookup_insert_ne; [apply Hfresh; by right|]. intros He. apply Hn. apply elem_of_list_fmap. by exists m'. }
    exists ti', map'. split; [|split; [|split; [|split; [|split; [|split; [|split; [|split; [|split]]]]]]]]; try done.
    + rewrite !fmap_cons. cbn [snd add_all add_finalized]. rewrite Hm. exact Ha.
    + rewrite Hc. unfold t1, lenN. cbn [set_ix ts_ctr length]. lia.
    + intros j Hj. rewrite Hmi by (unfold t1; cbn [set_ix ts_ctr]; lia). unfold t1. cbn [set_ix set_mints ts_mints]. apply lookup_insert_ne. lia.
    + intros k Hk. rewrite fmap_cons in Hk. apply not_elem_of_cons in Hk as [Hk1 Hk2]. rewrite Hmap by done. by apply lookup_insert_ne.
    + intros HN1 k m' Hk. rewrite fmap_cons in HN1. apply NoDup_cons in HN1 as [Hni HN1]. apply elem_of_cons in Hk as [[= -> ->]|Hk].
      * exists (ts_ctr ti). rewrite Hmap by done. rewrite lookup_insert. split; [done|]. rewrite Hmi by (unfold t1; cbn [set_ix ts_ctr]; lia).
        unfold t1. cbn [set_ix set_mints ts_mints]. rewrite lookup_insert. split; [done|]. rewrite Hc. unfold t1. cbn [set_ix ts_ctr]. lia.
      * destruct (Hin HN1 k m' Hk) as (j & H1 & H2 & H3). exists j. split; [done|]. split; [done|]. unfold t1 in H3. cbn [set_ix ts_ctr] in H3. lia.
Qed.

(** Token accounts. *)
Definition remap (map : gmap N N) (t : token_account) : token_account := with_mint t (default 0 (map !! ta_mint t)).
Lemma good_with t i : good t -> i < 2 ^ 32 -> good (with_mint t i).
Proof. intros [(H1 & H2 & H3 & H4 & H5) H6] Hi. by split. Qed.
Lemma add_token_unix ti t : add_token (unix ti) t = match add_token ti t with Done x => Done (unix x) | Panic => Panic end.
Proof. unfold add_token. cbn [unix set_ix ts_table]. destruct (tb_save _ _) as [[[tb i] b]|]; [|done]. cbn [mbind res_bind]. by destruct b. Qed.
Definition loadable (map : gmap N N) (c : N) (t : token_account) : Prop :=
  good t /\ ta_extra t = None /\ ta_deleted t = false /\ exists j, map !! ta_mint t = Some j /\ j < c.
Lemma load_tokens_spec map l : forall ti, tinv ti -> ts_ctr ti <= 2 ^ 32 -> Forall (loadable map (ts_ctr ti)) l ->
  exists ti', load_tokens (unix ti) map (to_bytes <$> l) = Done (unix ti') /\ add_all ti ((fun t => TPToken (remap map t)) <$> l) = Done ti' /\
    tinv ti' /\ ts_ctr ti' = ts_ctr ti /\ ts_mints ti' = ts_mints ti /\ ts_multi ti' = ts_multi ti /\ ts_fin ti' = ts_fin ti.
Proof.
  induction l as [|t l IH]; intros ti Hi Hc Hf; [by exists ti|]. apply Forall_cons in Hf as [(Hg & Hx & Hd & j & Hj & Hjc) Hf].
  rewrite !fmap_cons. cbn [load_tokens add_all]. rewrite (good_from _ Hg). cbn [mbind res_bind]. rewrite Hj. cbn [unwrap mbind res_bind].
  assert (remap map t = with_mint t j) as -> by (unfold remap; by rewrite Hj).
  assert (tpa_ok (ts_ctr ti) (TPToken (with_mint t j))) as Hok.
  { split; [|split; [split; [done|done]|done]]. intros i Hi'. change (with_mint (with_mint t j) i) with (with_mint t i). by apply good_with. }
  destruct (add_finalized_inv ti _ Hi Hok Hc) as (t1 & H1 & Hi1 & _). cbn [add_finalized] in H1. cbn [add_finalized]. rewrite add_token_unix.
  rewrite H1. cbn [mbind res_bind].
  assert (ts_ctr t1 = ts_ctr ti /\ ts_mints t1 = ts_mints ti /\ ts_multi t1 = ts_multi ti /\ ts_fin t1 = ts_fin ti) as (E1 & E2 & E3 & E4).
  { unfold add_token in H1. destruct (tb_save _ _) as [[[tb i] b]|]; [|done]. cbn [mbind res_bind] in H1. injection H1 as <-. by destruct b. }
  rewrite <- E1, <- E2, <- E3, <- E4. apply IH; [done|congruence|]. by rewrite E1.
Qed.
Lemma add_tokens_pos l : forall ti ti', tinv ti -> ts_ctr ti <= 2 ^ 32 -> Forall (fun t => tpa_ok (ts_ctr ti) (TPToken t)) l -> add_all ti (TPToken <$> l) = Done ti' ->
  NoDup (ta_pubkey <$> l) -> (forall pk i t, ~ at_pos (ts_table ti) pk i t) ->
  forall pk t, (exists i, at_pos (ts_table ti') pk i t) <-> t ∈ l /\ ta_pubkey t = pk.
Proof.
  induction l as [|t0 l IH] using rev_ind; intros ti ti' Hi Hc Hf H HN Hno pk t.
  - simpl in H. injection H as <-. split; [intros [i Ha]; by apply Hno in Ha|]. intros [Ht _]. by apply elem_of_nil in Ht.
  - rewrite fmap_app, add_all_app in H. destruct (add_all ti (TPToken <$> l)) as [t1|] eqn:H1; [|done]. cbn [mbind res_bind] in H.
    apply Forall_app in Hf as [Hf Hf0]. apply Forall_cons in Hf0 as [Hf0 _]. rewrite fmap_app in HN. apply NoDup_app in HN as (HN & Hdis & _).
    specialize (IH ti t1 Hi Hc Hf H1 HN Hno).
    assert (ts_ctr t1 = ts_ctr ti) as Hc1.
    { clear -H1. revert ti H1. induction l as [|x l IH]; intros ti H1; simpl in H1; [by injection H1 as <-|]. unfold add_token in H1.
      destruct (tb_save _ _) as [[[tb i] b]|]; [|done]. cbn [mbind res_bind] in H1. apply IH in H1. by destruct b. }
    destruct (add_all_inv _ _ _ Hi (proj2 (Forall_fmap _ _ _) Hf) H1) as [Hi1 _]; [by rewrite Hc1|].
    simpl in H. unfold add_token in H. destruct (tb_save_spec _ t0 (ti_table _ Hi1) (tpa_ok_good _ _ Hf0 Hc)) as (tb & i & b & Hs & Htb & Hat & Hoth & _).
    rewrite Hs in H. cbn [mbind res_bind] in H. injection H as <-. assert (ts_table (if b then set_table t1 (push_at (ta_mint t0) i (ts_by_mint t1)) (push_at (prefix4 (ta_owner t0)) i (ts_by_owner t1)) tb
      else set_table t1 (ts_by_mint t1) (ts_by_owner t1) tb) = tb) as -> by (by destruct b).
    rewrite elem_of_app, elem_of_list_singleton. destruct (decide (pk = ta_pubkey t0)) as [->|Hne].
    + split.
      * intros [j Ha]. destruct (at_pos_fun _ _ _ _ _ _ Htb Ha Hat) as [-> ->]. auto.
      * intros [[Hin| ->] He]; [|by exists i]. exfalso. apply (Hdis (ta_pubkey t)); apply elem_of_list_fmap; [by exists t|]. exists t0. split; [done|left].
    + split.
      * intros [j Ha]. apply Hoth in Ha; [|done]. destruct (proj1 (IH pk t) (ex_intro _ j Ha)) as [? ?]. auto.
      * intros [[Hin| ->] He]; [|done]. destruct (proj2 (IH pk t) (conj Hin He)) as [j Ha]. exists j. by apply Hoth.
Qed.
Lemma below_length (l : list N) n : NoDup l -> (forall x, x ∈ l -> x < n) -> lenN l <= n.
Proof.
  intros HN Hb. assert (length l <= length (map N.of_nat (seq 0 (N.to_nat n))))%nat as Hle.
  { apply NoDup_incl_length; [by apply NoDup_ListNoDup|]. intros x Hx. apply in_map_iff. exists (N.to_nat x). split; [lia|]. apply in_seq.
    apply elem_of_list_In, Hb in Hx. lia. }
  rewrite map_length, seq_length in Hle. unfold lenN. lia.
Qed.

(** ** The snapshot of a store, loaded into an empty one *)
Record loaded (p : program) (ts ti : tstore) : Prop := Loaded {
  ld_inv : tinv ti;
  ld_fin : ts_fin ti = 0;
  ld_multi : ts_multi ti = ts_multi ts;
  ld_to : forall pk i t, at_pos (ts_table ts) pk i t -> ta_program t = p ->
    exists i' j, at_pos (ts_table ti) pk i' (with_mint t j) /\ ts_mints ti !! j = ts_mints ts !! ta_mint t;
  ld_from : forall pk i t', at_pos (ts_table ti) pk i t' ->
    exists i' t j, at_pos (ts_table ts) pk i' t /\ ta_program t = p /\ t' = with_mint t j /\ ts_mints ti !! j = ts_mints ts !! ta_mint t;
  ld_q : exists L, qinv L ti;
}.
Lemma load_own p ts : tinv ts -> ts_ctr ts <= 2 ^ 32 ->
  (forall i t, stored (ts_table ts) i t -> ta_deleted t = false -> at_pos (ts_table ts) (ta_pubkey t) i t) ->
  (forall pk i t, at_pos (ts_table ts) pk i t -> exists m, ts_mints ts !! ta_mint t = Some m /\ ma_program m = ta_program t) ->
  (forall pk m, ts_multi ts !! pk = Some m -> mu_pubkey m = pk) ->
  exists s ti, snap_content ts p = Done s /\ load_content ts_empty s = Done (unix ti) /\ loaded p ts ti /\ (store_fits ts -> snap_fits s).
Proof.
  intros Hi Hc Hlive Hmint Hmul. destruct (snapshot_spec (ts_table ts) p (ti_table _ Hi)) as (l & Hsn & Hl & HN & Hll). specialize (HN Hlive).
  set (ms := filter (fun x => ma_program x.2 = p) (map_to_list (ts_mints ts))). set (us := snd <$> map_to_list (ts_multi ts)).
  assert (forall i m, (i, m) ∈ ms <-> ts_mints ts !! i = Some m /\ ma_program m = p) as Hms.
  { intros i m. unfold ms. rewrite elem_of_list_filter, elem_of_map_to_list. cbn [snd]. tauto. }
  assert (NoDup ms.*1) as HN1.
  { unfold ms. generalize (NoDup_fst_map_to_list (ts_mints ts)). generalize (map_to_list (ts_mints ts)). intros k. induction k as [|[i m] k IH]; intros Hk; [constructor|].
    rewrite fmap_cons in Hk. apply NoDup_cons in Hk as [Hk1 Hk2]. rewrite filter_cons. destruct (decide _); [|by apply IH]. rewrite fmap_cons. apply NoDup_cons. split; [|by apply IH].
    intros Hin. apply Hk1. apply elem_of_list_fmap in Hin as (y & Hy & Hin). apply elem_of_list_filter in Hin as [_ Hin]. apply elem_of_list_fmap. by exists y. }
  assert (NoDup (ma_pubkey <$> ms.*2)) as HN2.
  { rewrite <- list_fmap_compose. apply NoDup_fmap_2_strong; [|by eapply NoDup_fmap_1].
    intros [i m] [j m'] Hx Hy He. apply Hms in Hx as [Hx _], Hy as [Hy _]. simpl in He. pose proof (ti_mints _ Hi _ _ Hx). pose proof (ti_mints _ Hi _ _ Hy).
    assert (i = j) as -> by congruence. f_equal. congruence. }
  assert (lenN ms <= 2 ^ 32) as Hlen.
  { etrans; [|apply (below_length ms.*1 (2 ^ 32) HN1)]; [unfold lenN; by rewrite fmap_length|]. intros x Hx. apply elem_of_list_fmap in Hx as ([i m] & -> & Hx).
    apply Hms in Hx as [Hx _]. apply mints_below in Hx; [|done]. simpl. lia. }
  assert (NoDup (mu_pubkey <$> us)) as HNu.
  { unfold us. rewrite <- list_fmap_compose. apply NoDup_fmap_2_strong; [|apply NoDup_map_to_list]. intros [i m] [j m'] Hx Hy He.
    apply elem_of_map_to_list in Hx, Hy. simpl in He. apply Hmul in Hx as H1. apply Hmul in Hy as H2. assert (i = j) as -> by congruence. f_equal. congruence. }
  set (t0 := put_multis ts_empty us).
  pose proof (put_multis_same ts_empty us) as Hsame. fold t0 in Hsame.
  assert (ts_mint_ix t0 = ∅ /\ ts_ctr t0 = 0 /\ ts_table t0 = table_empty /\ ts_fin t0 = 0 /\ ts_by_owner t0 = ∅) as (E1 & E2 & E3 & E4 & E5).
  { clearbody t0. by destruct t0; injection Hsame as -> -> -> -> -> -> -> -> ->. }
  assert (unix t0 = t0) as Hux by (unfold unix; rewrite E2; clear -E1 E2; by destruct t0; simpl in *; subst).
  assert (tinv t0) as Hi0.
  { destruct (add_all_inv ((fun m => TPMulti m (mu_pubkey m)) <$> us) ts_empty t0 tinv_empty) as [? _]; [|apply put_multis_add|by rewrite E2|done].
    apply Forall_fmap, Forall_forall. intros m Hm. unfold us in Hm. apply elem_of_list_fmap in Hm as ([pk m'] & -> & Hm). apply elem_of_map_to_list in Hm. by apply (ti_multi _ Hi) in Hm. }
  destruct (load_mints_spec ms t0 ∅ HN2) as (t1 & map & Hlm & Ham & Hc1 & Ht1 & Hmu1 & Hbo1 & Hf1 & _ & _ & Hmap); [intros m _; rewrite E1; apply lookup_empty|]. specialize (Hmap HN1).
  assert (ts_ctr t1 <= 2 ^ 32) as Hc1' by (rewrite Hc1, E2; lia).
  assert (tinv t1) as Hi1.
  { destruct (add_all_inv (TPMint <$> ms.*2) t0 t1 Hi0) as [? _]; [|done..]. apply Forall_fmap, Forall_forall. done. }
  assert (forall t, t ∈ l -> exists m j, ts_mints ts !! ta_mint t = Some m /\ map !! ta_mint t = Some j /\ ts_mints t1 !! j = Some m /\ j < ts_ctr t1) as Hj.
  { intros t Ht. apply Hl in Ht as (i & Hst & Hp & Hd). destruct (Hmint _ _ _ (Hlive _ _ Hst Hd)) as (m & Hm & Hmp).
    destruct (Hmap (ta_mint t) m) as (j & H1 & H2 & H3); [apply Hms; split; [done|congruence]|]. exists m, j. split; [done|]. split; [done|]. split; [done|lia]. }
  destruct (load_tokens_spec map l t1 Hi1 Hc1') as (t2 & Hlt & Hat & Hi2 & Hc2 & Hm2 & Hmu2 & Hf2).
  { apply Forall_forall. intros t Ht. destruct (Hj t Ht) as (m & j & _ & H1 & _ & H2). apply Hl in Ht as (i & Hst & Hp & Hd). split; [by destruct Hst|].
    destruct (ti_tokens _ Hi _ _ Hst Hd) as [_ Hx]. split; [done|]. split; [done|]. eauto. }
  exists (TSnap ms us (to_bytes <$> l)), t2. split; [unfold snap_content; by rewrite Hsn|]. split.
  { unfold load_content. cbn [sn_multis sn_mints sn_tokens]. fold (put_multis ts_empty us). fold t0. rewrite <- Hux. rewrite Hlm. exact Hlt. }
  set (l' := remap map <$> l).
  assert (forall pk t, (exists i, at_pos (ts_table t2) pk i t) <-> t ∈ l' /\ ta_pubkey t = pk) as Hpos.
  { eapply (add_tokens_pos l' t1); [done|done| | | |].
    - unfold l'. apply Forall_fmap, Forall_forall. intros t Ht. destruct (Hj t Ht) as (m & j & _ & H1 & _ & H2). apply Hl in Ht as (i & Hst & Hp & Hd). unfold remap. cbn. rewrite H1. cbn.
      destruct (ti_tokens _ Hi _ _ Hst Hd) as [_ Hx]. destruct Hst as [Hg _]. split; [|done]. intros k Hk. change (with_mint (with_mint t j) k) with (with_mint t k). by apply good_with.
    - unfold l'. rewrite <- list_fmap_compose. exact Hat.
    - unfold l'. rewrite <- list_fmap_compose. exact HN.
    - rewrite Ht1, E3. intros pk i t (_ & _ & ixs & Hk & _). simpl in Hk. by rewrite lookup_empty in Hk. }
  split; [|].
  - constructor; [done|congruence| | | |].
    + rewrite Hmu2, Hmu1. apply map_eq. intros pk. apply option_eq. intros m. unfold t0. rewrite put_multis_lookup by done. cbn [ts_empty ts_multi]. rewrite lookup_empty. split.
      * intros [[Hm <-]|[_ Hm]]; [|done]. unfold us in Hm. apply elem_of_list_fmap in Hm as ([pk m'] & -> & Hm). apply elem_of_map_to_list in Hm. simpl. by rewrite (Hmul _ _ Hm).
      * intros Hm. left. split; [|by apply Hmul]. unfold us. apply elem_of_list_fmap. exists (pk, m). split; [done|]. by apply elem_of_map_to_list.
    + intros pk i t Ha Hp. pose proof Ha as (Hst & Hk & _). pose proof (ti_live _ Hi _ _ _ Ha) as Hd. assert (t ∈ l) as Ht by (apply Hl; exists i; done).
      destruct (Hj t Ht) as (m & j & H1 & H2 & H3 & _). destruct (proj2 (Hpos pk (remap map t))) as [i' Ha']; [split; [apply elem_of_list_fmap; by exists t|done]|].
      exists i', j. unfold remap in Ha'. rewrite H2 in Ha'. split; [done|]. rewrite Hm2. congruence.
    + intros pk i t' Ha. destruct (proj1 (Hpos pk t') (ex_intro _ i Ha)) as [Ht' Hk]. unfold l' in Ht'. apply elem_of_list_fmap in Ht' as (t & -> & Ht).
      destruct (Hj t Ht) as (m & j & H1 & H2 & H3 & _). apply Hl in Ht as (i' & Hst & Hp & Hd). exists i', t, j. unfold remap in *. rewrite H2. cbn in Hk |- *.
      split; [rewrite <- Hk; by apply Hlive|]. split; [done|]. split; [done|]. rewrite Hm2. congruence.
    + set (L := TPToken <$> l'). exists L. rewrite <- (app_nil_l L). rewrite (list_fmap_compose (remap map) TPToken) in Hat. fold l' in Hat. fold L in Hat.
      assert (owner_stable L /\ isolated_log L) as [Hos Hiso].
      { split.
        - intros a b Ha Hb He. unfold L in Ha, Hb. apply elem_of_list_fmap in Ha as (? & [= <-] & Ha), Hb as (? & [= <-] & Hb).
          unfold l' in Ha, Hb. apply elem_of_list_fmap in Ha as (a' & -> & Ha), Hb as (b' & -> & Hb). simpl in *.
          apply Hl in Ha as (i & Sa & Pa & Da), Hb as (j & Sb & Pb & Db). pose proof (Hlive _ _ Sa Da) as A1. pose proof (Hlive _ _ Sb Db) as A2. rewrite He in A1.
          by destruct (at_pos_fun _ _ _ _ _ _ (ti_table _ Hi) A1 A2) as [_ ->].
        - intros q t Hq. unfold L in Hq. apply elem_of_list_fmap in Hq as (? & ? & _). done. }
      refine (add_all_ind (fun x _ => qinv ([] ++ L) x) (fun a => a ∈ L) _ L t1 t2 [] Hi1 _ _ Hat _ _); [| | |by rewrite Hc2|].
      * intros x a x' L0 Hix Hcx Hax HaL HQ Hx. by eapply add_finalized_qinv.
      * unfold L, l'. apply Forall_fmap, Forall_fmap, Forall_forall. intros t Ht. destruct (Hj t Ht) as (m & j & _ & H1 & _ & H2). apply Hl in Ht as (i & Hst & Hp & Hd). unfold remap. cbn. rewrite H1. cbn.
        destruct (ti_tokens _ Hi _ _ Hst Hd) as [_ Hx]. destruct Hst as [Hg _]. split; [|done]. intros k Hk. change (with_mint (with_mint t j) k) with (with_mint t k). by apply good_with.
      * by apply Forall_forall.
      * constructor; rewrite Ht1, E3.
        -- intros i t [_ H]. simpl in H. by rewrite lookup_nil in H.
        -- intros pk i t (_ & _ & ixs & H & _). simpl in H. by rewrite lookup_empty in H.
        -- intros pk i t (_ & _ & ixs & H & _). simpl in H. by rewrite lookup_empty in H.
  - intros (F1 & F2 & F3 & F4). unfold snap_fits. cbn [sn_mints sn_multis sn_tokens]. split; [|split; [|split; [|split; [|split]]]].
    + intros i m Him. apply Hms in Him as [Him _]. split; [apply mints_below in Him; [lia|done]|by eapply F1].
    + intros m Hm. unfold us in Hm. apply elem_of_list_fmap in Hm as ([pk m'] & -> & Hm). apply elem_of_map_to_list in Hm. by eapply F2.
    + intros b Hb. apply elem_of_list_fmap in Hb as (t & -> & Ht). apply Hl in Ht as (i & Hst & Hp & Hd). destruct (ti_tokens _ Hi _ _ Hst Hd) as [_ Hx].
      unfold lenN. rewrite to_bytes_parts, !app_length, header_length. unfold p_delegate, p_native, p_close, p_extra. rewrite Hx. clear.
      destruct (ta_delegate t) as [[d n]|], (ta_native t), (ta_close t); rewrite ?app_length, ?le_length; simpl; lia.
    + lia.
    + unfold us, lenN. rewrite fmap_length. exact F3.
    + unfold lenN. rewrite fmap_length. eapply N.le_lt_trans; [|exact F4]. unfold lenN. lia.
Qed.
