(** Invariants of the token program store. *)
From Verif Require Import Base SMap DataModel BincodeModel BincodeProofs FilterModel StoreModel TokenModel TokenProofs SplModel SplProofs TokenUtilsModel
  TokenUtilsProofs TokenPendModel TokenPendSpec TokenPendProofs TokenPendProps TokenUtilsProps TokenStoreModel TokenStoreSpec.
#[local] Arguments le : simpl never.
#[local] Arguments unle : simpl never.
#[local] Opaque to_bytes from_bytes peek_pubkey.

(** ** Classification *)
Lemma account_type_inv E a ix ctr ty ix' ctr' : account_type E a ix ctr = Done (Some (ty, ix', ctr')) ->
  (ty = TPDeleted (d_pubkey a) /\ ix' = ix /\ ctr' = ctr) \/
  (d_lamports a <> 0 /\ exists p v, d_owner a = program_pk p /\ data_bytes E (d_data a) = Done v /\
   ((exists m x, unpack_mint v = Some m /\ ty = TPMint (of_spl_mint p a m x) /\ ix' = ix /\ ctr' = ctr) \/
    (exists m, unpack_multisig v = Some m /\ ty = TPMulti (of_spl_multisig p a m) (d_pubkey a) /\ ix' = ix /\ ctr' = ctr) \/
    (exists s i, unpack_account v = Some s /\ mint_index (sa_mint s) ix ctr = (i, ix', ctr') /\ ty = TPToken (of_spl_account p a s i None)))).
Proof.
  unfold account_type. destruct (_ || _) eqn:Hg; [intros [= <- <- <-]; by left|]. intros H. right.
  apply orb_false_iff in Hg as [Hl Hown]. apply N.eqb_neq in Hl. split; [done|].
  assert (forall p v x, (match unpack_mint v with Some m => Some (TPMint (of_spl_mint p a m x), ix, ctr) | None => None end) = Some (ty, ix', ctr') ->
     exists m x, unpack_mint v = Some m /\ ty = TPMint (of_spl_mint p a m x) /\ ix' = ix /\ ctr' = ctr) as Hm.
  { intros p v x. destruct (unpack_mint v); [|done]. intros [= <- <- <-]. eauto 8. }
  assert (forall p v, (match unpack_multisig v with Some m => Some (TPMulti (of_spl_multisig p a m) (d_pubkey a), ix, ctr) | None => None end) = Some (ty, ix', ctr') ->
     exists m, unpack_multisig v = Some m /\ ty = TPMulti (of_spl_multisig p a m) (d_pubkey a) /\ ix' = ix /\ ctr' = ctr) as Hs.
  { intros p v. destruct (unpack_multisig v) eqn:Hu; [|done]. intros [= <- <- <-]. eauto 8. }
  assert (forall p v x, (match unpack_account v with Some s => let '(i, ix', ctr') := mint_index (sa_mint s) ix ctr in Some (TPToken (of_spl_account p a s i x), ix', ctr')
       | None => None end) = Some (ty, ix', ctr') -> (length v = 165%nat -> x = None) ->
     exists s i, unpack_account v = Some s /\ mint_index (sa_mint s) ix ctr = (i, ix', ctr') /\ ty = TPToken (of_spl_account p a s i None)) as Ht.
  { intros p v x. destruct (unpack_account v) as [s|] eqn:Hu; [|done]. destruct (mint_index (sa_mint s) ix ctr) as [[i ix1] c1] eqn:Hmi.
    intros [= <- <- <-] Hx. rewrite Hx by (by apply unpack_length in Hu). eauto 10. }
  destruct (N.eqb_spec (d_owner a) spl_2022_id) as [Ho|Ho].
  - destruct (data_bytes E (d_data a)) as [v|]; [|done]. cbn [mbind res_bind] in H. exists Token2022P, v. split; [done|]. split; [done|].
    destruct (_ =? 82); [injection H as H; eauto|]. destruct (_ =? 165); [injection H as H; eauto|]. destruct (_ =? 355); [injection H as H; eauto|].
    destruct (165 <? _); [|done]. destruct (v !! 165%nat) as [k|] eqn:Hk; [|done]. cbn [unwrap mbind res_bind] in H.
    destruct (_ =? 1); [injection H as H; eauto|]. destruct (_ =? 2); [|done]. injection H as H. right. right. eapply Ht; [exact H|].
    intros Hlen. apply lookup_lt_Some in Hk. lia.
  - assert (d_owner a = spl_token_id) as Ho'. { destruct (N.eqb_spec (d_owner a) spl_token_id); done. }
    destruct (data_bytes E (d_data a)) as [v|]; [|done]. cbn [mbind res_bind] in H. exists TokenP, v. split; [done|]. split; [done|].
    destruct (_ =? 82); [injection H as H; eauto|]. destruct (_ =? 165); [injection H as H; eauto|]. injection H as H. eauto.
Qed.
Lemma of_spl_good p a s i : d_pubkey a < 2 ^ 256 -> sa_ok s -> i < 2 ^ 32 -> good (of_spl_account p a s i None).
Proof.
  intros Hp (H1 & H2 & H3 & H4 & H5 & H6 & H7) Hi. split; [|done]. unfold ta_ok. cbn [of_spl_account ta_pubkey ta_owner ta_mint ta_amount ta_delegate ta_native ta_close].
  split; [done|]. split; [done|]. split; [done|]. split; [done|]. split; [|split].
  - intros d n H. destruct (sa_delegate s) as [d0|] eqn:Hd; [|done]. simpl in H. injection H as <- <-. split; [|done]. by apply H4.
  - intros n H. by apply H5.
  - intros n H. by apply H7.
Qed.

(** ** Invariant *)
(** What may be delivered: token accounts in range with an index below [c], multisigs that can be packed. *)
Definition tpa_ok (c : N) (a : tpa) : Prop :=
  match a with
  | TPToken t => (forall i, i < 2 ^ 32 -> good (with_mint t i)) /\ (ta_mint t < c /\ ta_extra t = None) /\ ta_deleted t = false
  | TPMulti m _ => (length (mu_signers m) <= max_signers)%nat
  | _ => True
  end.
Record tinv (ts : tstore) : Prop := TInv {
  ti_ix : ix_ok (ts_mint_ix ts) (ts_ctr ts);
  ti_mints : forall i m, ts_mints ts !! i = Some m -> ts_mint_ix ts !! ma_pubkey m = Some i;
  ti_table : tb_ok (ts_table ts);
  ti_tokens : forall i t, stored (ts_table ts) i t -> ta_deleted t = false -> ta_mint t < ts_ctr ts /\ ta_extra t = None;
  ti_live : forall pk i t, at_pos (ts_table ts) pk i t -> ta_deleted t = false;
  ti_multi : forall pk m, ts_multi ts !! pk = Some m -> (length (mu_signers m) <= max_signers)%nat;
  ti_sorted : sm_sorted (ts_pend ts);
  ti_pend : forall s pk v, version (ts_pend ts) s pk v -> tpa_ok (ts_ctr ts) v.1 /\ tpa_pubkey v.1 = pk;
}.
Lemma with_mint_id t : with_mint t (ta_mint t) = t.
Proof. by destruct t. Qed.
Lemma tpa_ok_mono c c' a : tpa_ok c a -> c <= c' -> tpa_ok c' a.
Proof. destruct a; simpl; try done. intros (? & [? ?] & ?) ?. split; [done|]. split; [split; [lia|done]|done]. Qed.
Lemma tpa_ok_good c t : tpa_ok c (TPToken t) -> c <= 2 ^ 32 -> good t.
Proof. intros (H & [Hm _] & _) Hc. rewrite <- (with_mint_id t). apply H. lia. Qed.
Lemma tinv_empty : tinv ts_empty.
Proof.
  constructor; simpl.
  - apply ix_ok_empty.
  - intros i m H. by rewrite lookup_empty in H.
  - apply tb_ok_empty.
  - intros i t [_ H]. simpl in H. by rewrite lookup_nil in H.
  - intros pk i t (_ & _ & ixs & H & _). simpl in H. by rewrite lookup_empty in H.
  - intros pk m H. by rewrite lookup_empty in H.
  - constructor.
  - intros s pk v (b & Hb & _). by apply elem_of_nil in Hb.
Qed.

Lemma accepted_ok E a ix ctr ty ix' ctr' : account_type E a ix ctr = Done (Some (ty, ix', ctr')) -> d_pubkey a < 2 ^ 256 -> ix_ok ix ctr ->
  ix_ok ix' ctr' /\ ctr <= ctr' /\ tpa_ok ctr' ty /\ tpa_pubkey ty = d_pubkey a /\ (forall p i, ix !! p = Some i -> ix' !! p = Some i) /\
  (forall p i, ix' !! p = Some i -> ix !! p = None -> i = ctr /\ ctr' = ctr + 1 /\ exists t, ty = TPToken t /\ ta_mint t = i) /\
  (forall t, ty = TPToken t -> exists p, ix' !! p = Some (ta_mint t)).
Proof.
  intros H Hpk Hix. apply account_type_inv in H as [(-> & -> & ->)|[Hl (p & v & Ho & Hv & [(m & x & Hu & -> & -> & ->)|[(m & Hu & -> & -> & ->)|(s & i & Hu & Hmi & ->)]])]].
  - split; [done|]. split; [lia|]. repeat (split; [done|]). split; [congruence|done].
  - split; [done|]. split; [lia|]. repeat (split; [done|]). split; [congruence|done].
  - split; [done|]. split; [lia|]. split; [|split; [done|split; [done|split; [congruence|done]]]]. simpl.
    apply unpack_multisig_ok in Hu as (_ & _ & Hlen & _). rewrite <- Hlen. apply live_signers_length.
  - apply unpack_account_ok in Hu. pose proof (mint_index_found _ _ _ _ _ _ Hmi) as Hfound.
    unfold mint_index in Hmi. destruct Hix as [Hinj Hlt]. destruct (ix !! sa_mint s) as [j|] eqn:Hj; injection Hmi as <- <- <-.
    + split; [done|]. split; [lia|]. split; [|split; [done|split; [done|split; [congruence|]]]].
      * simpl. split; [|split; [split; [by eapply Hlt|done]|by apply N.eqb_neq]]. intros i Hi. by apply of_spl_good.
      * intros t [= <-]. eauto.
    + split; [|split; [lia|split; [|split; [done|split; [|split]]]]].
      * split.
        -- intros p1 p2 i H1 H2. apply lookup_insert_Some in H1 as [[<- <-]|[Hn1 H1]], H2 as [[<- Hx]|[Hn2 H2]]; try done.
           ++ apply Hlt in H2. lia.
           ++ apply Hlt in H1. lia.
           ++ by eapply Hinj.
        -- intros p1 i H1. apply lookup_insert_Some in H1 as [[<- <-]|[Hn1 H1]]; [lia|]. apply Hlt in H1. lia.
      * simpl. split; [|split; [split; [lia|done]|by apply N.eqb_neq]]. intros i Hi. by apply of_spl_good.
      * intros p1 i H1. rewrite lookup_insert_ne; [done|]. congruence.
      * intros p1 i H1 H2. apply lookup_insert_Some in H1 as [[<- <-]|[Hn1 H1]]; [|congruence]. split; [done|]. split; [done|]. eauto.
      * intros t [= <-]. eauto.
Qed.

(** Changing fields the invariant does not tie to the others. *)
Lemma tinv_set_ix ts ix ctr : tinv ts -> ix_ok ix ctr -> ts_ctr ts <= ctr -> (forall p i, ts_mint_ix ts !! p = Some i -> ix !! p = Some i) ->
  tinv (set_ix ts ix ctr).
Proof.
  intros [H1 H2 H3 H4 H5 H6 H7 H8] Hix Hle Hsub. constructor; simpl; try done.
  - intros i m Hm. by apply Hsub, H2.
  - intros i t Hs Hd. destruct (H4 i t Hs Hd). split; [lia|done].
  - intros s pk v Hv. destruct (H8 s pk v Hv). split; [|done]. by eapply tpa_ok_mono.
Qed.
Lemma tinv_set_pend ts p : tinv ts -> sm_sorted p -> (forall s pk v, version p s pk v -> tpa_ok (ts_ctr ts) v.1 /\ tpa_pubkey v.1 = pk) -> tinv (set_pend ts p).
Proof. intros [H1 H2 H3 H4 H5 H6 H7 H8] Hs Hv. by constructor. Qed.
Lemma tinv_set_conf ts c : tinv ts -> tinv (set_conf ts c).
Proof. intros [H1 H2 H3 H4 H5 H6 H7 H8]. by constructor. Qed.
Lemma tinv_set_fin ts c : tinv ts -> tinv (set_fin ts c).
Proof. intros [H1 H2 H3 H4 H5 H6 H7 H8]. by constructor. Qed.

Lemma stored_deleted_pos tb tb' pk j : tb_ok tb -> tb_delete tb pk = Done tb' -> forall t, stored tb' j t -> stored tb j t \/ t = deleted_account.
Proof.
  intros Hok Hd t [Hg Hs]. destruct (tb_delete_spec tb pk Hok) as (tb1 & H1 & _ & _ & _ & Hac & _).
  rewrite Hd in H1. injection H1 as <-. destruct (Hac j) as [He|[_ He]]; rewrite He in Hs.
  - left. by split.
  - right. apply (inj Some) in Hs. symmetry. by apply to_bytes_inj in Hs; [|apply good_deleted|].
Qed.

Lemma add_token_spec ts t : tinv ts -> tpa_ok (ts_ctr ts) (TPToken t) -> ts_ctr ts <= 2 ^ 32 ->
  exists tb i (b : bool), tb_save (ts_table ts) t = Done (tb, i, b) /\
    add_token ts t = Done (if b then set_table ts (push_at (ta_mint t) i (ts_by_mint ts)) (push_at (prefix4 (ta_owner t)) i (ts_by_owner ts)) tb
                           else set_table ts (ts_by_mint ts) (ts_by_owner ts) tb).
Proof.
  intros Hi Ht Hc. destruct (tb_save_spec _ t (ti_table _ Hi) (tpa_ok_good _ _ Ht Hc)) as (tb & i & b & Hs & _).
  exists tb, i, b. split; [done|]. unfold add_token. rewrite Hs. simpl. by destruct b.
Qed.
Lemma tinv_table ts bm bo tb : tinv ts -> tb_ok tb -> (forall i t, stored tb i t -> ta_deleted t = false -> ta_mint t < ts_ctr ts /\ ta_extra t = None) ->
  (forall pk i t, at_pos tb pk i t -> ta_deleted t = false) ->
  tinv (set_table ts bm bo tb).
Proof. intros [H1 H2 H3 H4 H5 H6 H7 H8] Hok Ht Hl. by constructor. Qed.
Lemma add_finalized_inv ts a : tinv ts -> tpa_ok (ts_ctr ts) a -> ts_ctr ts <= 2 ^ 32 ->
  exists ts', add_finalized ts a = Done ts' /\ tinv ts' /\ ts_ctr ts <= ts_ctr ts' /\ ts_pend ts' = ts_pend ts /\ ts_fin ts' = ts_fin ts /\ ts_conf ts' = ts_conf ts.
Proof.
  intros Hi Ha Hc. destruct a as [t|m|m pk|pk]; simpl.
  - destruct (add_token_spec ts t Hi Ha Hc) as (tb & i & b & Hs & ->).
    pose proof (tpa_ok_good _ _ Ha Hc) as Hg.
    destruct (tb_save_spec _ t (ti_table _ Hi) Hg) as (tb1 & i1 & b1 & Hs1 & Hok & Hat & Hoth & _ & _ & Hsame & _).
    rewrite Hs in Hs1. injection Hs1 as <- <- <-. eexists. split; [done|].
    assert (forall j t', stored tb j t' -> ta_deleted t' = false -> ta_mint t' < ts_ctr ts /\ ta_extra t' = None) as Hst.
    { intros j t' Hst Hd. destruct (decide (j = i)) as [->|Hne].
      - destruct Hat as (Hst' & _). rewrite (stored_fun _ _ _ _ Hst Hst'). by destruct Ha as (_ & ? & _).
      - apply (ti_tokens _ Hi j t'); [|done]. destruct Hst as [? Hst]. split; [done|]. by rewrite <- Hsame. }
    assert (forall q j t', at_pos tb q j t' -> ta_deleted t' = false) as Hlv.
    { intros q j t' Hq. destruct (decide (q = ta_pubkey t)) as [->|Hne].
      - destruct (at_pos_fun _ _ _ _ _ _ Hok Hq Hat) as [_ ->]. by destruct Ha as (_ & _ & ?).
      - apply Hoth in Hq; [|done]. by eapply ti_live. }
    destruct b; (split; [by apply tinv_table|done]).
  - destruct (ts_mint_ix ts !! ma_pubkey m) as [i|] eqn:Hm.
    + eexists. split; [done|]. split; [|done]. destruct Hi as [H1 H2 H3 H4 H5 H6 H7 H8]. constructor; simpl; try done.
      intros j m' Hj. apply lookup_insert_Some in Hj as [[<- <-]|[? Hj]]; auto.
    + eexists. split; [done|]. split; [|simpl; split; [lia|done]].
      destruct Hi as [[Hinj Hlt] H2 H3 H4 H5 H6 H7 H8]. constructor; simpl; try done.
      * split.
        -- intros p1 p2 i G1 G2. apply lookup_insert_Some in G1 as [[<- <-]|[Hn1 G1]], G2 as [[<- Hx]|[Hn2 G2]]; try done.
           ++ apply Hlt in G2. lia.
           ++ apply Hlt in G1. lia.
           ++ by eapply Hinj.
        -- intros p1 i G1. apply lookup_insert_Some in G1 as [[<- <-]|[Hn1 G1]]; [lia|]. apply Hlt in G1. lia.
      * intros i m' G. apply lookup_insert_Some in G as [[<- <-]|[Hn G]]; [by rewrite lookup_insert|].
        apply H2 in G. rewrite lookup_insert_ne; [done|]. congruence.
      * intros i t Hs Hd. destruct (H4 i t Hs Hd). split; [lia|done].
      * intros s pk v Hv. destruct (H8 s pk v Hv). split; [|done]. eapply tpa_ok_mono; [done|lia].
  - eexists. split; [done|]. split; [|done]. destruct Hi as [H1 H2 H3 H4 H5 H6 H7 H8]. constructor; simpl; try done.
    intros q m' Hq. apply lookup_insert_Some in Hq as [[<- <-]|[? Hq]]; [done|]. by eapply H6.
  - destruct (ts_mint_ix ts !! pk) as [i|] eqn:Hm.
    + eexists. split; [done|]. split; [|done]. destruct Hi as [[Hinj Hlt] H2 H3 H4 H5 H6 H7 H8]. constructor; simpl; try done.
      * split.
        -- intros p1 p2 j G1 G2. apply lookup_delete_Some in G1 as [? G1], G2 as [? G2]. by eapply Hinj.
        -- intros p1 j G1. apply lookup_delete_Some in G1 as [? G1]. by eapply Hlt.
      * intros j m' G. apply lookup_delete_Some in G as [Hne G]. apply H2 in G. rewrite lookup_delete_ne; [done|]. congruence.
    + destruct (tb_delete_spec _ pk (ti_table _ Hi)) as (tb & Hd & Hok & Hat & _). rewrite Hd. simpl. eexists. split; [done|]. split; [|done].
      apply tinv_table; try done.
      * intros j t Hs Hdl. destruct (stored_deleted_pos _ _ _ _ (ti_table _ Hi) Hd t Hs) as [Hs'| ->]; [by eapply ti_tokens|done].
      * intros q j t Hq. apply Hat in Hq as [_ Hq]. by eapply ti_live.
Qed.
Lemma add_finalized_ctr ts a ts' : add_finalized ts a = Done ts' -> ts_ctr ts <= ts_ctr ts'.
Proof.
  destruct a as [t|m|m pk|pk]; simpl; unfold add_token.
  - destruct (tb_save _ _) as [[[tb i] b]|]; [|done]. simpl. destruct b; intros [= <-]; simpl; lia.
  - destruct (_ !! _); intros [= <-]; simpl; lia.
  - intros [= <-]. simpl. lia.
  - destruct (_ !! _); [intros [= <-]; simpl; lia|]. destruct (tb_delete _ _); [|done]. intros [= <-]. simpl. lia.
Qed.
Lemma add_all_ctr l ts ts' : add_all ts l = Done ts' -> ts_ctr ts <= ts_ctr ts'.
Proof.
  revert ts. induction l as [|a l IH]; intros ts; simpl; [intros [= ->]; lia|]. destruct (add_finalized ts a) as [ts1|] eqn:H1; [|done].
  cbn [mbind res_bind]. intros H. apply IH in H. apply add_finalized_ctr in H1. lia.
Qed.
Lemma add_all_inv l ts ts' : tinv ts -> Forall (tpa_ok (ts_ctr ts)) l -> add_all ts l = Done ts' -> ts_ctr ts' <= 2 ^ 32 ->
  tinv ts' /\ ts_pend ts' = ts_pend ts /\ ts_fin ts' = ts_fin ts /\ ts_conf ts' = ts_conf ts.
Proof.
  revert ts. induction l as [|a l IH]; intros ts Hi Hf; simpl; [by intros [= ->]|]. destruct (add_finalized ts a) as [ts1|] eqn:H1; [|done].
  cbn [mbind res_bind]. intros H Hc. pose proof (add_all_ctr _ _ _ H). pose proof (add_finalized_ctr _ _ _ H1).
  apply Forall_cons in Hf as [Ha Hf]. destruct (add_finalized_inv ts a Hi Ha) as (ts2 & H2' & Hi2 & Hle & Hp & Hfn & Hcf); [lia|].
  rewrite H1 in H2'. injection H2' as <-. destruct (IH ts1 Hi2) as (? & ? & ? & ?); try done; [|by split_and!; congruence].
  eapply Forall_impl; [exact Hf|]. intros x Hx. by eapply tpa_ok_mono.
Qed.

(** Pending versions after each call. *)
Lemma finalize_versions p slot : sm_sorted p -> sm_sorted (pd_finalize p slot).1 /\
  (forall s pk v, version (pd_finalize p slot).1 s pk v -> version p s pk v) /\
  (forall pk v s, (pd_finalize p slot).2 !! pk = Some (v, s) -> version p s pk v).
Proof.
  intros Hs. destruct (finalize_spec p slot Hs) as (Hs' & H1 & H2 & _). split; [done|]. split.
  - intros s pk v Hv. apply (version_get _ Hs') in Hv as (b & Hb & Hv). apply (version_get _ Hs). exists b. split; [|done].
    destruct (H2 s); congruence.
  - intros pk v s Hx. apply H1 in Hx. by apply nearest_chain in Hx as [_ ?].
Qed.

Lemma account_type_ctr E a ix ctr ty ix' ctr' : account_type E a ix ctr = Done (Some (ty, ix', ctr')) -> ctr <= ctr'.
Proof.
  intros H. apply account_type_inv in H as [(-> & -> & ->)|[Hl (p & v & Ho & Hv & [(m & x & Hu & -> & -> & ->)|[(m & Hu & -> & -> & ->)|(s & i & Hu & Hmi & ->)]])]]; try lia.
  unfold mint_index in Hmi. destruct (ix !! sa_mint s); injection Hmi as <- <- <-; lia.
Qed.
Lemma account_type_names E a ix ctr ty ix' ctr' p i : account_type E a ix ctr = Done (Some (ty, ix', ctr')) ->
  ix' !! p = Some i -> ix !! p = None -> exists v r, data_bytes E (d_data a) = Done v /\ unpack_account v = Some r /\ sa_mint r = p.
Proof.
  intros H H1 H2. apply account_type_inv in H as [(-> & -> & ->)|[Hl (p' & v & Ho & Hv & [(m & x & Hu & -> & -> & ->)|[(m & Hu & -> & -> & ->)|(s & j & Hu & Hmi & ->)]])]]; try congruence.
  exists v, s. split; [done|]. split; [done|]. unfold mint_index in Hmi. destruct (ix !! sa_mint s); injection Hmi as <- <- <-; [congruence|].
  apply lookup_insert_Some in H1 as [[? _]|[_ H1]]; congruence.
Qed.
Lemma step_ctr E X ts o ts' : ts_step E X ts o = Done ts' -> op_ok o -> ts_ctr ts <= ts_ctr ts'.
Proof.
  destruct o as [a c|a|ord si c|p b]; simpl; [| | |done].
  - intros H _. unfold ts_update in H. destruct (is_token ts a) as [[]|]; [|by injection H as <-|done]. cbn [mbind res_bind] in H.
    destruct (account_type _ _ _ _) as [[[[ty ix] ctr]|]|] eqn:Ht; [|by injection H as <-|done]. cbn [mbind res_bind] in H.
    apply account_type_ctr in Ht. destruct c.
    + destruct (pd_insert _ _ _ _ _) as [p b0]. by injection H as <-.
    + destruct (pd_insert _ _ _ _ _) as [p b0]. by injection H as <-.
    + destruct (add_finalized _ ty) as [ts1|] eqn:H1; [|done]. cbn [mbind res_bind] in H. injection H as <-. apply add_finalized_ctr in H1. simpl in H1. lia.
  - intros H _. unfold ts_init in H. destruct (is_token ts a) as [[]|]; [|by injection H as <-|done]. cbn [mbind res_bind] in H.
    destruct (account_type _ _ _ _) as [[[[ty ix] ctr]|]|] eqn:Ht; [|by injection H as <-|done]. cbn [mbind res_bind] in H.
    apply account_type_ctr in Ht. apply add_finalized_ctr in H. simpl in H. lia.
  - intros H _. unfold ts_slot in H. destruct c.
    + cbn [mbind res_bind] in H. by injection H as <-.
    + destruct (ts_conf ts <? si_slot si); destruct (pd_for_slot _ _ _) as [[p l]|]; try done; cbn [mbind res_bind] in H; by injection H as <-.
    + destruct (ts_fin ts <? si_slot si); destruct (pd_finalize _ _) as [p m]; destruct (to_accts _ _) as [r|]; try done; cbn [mbind res_bind] in H;
        destruct (add_all _ _) as [ts1|] eqn:H1; try done; cbn [mbind res_bind] in H; injection H as <-; by apply add_all_ctr in H1.
Qed.

(** [ts1] is [ts] but for pending accounts, slots and mints named by the account of [o]. *)
Record same_fin (E : ext) (o : tsop) (ts ts1 : tstore) : Prop := SameFin {
  sf_mints : ts_mints ts1 = ts_mints ts;
  sf_multi : ts_multi ts1 = ts_multi ts;
  sf_by_mint : ts_by_mint ts1 = ts_by_mint ts;
  sf_by_owner : ts_by_owner ts1 = ts_by_owner ts;
  sf_table : ts_table ts1 = ts_table ts;
  sf_ix : forall p i, ts_mint_ix ts !! p = Some i -> ts_mint_ix ts1 !! p = Some i;
  sf_new : forall p i, ts_mint_ix ts1 !! p = Some i -> ts_mint_ix ts !! p = None -> ts_mints ts !! i = None /\ op_names E o p;
}.
Lemma mints_below ts i m : tinv ts -> ts_mints ts !! i = Some m -> i < ts_ctr ts.
Proof. intros Hi H. apply (ti_mints _ Hi) in H. by apply (ti_ix _ Hi) in H. Qed.
Lemma step_shape E X ts o ts' : ts_step E X ts o = Done ts' -> op_ok o -> tinv ts -> ts_ctr ts' <= 2 ^ 32 ->
  exists ts1, add_all ts1 (fst <$> deliveries E ts o) = Done ts' /\ tinv ts1 /\ same_fin E o ts ts1 /\
    Forall (fun x => tpa_ok (ts_ctr ts1) x) (fst <$> deliveries E ts o).
Proof.
  intros H Hok Hi Hc. assert (same_fin E o ts ts) as Hrefl by (constructor; try done; congruence).
  assert (forall a ty ix ctr, op_acct o = Some a -> d_pubkey a < 2 ^ 256 -> account_type E a (ts_mint_ix ts) (ts_ctr ts) = Done (Some (ty, ix, ctr)) ->
    tinv (set_ix ts ix ctr) /\ same_fin E o ts (set_ix ts ix ctr) /\ tpa_ok ctr ty /\ tpa_pubkey ty = d_pubkey a) as Hacc.
  { intros a ty ix ctr Hop Hp Ht. destruct (accepted_ok _ _ _ _ _ _ _ Ht Hp (ti_ix _ Hi)) as (Hix & Hle & Hty & Hpk & Hsub & Hnew & _).
    split; [by apply tinv_set_ix|]. split; [|done]. constructor; try done. simpl. intros p i Hpi Hn.
    destruct (Hnew p i Hpi Hn) as (-> & _). split.
    - destruct (ts_mints ts !! ts_ctr ts) as [m|] eqn:Hm; [|done]. apply (mints_below _ _ _ Hi) in Hm. lia.
    - destruct (account_type_names _ _ _ _ _ _ _ _ _ Ht Hpi Hn) as (v & r & Hv & Hr & Hm). exists a, v, r. done. }
  destruct o as [a c|a|ord si c|p b]; simpl in H, Hok; [| | |done].
  - unfold ts_update in H. cbn [deliveries]. unfold accepted. destruct (is_token ts a) as [[]|]; [|injection H as <-|done].
    2:{ exists ts. destruct c; simpl; split_and!; try done; constructor. }
    cbn [mbind res_bind] in H. destruct (account_type _ _ _ _) as [[[[ty ix] ctr]|]|] eqn:Ht; [|injection H as <-|done].
    2:{ exists ts. destruct c; simpl; split_and!; try done; constructor. }
    cbn [mbind res_bind] in H. destruct (Hacc a ty ix ctr eq_refl Hok Ht) as (Hi1 & Hsf & Hty & Hpk).
    assert (forall p b0, pd_insert (ts_pend (set_ix ts ix ctr)) (d_pubkey a) ty (d_wv a) (d_slot a) = (p, b0) ->
       tinv (set_pend (set_ix ts ix ctr) p)) as Hpd.
    { intros p b0 Hpi. pose proof (pd_insert_sorted _ (d_pubkey a) ty (d_wv a) (d_slot a) (ti_sorted _ Hi1)) as Hsp.
      rewrite Hpi in Hsp. simpl in Hsp. apply tinv_set_pend; [done..|]. intros s pk v Hv.
      pose proof (insert_version _ (d_pubkey a) ty (d_wv a) (d_slot a) s pk v (ti_sorted _ Hi1)) as Hiv. rewrite Hpi in Hiv. simpl in Hiv.
      apply Hiv in Hv. destruct (decide _) as [[-> ->]|Hne]; [destruct Hv as [[-> _]|[Hv _]]|]; [done| |];
        by apply (ti_pend _ Hi1 _ _ _) in Hv. }
    destruct c.
    + destruct (pd_insert _ _ _ _ _) as [p b0] eqn:Hpi. injection H as <-. eexists. split; [done|]. split; [by eapply Hpd|]. split; [|constructor].
      destruct Hsf. by constructor.
    + destruct (pd_insert _ _ _ _ _) as [p b0] eqn:Hpi. injection H as <-. eexists. split; [done|]. split; [by eapply Hpd|]. split; [|constructor].
      destruct Hsf. by constructor.
    + destruct (add_finalized _ ty) as [ts1|] eqn:H1; [|done]. cbn [mbind res_bind] in H. injection H as <-.
      exists (set_ix ts ix ctr). simpl. rewrite H1. split; [done|]. split; [done|]. split; [done|]. by constructor.
  - unfold ts_init in H. cbn [deliveries]. unfold accepted. destruct (is_token ts a) as [[]|]; [|injection H as <-|done].
    2:{ exists ts. simpl. split_and!; try done; constructor. }
    cbn [mbind res_bind] in H. destruct (account_type _ _ _ _) as [[[[ty ix] ctr]|]|] eqn:Ht; [|injection H as <-|done].
    2:{ exists ts. simpl. split_and!; try done; constructor. }
    cbn [mbind res_bind] in H. destruct (Hacc a ty ix ctr eq_refl Hok Ht) as (Hi1 & Hsf & Hty & Hpk).
    exists (set_ix ts ix ctr). simpl. rewrite H. split; [done|]. split; [done|]. split; [done|]. by constructor.
  - unfold ts_slot in H. assert (tinv (set_pend ts (pd_slot_info (ts_pend ts) si))) as Hinfo.
    { apply tinv_set_pend; [done|apply pd_slot_info_sorted, ti_sorted, Hi|]. intros s pk v Hv. apply (slot_info_version _ _ _ _ _ (ti_sorted _ Hi)) in Hv.
      by apply (ti_pend _ Hi _ _ _) in Hv. }
    destruct c; cbn [deliveries].
    + cbn [mbind res_bind] in H. injection H as <-. eexists. split; [done|]. split; [done|]. split; [by destruct Hrefl|constructor].
    + set (ts1 := if ts_conf ts <? si_slot si then _ else _) in H. assert (tinv ts1 /\ same_fin E (TSlot ord si Confirmed) ts ts1) as [Hi1 Hsf].
      { unfold ts1. destruct (_ <? _); [|done]. split; [|by destruct Hrefl].
        apply tinv_set_pend; [by apply tinv_set_conf|apply (ti_sorted _ Hinfo)|apply (ti_pend _ Hinfo)]. }
      destruct (pd_for_slot _ _ _) as [[p l]|] eqn:Hfs; [|done]. cbn [mbind res_bind] in H. injection H as <-.
      apply pd_for_slot_pend in Hfs. eexists. split; [done|]. split; [|split; [by destruct Hsf|constructor]].
      subst p. destruct (sm_get _ _); apply tinv_set_pend; try done; try (by apply ti_sorted).
      * apply (ti_pend _ Hi1).
      * apply pd_slot_info_sorted, ti_sorted, Hi1.
      * intros s pk v Hv. apply (slot_info_version _ _ _ _ _ (ti_sorted _ Hi1)) in Hv. by apply (ti_pend _ Hi1 _ _ _) in Hv.
    + set (p0 := if ts_fin ts <? si_slot si then pd_slot_info (ts_pend ts) si else ts_pend ts).
      set (ts1 := if ts_fin ts <? si_slot si then _ else _) in H. assert (tinv ts1 /\ same_fin E (TSlot ord si Finalized) ts ts1 /\ ts_pend ts1 = p0) as (Hi1 & Hsf & Hp0).
      { unfold ts1, p0. destruct (_ <? _); [|done]. split; [by apply tinv_set_fin|]. split; [by destruct Hrefl|done]. }
      rewrite Hp0 in H. pose proof (ti_sorted _ Hi1) as Hs1. rewrite Hp0 in Hs1.
      destruct (finalize_versions p0 (si_slot si) Hs1) as (Hs2 & Hv1 & Hv2).
      destruct (pd_finalize p0 (si_slot si)) as [p m]. simpl in *.
      destruct (to_accts _ _) as [r|]; [|done]. cbn [mbind res_bind] in H. destruct (add_all _ _) as [ts2|] eqn:H2; [|done].
      cbn [mbind res_bind] in H. injection H as <-. exists (set_pend ts1 p).
      assert ((λ x : pacct * N, x.1.1) <$> ((λ x : pubkey * (pacct * N), x.2) <$> ord m) = fst <$> ((λ x : pubkey * (pacct * N), (x.2.1.1, Some x.2.2)) <$> ord m)) as He.
      { rewrite <- !list_fmap_compose. apply list_fmap_ext. by intros ? []. }
      rewrite <- He. split; [done|]. pose proof (ti_pend _ Hi1) as Hpd. rewrite Hp0 in Hpd. split; [|split].
      * apply tinv_set_pend; [done..|]. intros s pk v Hv. by apply (Hpd s pk), Hv1.
      * by destruct Hsf.
      * apply Forall_forall. intros x Hx. apply elem_of_list_fmap in Hx as ([v s] & -> & Hx). apply elem_of_list_fmap in Hx as ([pk [v' s']] & [= <- <-] & Hx).
        rewrite (Hok m) in Hx. apply elem_of_map_to_list in Hx. apply Hv2 in Hx. by apply (Hpd s pk) in Hx as [? _].
Qed.
Lemma step_inv E X ts o ts' : ts_step E X ts o = Done ts' -> op_ok o -> tinv ts -> ts_ctr ts' <= 2 ^ 32 -> tinv ts'.
Proof. intros H Hok Hi Hc. destruct (step_shape _ _ _ _ _ H Hok Hi Hc) as (ts1 & Ha & Hi1 & _ & Hf). by eapply add_all_inv. Qed.
Lemma run_ctr E X l ts ts' : ts_run E X ts l = Done ts' -> ops_ok l -> ts_ctr ts <= ts_ctr ts'.
Proof.
  revert ts. induction l as [|o l IH]; intros ts H Hok; simpl in H; [injection H as <-; lia|]. apply Forall_cons in Hok as [Ho Hok].
  destruct (ts_step E X ts o) as [ts1|] eqn:H1; [|done]. cbn [mbind res_bind] in H. apply IH in H; [|done]. apply step_ctr in H1; [|done]. lia.
Qed.
Lemma run_inv E X l ts ts' : ts_run E X ts l = Done ts' -> ops_ok l -> tinv ts -> ts_ctr ts' <= 2 ^ 32 -> tinv ts'.
Proof.
  revert ts. induction l as [|o l IH]; intros ts H Hok Hi Hc; simpl in H; [by injection H as <-|]. apply Forall_cons in Hok as [Ho Hok].
  destruct (ts_step E X ts o) as [ts1|] eqn:H1; [|done]. cbn [mbind res_bind] in H. pose proof (run_ctr _ _ _ _ _ H Hok).
  eapply IH; [done..| |done]. eapply step_inv; [done..|]. lia.
Qed.
