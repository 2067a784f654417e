(** What the answer of [update_account] of the token store tells (C105). *)
From Verif Require Import Base SMap DataModel BincodeModel BincodeProofs FilterModel FilterProofs StoreModel TokenModel TokenProofs TokenProps SplModel SplProofs TokenUtilsModel
  TokenUtilsProofs TokenPendModel TokenPendSpec TokenPendProofs TokenPendProps TokenUtilsProps TokenStoreModel TokenStoreSpec TokenStoreProofs TokenStoreViews TokenStoreProps TokenStoreOrder
  TokenStoreQuery TokenStoreQueryProps TokenStoreSafe.

(** If [a] is read as a token account, its mint has a number already. *)
Definition mint_numbered (E : ext) (ts : tstore) (a : acct) : Prop :=
  forall v r, data_bytes E (d_data a) = Done v -> unpack_account v = Some r -> is_Some (ts_mint_ix ts !! sa_mint r).
Lemma account_type_ix E ts a ty ix ctr : mint_numbered E ts a -> account_type E a (ts_mint_ix ts) (ts_ctr ts) = Done (Some (ty, ix, ctr)) ->
  ix = ts_mint_ix ts /\ ctr = ts_ctr ts.
Proof.
  intros Hm. unfold account_type. destruct (_ || _); [intros H; by injection H|].
  assert (forall v q x, data_bytes E (d_data a) = Done v ->
    match unpack_account v with Some s => let '(i, ix', ctr') := mint_index (sa_mint s) (ts_mint_ix ts) (ts_ctr ts) in Some (TPToken (of_spl_account q a s i x), ix', ctr') | None => None end = Some (ty, ix, ctr) ->
    ix = ts_mint_ix ts /\ ctr = ts_ctr ts) as Htok.
  { intros v q x Hv H. destruct (unpack_account v) as [s|] eqn:Hu; [|done]. destruct (Hm v s Hv Hu) as [i Hi]. unfold mint_index in H. rewrite Hi in H. by injection H. }
  destruct (data_bytes E (d_data a)) as [v|] eqn:Hv; cbn [mbind res_bind]; [|by destruct (d_owner a =? spl_2022_id)].
  assert (forall q x, match unpack_mint v with Some m => Some (TPMint (of_spl_mint q a m x), ts_mint_ix ts, ts_ctr ts) | None => None end = Some (ty, ix, ctr) -> ix = ts_mint_ix ts /\ ctr = ts_ctr ts) as Hmi.
  { intros q x H. destruct (unpack_mint v); [|done]. by injection H. }
  assert (forall q, match unpack_multisig v with Some m => Some (TPMulti (of_spl_multisig q a m) (d_pubkey a), ts_mint_ix ts, ts_ctr ts) | None => None end = Some (ty, ix, ctr) -> ix = ts_mint_ix ts /\ ctr = ts_ctr ts) as Hmu.
  { intros q H. destruct (unpack_multisig v); [|done]. by injection H. }
  destruct (d_owner a =? spl_2022_id).
  - destruct (data_len (d_data a) =? 82); [intros [= H]; by eapply Hmi|]. destruct (data_len (d_data a) =? 165); [intros [= H]; by eapply Htok|].
    destruct (data_len (d_data a) =? 355); [intros [= H]; by eapply Hmu|]. destruct (165 <? data_len (d_data a)); [|done].
    destruct (v !! 165%nat) as [x|]; cbn [unwrap mbind res_bind]; [|done]. destruct (b2n x =? 1); [intros [= H]; by eapply Hmi|]. destruct (b2n x =? 2); [intros [= H]; by eapply Htok|done].
  - destruct (data_len (d_data a) =? 82); [intros [= H]; by eapply Hmi|]. destruct (data_len (d_data a) =? 165); [intros [= H]; by eapply Htok|]. intros [= H]; by eapply Hmu.
Qed.

(** If the answer is false the store is what it was, provided a token account does not name a mint without a number. *)
Theorem C105_token_false_means_unchanged_partial : forall E ts a c ts',
  ts_update E ts a c = Done (ts', false) -> mint_numbered E ts a -> ts' = ts.
Proof.
  intros E ts a c ts' H Hm. unfold ts_update in H. destruct (is_token ts a) as [k|]; cbn [mbind res_bind] in H; [|done].
  destruct k; [|by injection H as <-]. destruct (account_type E a (ts_mint_ix ts) (ts_ctr ts)) as [[[[ty ix] ctr]|]|] eqn:Ht; cbn [mbind res_bind] in H; [|by injection H as <-|done].
  destruct (account_type_ix E ts a ty ix ctr Hm Ht) as [-> ->].
  assert (set_ix ts (ts_mint_ix ts) (ts_ctr ts) = ts) as Hid by (by destruct ts). rewrite Hid in H.
  assert (forall p b, pd_insert (ts_pend ts) (d_pubkey a) ty (d_wv a) (d_slot a) = (p, b) -> b = false -> p = ts_pend ts) as Hp.
  { intros p b Hi ->. unfold pd_insert in Hi. destruct (sm_get _ _) as [s|]; [|done]. destruct (ps_accounts s !! _) as [[? w]|]; [|done]. destruct (w <? d_wv a); [done|]. by injection Hi. }
  destruct c.
  - destruct (pd_insert _ _ _ _ _) as [p b] eqn:Hi. injection H as <- ->. rewrite (Hp _ _ eq_refl eq_refl). by destruct ts.
  - destruct (pd_insert _ _ _ _ _) as [p b] eqn:Hi. injection H as <- ->. rewrite (Hp _ _ eq_refl eq_refl). by destruct ts.
  - destruct (add_finalized _ _) as [?|]; cbn [mbind res_bind] in H; [by injection H|done].
Qed.
Print Assumptions C105_token_false_means_unchanged_partial.
Definition held77 : list tsop := [TUpdate (mintd 1001 5 10 1) Finalized; TUpdate (tokd 77 1001 1002 5 10 3) Processed].
Example C105_token_false_example : ts_run E0 X0 ts_empty held77 = Done (final held77) /\ ts_update E0 (final held77) (tokd 77 1001 1002 9 10 2) Confirmed = Done (final held77, false) /\
  mint_numbered E0 (final held77) (tokd 77 1001 1002 9 10 2).
Proof.
  split; [apply final_run; by vm_compute|]. split; [by vm_compute|]. intros v r Hv Hu. vm_compute in Hv. injection Hv as <-. vm_compute in Hu. injection Hu as <-. exists 0. by vm_compute.
Qed.
(** A delivery below finalized that the store can read is answered with true exactly if no version of the account is held for the slot, or one with a
    smaller write version; then it is held instead. *)
Theorem C105_token_answer_exact : forall E ts a c ts' r ty ix ctr,
  ts_update E ts a c = Done (ts', r) -> c <> Finalized -> is_token ts a = Done true -> account_type E a (ts_mint_ix ts) (ts_ctr ts) = Done (Some (ty, ix, ctr)) ->
  let held ts s := match sm_get s (ts_pend ts) with Some p => ps_accounts p !! d_pubkey a | None => None end in
  (r = true <-> forall x w, held ts (d_slot a) = Some (x, w) -> w < d_wv a) /\
  (r = true -> held ts' (d_slot a) = Some (ty, d_wv a)) /\ (r = false -> held ts' (d_slot a) = held ts (d_slot a)).
Proof.
  intros E ts a c ts' r ty ix ctr H Hc Hk Ht held. unfold ts_update in H. rewrite Hk, Ht in H. cbn [mbind res_bind] in H.
  destruct (pd_insert (ts_pend (set_ix ts ix ctr)) (d_pubkey a) ty (d_wv a) (d_slot a)) as [p b] eqn:Hi.
  assert (ts' = set_pend (set_ix ts ix ctr) p /\ r = b) as [-> ->] by (destruct c; [by injection H as <- <-|by injection H as <- <-|done]). clear H.
  unfold held. cbn. unfold pd_insert in Hi. cbn in Hi. destruct (sm_get (d_slot a) (ts_pend ts)) as [s|] eqn:Hs.
  - destruct (ps_accounts s !! d_pubkey a) as [[x w]|] eqn:Hh; [destruct (N.ltb_spec w (d_wv a))|]; injection Hi as <- <-.
    + rewrite sm_get_put. cbn. rewrite lookup_insert. split_and!; [|done|done]. split; [|done]. by intros _ x' w' [= <- <-].
    + rewrite Hs, Hh. split_and!; [|done|done]. split; [done|]. intros Hx. specialize (Hx _ _ eq_refl). lia.
    + rewrite sm_get_put. cbn. rewrite lookup_insert. split_and!; [|done|done]. by split.
  - injection Hi as <- <-. rewrite sm_get_put. cbn. rewrite lookup_singleton. split_and!; [|done|done]. by split.
Qed.
Print Assumptions C105_token_answer_exact.
Example C105_token_answer_example : exists ts' ty ix ctr, ts_update E0 (final held77) (tokd 77 1001 1002 9 10 4) Processed = Done (ts', true) /\
  is_token (final held77) (tokd 77 1001 1002 9 10 4) = Done true /\ account_type E0 (tokd 77 1001 1002 9 10 4) (ts_mint_ix (final held77)) (ts_ctr (final held77)) = Done (Some (ty, ix, ctr)).
Proof.
  exists (match ts_update E0 (final held77) (tokd 77 1001 1002 9 10 4) Processed with Done (t, _) => t | Panic => ts_empty end).
  destruct (account_type E0 (tokd 77 1001 1002 9 10 4) (ts_mint_ix (final held77)) (ts_ctr (final held77))) as [[[[ty ix] ctr]|]|] eqn:He;
    [|by vm_compute in He|by vm_compute in He].
  exists ty, ix, ctr. split; [by vm_compute|]. split; [by vm_compute|done].
Qed.
(** Without the proviso the answer false is wrong: the token account delivered again, with an older write version and another mint, is answered with false,
    and afterwards reading that mint's key panics. *)
Theorem C105_token_false_but_changed_refuted : exists l a m ts', ts_run E0 X0 ts_empty l = Done (final l) /\ ts_update E0 (final l) a Processed = Done (ts', false) /\
  ts_get (final l) m Finalized = Done (ROk None) /\ ts_get ts' m Finalized = Panic.
Proof.
  exists [TUpdate (tokd 77 1001 1002 5 10 3) Processed], (tokd 77 1003 1002 5 10 2), 1003.
  exists (match ts_update E0 (final [TUpdate (tokd 77 1001 1002 5 10 3) Processed]) (tokd 77 1003 1002 5 10 2) Processed with Done (t, _) => t | Panic => ts_empty end).
  split; [apply final_run; by vm_compute|]. split_and!; by vm_compute.
Qed.
Print Assumptions C105_token_false_but_changed_refuted.
(** And true does not mean that anything changed: finalized deliveries are always answered with true. *)
Theorem C105_token_true_but_unchanged_refuted : exists l a, ts_run E0 X0 ts_empty l = Done (final l) /\ ts_update E0 (final l) a Finalized = Done (final l, true).
Proof.
  exists [TUpdate (mintd 1001 5 10 1) Finalized; TUpdate (tokd 77 1001 1002 5 10 3) Finalized], (tokd 77 1001 1002 5 10 3).
  split; [apply final_run; by vm_compute|]. by vm_compute.
Qed.
Print Assumptions C105_token_true_but_unchanged_refuted.
